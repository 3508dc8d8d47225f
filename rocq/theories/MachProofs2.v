(** * Proofs for the V1 machine: vector instructions on machine states *)
From Coq Require Import ZArith List Bool String Lia ZifyBool ZifyNat.
From Verif Require Import CInt VecModel VecSpec VecProofs VecEl ConvModel ConvSpec MemModel MemSpec MemProofs LogModel.
From Verif Require Import DecodeTypes DecodeTable DecodeModel DecodeSpec DecodeProofs DecodeProofs2 DecodeProofs3 DecodeProofs4.
From Verif Require Import V2DecModel V1ScalModel TopModel MachModel MachSpec MachProofs.
Import ListNotations.
Open Scope string_scope.
Open Scope Z_scope.

(** ** Vector registers as numbers *)
Lemma le_digit b n : forall off j, (forall i, 0 <= i < Z.of_nat n -> 0 <= b (off + i) < 256) -> 0 <= j < Z.of_nat n ->
  le b off n / 256 ^ j mod 256 = b (off + j).
Proof.
  induction n as [|n IH]; intros off j Hb Hj; [lia|]. cbn [le].
  assert (R : 0 <= b off < 256) by (specialize (Hb 0); rewrite Z.add_0_r in Hb; apply Hb; lia).
  destruct (Z.eq_dec j 0) as [->|N].
  - rewrite Z.pow_0_r, Z.div_1_r, Z.add_0_r. rewrite Z.mul_comm, Z_mod_plus_full. now apply Z.mod_small.
  - replace (256 ^ j) with (256 * 256 ^ (j - 1)) by (rewrite <- Z.pow_succ_r by lia; f_equal; lia).
    rewrite <- Z.div_div by (try apply Z.pow_pos_nonneg; lia).
    rewrite (Z.mul_comm 256), Z.div_add, (Z.div_small (b off)), Z.add_0_l by lia.
    rewrite IH; [f_equal; lia| |lia]. intros i Hi. specialize (Hb (1 + i)). rewrite Z.add_assoc in Hb. apply Hb. lia.
Qed.
Lemma lane_ext T b b' j : VecProofs.small T -> 0 <= j < nlanes T -> (forall i, 0 <= i < 32 -> b i = b' i) -> lane T b j = lane T b' j.
Proof.
  intros HT Hj H. unfold lane. f_equal. rewrite !uval_le. apply le_ext. intros i Hi.
  rewrite nlanes_elts in Hj by assumption. pose proof (elts_sizeof T HT). pose proof (sizeof_pos T).
  change (bits T / 8) with (lanebytes T) in *. rewrite lanebytes_sizeof in *. apply H. nia.
Qed.

Section View.
  Context {S : Type}.
  Notation arch := (arch (C := core S)).
  Notation effect := (effect (C := core S)).
  (** Nothing of the core changes but the clock. *)
  Definition keeps (s s' : arch) : Prop :=
    k_acc (a_csr s') = k_acc (a_csr s) /\ k_dw (a_csr s') = k_dw (a_csr s) /\ k_log (a_csr s') = k_log (a_csr s) /\
    k_wrong (a_csr s') = k_wrong (a_csr s) /\ k_sys (a_csr s') = k_sys (a_csr s).

  Lemma to_w_wf (s : arch) m : wf (w_v (to_w s m)).
  Proof. intros r j _. cbn [to_w w_v]. apply Z.mod_pos_bound. lia. Qed.
  Lemma of_w_x (s : arch) w i : i < 64 -> a_regs (of_w s w) i = w_x w i.
  Proof. intros H. cbn [of_w a_regs]. now replace (i <? 64) with true by lia. Qed.
  Lemma of_w_v (s : arch) w r j : 0 <= r -> 0 <= j < 32 -> (forall i, 0 <= i < 32 -> 0 <= w_v w r i < 256) ->
    vbyte (of_w s w) r j = w_v w r j.
  Proof.
    intros Hr Hj Hb. unfold vbyte. cbn [of_w a_regs]. replace (64 + r <? 64) with false by lia.
    replace (64 + r - 64) with r by lia. rewrite le_digit; [reflexivity| |exact Hj].
    intros i Hi. rewrite Z.add_0_l. apply Hb. exact Hi.
  Qed.
  Lemma of_w_core (s : arch) w : keeps s (with_core tock (of_w s w)) <-> w_acc w = k_acc (a_csr s) /\ w_dw w = k_dw (a_csr s).
  Proof. unfold keeps. cbn. tauto. Qed.
End View.

Section Mach.
  Context {S : Type}.
  Notation arch := (arch (C := core S)).
  Notation effect := (effect (C := core S)).
  Variable d : decoder.
  Variable zbb : Z -> option act.
  Variable sys : act -> Z -> arch -> (Z -> Z) -> arch * (Z -> Z) * Z * option Z.
  Variable junk : Z -> Z -> vbytes.
  Variable ljunk : Z -> Z.
  Notation exec := (exec1 d zbb sys junk ljunk).


  Lemma exec_vec w e a s m : parse d w = Some e -> ~ is_scalar_op (e_sem e) -> exec w a s m = exec_vector junk e w a s m.
  Proof. intros Hp Hs. unfold exec1. rewrite Hp. destruct (e_sem e); try reflexivity. now destruct Hs. Qed.

  (** ** Loads and stores *)
  Theorem mach_load w e a s m T len stride st Tw stw :
    decoder_ok d -> parse d w = Some e -> meaning (e_name e) = Some (SmLd T len stride st Tw stw) -> a_regs s 0 = 0 ->
    let N := if w_m w then 4 else 1 in
    let o := operands w (e_name e) s len stride false in
    let f := exec w a s m in
    f_mem f = m /\ f_pc f = next a /\ keeps s (f_arch f) /\
    (exists x, post_spec T o false (a_regs s) x /\ forall i, i < 64 -> a_regs (f_arch f) i = x i) /\
    (over T o false -> f_halt f = Some RUserRequest /\ forall r j, 0 <= r -> 0 <= j < 32 -> vbyte (f_arch f) r j = vbyte s r j) /\
    (~ over T o false -> f_halt f = None /\
      (forall k j, 0 <= k < N -> 0 <= j < nlanes T ->
        lane T (vbyte (f_arch f) (f_vd w + k)) j =
        let n := k * nlanes T + j in
        if n <? nsel T o then trunc T (uval (Z.to_nat (lanebytes T)) m (eaddr T o false n)) else 0) /\
      (forall r j, 0 <= r -> ~ (f_vd w <= r < f_vd w + N) -> 0 <= j < 32 -> vbyte (f_arch f) r j = vbyte s r j)).
  Proof.
    intros Hd Hp M H0 N o f. pose proof (parse_sound d w e Hd Hp) as He. pose proof (sem_of e _ (proj1 He) M (fun f => f)) as Es.
    assert (HT : VecProofs.small T) by (apply (small_of e w T He); now rewrite Es).
    unfold f. rewrite (exec_vec w e) by (assumption || now rewrite Es). unfold exec_vector.
    destruct (load_step e w a (to_w s m) (junk (k_clock (a_csr s))) _ _ _ _ _ _ He Es H0 eq_refl) as (-> & _ & x & HP & [(HO & ->)|(HO & rf & -> & HL & HR & HB)]);
      cbn [bind raised on_trap f_mem f_pc f_arch f_halt]; change (mem_operands _ _ _ _ _ _ _ _ _ _) with o in *.
    - split; [reflexivity|]. split; [reflexivity|]. split; [now apply of_w_core|]. split.
      { exists x. split; [exact HP|]. intros i Hi. apply of_w_x. exact Hi. }
      split; [intros _|intros K; now destruct K]. split; [reflexivity|]. intros r j Hr Hj.
      apply of_w_v; [exact Hr|exact Hj|]. intros i Hi. exact (to_w_wf s m r i Hi).
    - split; [reflexivity|]. split; [reflexivity|]. split; [now apply of_w_core|]. split.
      { exists x. split; [exact HP|]. intros i Hi. apply of_w_x. exact Hi. }
      split; [intros K; now destruct HO|intros _]. split; [reflexivity|].
      assert (V : forall r j, 0 <= r -> 0 <= j < 32 -> vbyte (with_core tock (of_w s (WS m rf x (k_acc (a_csr s)) (k_dw (a_csr s)) []))) r j = rf r j).
      { intros r j Hr Hj. apply of_w_v; [exact Hr|exact Hj|]. intros i Hi. cbn [w_v].
        destruct (Z_lt_dec r (f_vd w)) as [L|L]; [|destruct (Z_lt_dec r (f_vd w + N)) as [L2|L2]].
        - rewrite HR by lia. exact (to_w_wf s m r i Hi).
        - replace r with (f_vd w + (r - f_vd w)) by lia. apply HB; [fold N; lia|exact Hi].
        - rewrite HR by (fold N; lia). exact (to_w_wf s m r i Hi). }
      assert (0 <= f_vd w) by (unfold f_vd; apply Z.mod_pos_bound; lia).
      split.
      + intros k j Hk Hj. rewrite <- HL by assumption. apply lane_ext; [exact HT|exact Hj|]. intros i Hi. apply V; [lia|exact Hi].
      + intros r j Hr Ho Hj. etransitivity; [apply V; assumption|]. rewrite HR by exact Ho. reflexivity.
  Qed.
  Theorem mach_store w e a s m T len stride st quad :
    decoder_ok d -> parse d w = Some e ->
    meaning (e_name e) = Some (if quad : bool then SmStq T st else SmSt T len stride st) ->
    (quad = true -> len = false /\ stride = true) -> a_regs s 0 = 0 ->
    let o := operands w (e_name e) s len stride quad in
    let f := exec w a s m in
    f_pc f = next a /\ keeps s (f_arch f) /\
    (exists x, post_spec T o quad (a_regs s) x /\ forall i, i < 64 -> a_regs (f_arch f) i = x i) /\
    (forall r j, 0 <= r -> 0 <= j < 32 -> vbyte (f_arch f) r j = vbyte s r j) /\
    (over T o quad -> f_halt f = Some RUserRequest /\ f_mem f = m) /\
    (~ over T o quad -> f_halt f = None /\ stored T o quad (vbyte s) m (f_mem f)).
  Proof.
    intros Hd Hp M Hq H0 o f. pose proof (parse_sound d w e Hd Hp) as He.
    assert (Es : e_sem e = (if quad : bool then SmStq T st else SmSt T len stride st)).
    { apply (sem_of e _ (proj1 He) M). destruct quad; intros []. }
    unfold f. rewrite (exec_vec w e) by (assumption || rewrite Es; destruct quad; intros []). unfold exec_vector.
    destruct (store_step e w a (to_w s m) (junk (k_clock (a_csr s))) _ _ _ _ _ He Es Hq (to_w_wf s m) H0 eq_refl) as (-> & _ & x & HP & [(HO & ->)|(HO & m' & -> & HS)]);
      cbn [bind raised on_trap f_mem f_pc f_arch f_halt]; change (mem_operands _ _ _ _ _ _ _ _ _ _) with o in *.
    - split; [reflexivity|]. split; [now apply of_w_core|]. split.
      { exists x. split; [exact HP|]. intros i Hi. apply of_w_x. exact Hi. }
      split; [|split; [intros _|intros K; now destruct K]]; [|split; reflexivity]. intros r j Hr Hj.
      apply of_w_v; [exact Hr|exact Hj|]. intros i Hi. exact (to_w_wf s m r i Hi).
    - split; [reflexivity|]. split; [now apply of_w_core|]. split.
      { exists x. split; [exact HP|]. intros i Hi. apply of_w_x. exact Hi. }
      split; [|split; [intros K; now destruct HO|intros _]]; [|split; [reflexivity|exact HS]]. intros r j Hr Hj.
      apply of_w_v; [exact Hr|exact Hj|]. intros i Hi. exact (to_w_wf s m r i Hi).
  Qed.

  (** ** Element-wise operations *)
  Theorem mach_elementwise w e a s m o T sc st :
    decoder_ok d -> parse d w = Some e -> meaning (e_name e) = Some (SmVec (VEl o T) sc st) -> a_regs s 0 = 0 ->
    let N := if w_m w then 4 else 1 in
    let f := exec w a s m in
    let p k i := lane T (vbyte s (f_vs1 w + k)) i in
    let q k i := if w_form w =? 2 then trunc T (a_regs s (f_xs2 w)) else lane T (vbyte s (f_vs2 w + k)) i in
    no_hazard N (f_vd w) (f_vs1 w) -> (w_form w <> 2 -> no_hazard N (f_vd w) (f_vs2 w)) ->
    (forall k i, 0 <= k < N -> 0 <= i < nlanes T -> lane_pre o T (p k i) (q k i)) ->
    f_mem f = m /\ f_pc f = next a /\ f_halt f = None /\ keeps s (f_arch f) /\
    (forall i, i < 64 -> a_regs (f_arch f) i = a_regs s i) /\
    (forall r j, 0 <= r -> ~ (f_vd w <= r < f_vd w + N) -> 0 <= j < 32 -> vbyte (f_arch f) r j = vbyte s r j) /\
    forall k i, 0 <= k < N -> 0 <= i < nlanes T ->
      lane_spec o T (lane T (vbyte s (f_vd w + k)) i) (p k i) (q k i) (lane (dst_ty o T) (vbyte (f_arch f) (f_vd w + k)) i).
  Proof.
    intros Hd Hp M H0 N f p q H1 H2 HL. pose proof (parse_sound d w e Hd Hp) as He. pose proof (sem_of e _ (proj1 He) M (fun f => f)) as Es.
    assert (X : forall r, xval (to_w s m) r = a_regs s r).
    { intros r. unfold xval. cbn [to_w w_x]. destruct (r =? 0) eqn:E; [|reflexivity]. apply Z.eqb_eq in E. now rewrite E. }
    destruct (word_elementwise true a (junk (k_clock (a_csr s))) d w e (to_w s m) o T sc st Hd Hp M (to_w_wf s m) H0) as (s' & E & (R1 & R2 & R3 & R4 & R5) & W & F & L).
    { exact H1. } { exact H2. } { intros k i Hk Hi. rewrite X. now apply HL. }
    unfold exec_word in E. rewrite Hp in E.
    unfold f. rewrite (exec_vec w e) by (assumption || now rewrite Es). unfold exec_vector, vec_step.
    replace (mem_row e w (to_w s m)) with (@None (outcome (ity * mop * bool))) by (unfold mem_row; now rewrite Es).
    rewrite E. cbn [option_map bind]. rewrite R5. cbn [to_w w_traps f_mem f_pc f_arch f_halt].
    split; [exact R1|]. split; [reflexivity|]. split; [reflexivity|]. split.
    { apply of_w_core. split; [exact R3|exact R4]. }
    split. { intros i Hi. etransitivity; [apply of_w_x; exact Hi|]. now rewrite R2. }
    assert (V : forall r j, 0 <= r -> 0 <= j < 32 -> vbyte (with_core tock (of_w s s')) r j = w_v s' r j).
    { intros r j Hr Hj. apply of_w_v; [exact Hr|exact Hj|]. intros i Hi. now apply W. }
    assert (0 <= f_vd w) by (unfold f_vd; apply Z.mod_pos_bound; lia).
    split.
    - intros r j Hr Ho Hj. etransitivity; [apply V; assumption|]. now rewrite (F r Ho j).
    - intros k i Hk Hi. specialize (L k i Hk Hi). rewrite X in L.
      assert (HT : VecProofs.small (dst_ty o T) /\ nlanes (dst_ty o T) = nlanes T).
      { pose proof (legal_of e w _ _ _ He Es) as G. cbn [legal_dec] in G. split.
        - rewrite (VecEl.dst_ty_eq o T G). now apply VecEl.legal_td_small.
        - clear. now destruct T, o. }
      rewrite (lane_ext _ _ (w_v s' (f_vd w + k)) i (proj1 HT)); [exact L|now rewrite (proj2 HT)|]. intros j Hj. apply V; [lia|exact Hj].
  Qed.
End Mach.
