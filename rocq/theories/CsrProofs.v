(** * The csr instructions of the V1 core: proofs *)
From Coq Require Import ZArith List Bool Lia String.
From Coq Require Import ZifyBool ZifyNat.
From Verif Require Import CInt VecModel DecodeTypes DecodeModel DecodeSpec V2DecTypes V2DecModel V2DecSpec V1ScalModel V1ScalSpec V1ScalProofs.
From Verif Require Import DecodeProofs TopModel TopSpec MachModel MachSpec MachInvSpec FootSpec RvSpec MachProofs2 MachProofs5 MachInvProofs CsrModel CsrSpec.
Import ListNotations.
Open Scope string_scope.
Open Scope list_scope.
Open Scope Z_scope.
Ltac Zify.zify_post_hook ::= Z.to_euclidean_division_equations.

Lemma csr_fns_scalar : forallb (fun e => match csr_fn_of (sem1 e) with None => true | Some _ => match e_sem e with SmScalar _ => true | _ => false end end) all_entries = true.
Proof. vm_compute. reflexivity. Qed.
Lemma csr_fn_sys l : csr_fn_of l <> None -> kind_of_sem l = KSys.
Proof.
  unfold csr_fn_of. destruct l as [|[n [|]] [|]]; try congruence. intros H.
  assert (N : In n (map fst csr_fns)).
  { revert H. generalize csr_fns. intros l. induction l as [|[k v] l IH]; cbn [DecodeTypes.find map fst In]; [congruence|].
    destruct (String.eqb_spec n k) as [E|_]; [intros _; now left|intros Q; right; exact (IH Q)]. }
  cbn [map fst csr_fns In] in N. destruct N as [<-|[<-|[<-|[<-|[<-|[]]]]]]; reflexivity.
Qed.
Lemma ufld w lo n o x : 0 <= n -> operand_is (Ufld lo n) w o -> value1 x o = at_ w lo n.
Proof.
  intros Hn (v & -> & Hv & _ & H). cbn [value1]. specialize (H 0 lo n (or_introl eq_refl)). rewrite <- H. unfold at_. rewrite Z.div_1_r, Z.mod_small; [reflexivity|exact Hv].
Qed.
Lemma ureg w lo o x : operand_is (KX lo) w o -> value1 x o = reg_at x w lo.
Proof. cbn [operand_is]. intros ->. unfold reg_at. now destruct (at_ w lo 5 =? 0). Qed.

(** ** The entry of the manual *)
Lemma zicsr_in m : In m zicsr1 -> In m manual1.
Proof. intros H. unfold manual1. rewrite !in_app_iff. tauto. Qed.
Lemma at_split w : at_ w 12 3 = at_ w 12 2 + 4 * at_ w 14 1.
Proof. unfold at_. change (2 ^ 12) with 4096. change (2 ^ 14) with 16384. change (2 ^ 3) with 8. change (2 ^ 2) with 4. change (2 ^ 1) with 2. lia. Qed.
Definition fn_for (w : Z) : csr_fn :=
  if at_ w 12 2 =? 1 then (if at_ w 7 5 =? 0 then CWriteOnly else CWrite)
  else if at_ w 15 5 =? 0 then CRead else if at_ w 12 2 =? 2 then CSet else CClear.
Definition src_for (w : Z) : list V2DecSpec.kind :=
  let o := if at_ w 14 1 =? 0 then KX 15 else Ufld 15 5 in match fn_for w with CRead => [csr_src] | _ => [o; csr_src] end.
Definition dst_for (w : Z) : list dkind :=
  match fn_for w with CRead => [DKX 7] | CWriteOnly => [DKCsr] | _ => [DKX 7; DKCsr] end.
Lemma csr_entry w : csr_word w ->
  exists m, In m zicsr1 /\ meets_pat w (m_pat m) /\ m_nop m = [] /\ csr_fn_of (m_sem m) = Some (fn_for w) /\ m_src m = src_for w /\ m_dst m = dst_for w.
Proof.
  intros (Hw & H7 & Hk). pose proof (at_split w) as E.
  assert (K : 0 <= at_ w 12 2 < 4) by (unfold at_; apply Z.mod_pos_bound; lia).
  assert (I : 0 <= at_ w 14 1 < 2) by (unfold at_; apply Z.mod_pos_bound; lia).
  unfold src_for, dst_for, fn_for.
  assert (C : exists i, (i < 12)%nat /\ match nth_error zicsr1 i with
     | Some m => meets_pat w (m_pat m) /\ m_nop m = [] /\ csr_fn_of (m_sem m) = Some (fn_for w) /\ m_src m = src_for w /\ m_dst m = dst_for w
     | None => False end).
  { unfold src_for, dst_for, fn_for.
    assert (P : forall i m (b0 b1 b2 b3 b4 : bool), nth_error zicsr1 i = Some m -> (i < 12)%nat -> True) by auto. clear P.
    destruct (Z.eqb_spec (at_ w 12 2) 1) as [K1|K1]; [destruct (Z.eqb_spec (at_ w 7 5) 0) as [R|R]|
      destruct (Z.eqb_spec (at_ w 15 5) 0) as [R|R]; destruct (Z.eqb_spec (at_ w 12 2) 2) as [K2|K2]];
    destruct (Z.eqb_spec (at_ w 14 1) 0) as [I0|I0];
    [exists 1%nat|exists 7%nat|exists 0%nat|exists 6%nat|exists 3%nat|exists 9%nat|exists 5%nat|exists 11%nat|exists 2%nat|exists 8%nat|exists 4%nat|exists 10%nat];
    (split; [lia|]; cbn [nth_error zicsr1 csr_ m_pat m_nop m_src m_dst m_sem]; split;
     [split; intros lo n v H; cbn [p_eq p_ne In] in H; repeat (destruct H as [H|H]; [injection H as <- <- <-; lia|]); destruct H|
      split; [reflexivity|split; [reflexivity|split; reflexivity]]]). }
  destruct C as (i & _ & C). destruct (nth_error zicsr1 i) as [m|] eqn:N; [|destruct C]. exists m. split; [exact (nth_error_In _ _ N)|exact C].
Qed.
Lemma csr_proper w m : csr_word w -> In m zicsr1 -> meets_pat w (m_pat m) -> proper m w.
Proof.
  intros (Hw & H7 & _) Hm Hp. split; [now apply zicsr_in|]. split; [exact Hp|]. split; [exact Hw|]. split.
  - intros ->. discriminate H7.
  - intros p Hi [Q _]. unfold holes1 in Hi. cbn [In] in Hi.
    destruct Hi as [<-|[<-|[]]]; specialize (Q 0 7 _ (or_introl eq_refl)); rewrite Q in H7; discriminate H7.
Qed.

(** Rows that reach neither the csr functions nor any other known one. *)
Definition known (e : entry) : bool :=
  match e_sem e with
  | SmScalar _ =>
      existsb (String.eqb (e_name e)) privileged ||
      match kind_of_sem (sem1 e) with
      | KSys => match csr_fn_of (sem1 e), length (e_src e), length (e_dst e) with
                | Some CRead, 1%nat, 1%nat | Some CWriteOnly, 2%nat, 1%nat
                | Some CWrite, 2%nat, 2%nat | Some CSet, 2%nat, 2%nat | Some CClear, 2%nat, 2%nat => true
                | _, _, _ => false
                end
      | _ => true
      end
  | _ => true
  end.
Lemma all_known : forallb known all_entries = true.
Proof. vm_compute. reflexivity. Qed.

Section Csr.
  Context {S : Type}.
  Notation arch := (arch (C := core S)).
  Variable d : decoder.
  Variable zbb : Z -> option act.
  Variable csrs : csr_file S.
  Variable priv : act -> Z -> arch -> (Z -> Z) -> arch * (Z -> Z) * Z * option Z.
  Variable junk : Z -> Z -> vbytes.
  Variable ljunk : Z -> Z.
  Notation exec := (exec1 d zbb (csr_sys csrs priv) junk ljunk).

  (** Everything but the scalar registers and the csrs is kept. *)
  Definition csr_keeps (s s' : arch) : Prop :=
    k_acc (a_csr s') = k_acc (a_csr s) /\ k_dw (a_csr s') = k_dw (a_csr s) /\ k_log (a_csr s') = k_log (a_csr s) /\ k_wrong (a_csr s') = k_wrong (a_csr s).

  Lemma exec_csr w m : decoder_ok d -> proper m w -> m_nop m = [] -> csr_fn_of (m_sem m) <> None ->
    exists c, a_sem c = m_sem m /\ list_is operand_is w (m_src m) (a_src c) /\ list_is dest_is w (m_dst m) (a_dst c) /\
      forall a s mem, exec w a s mem = let '(s', m', a', t) := csr_sys csrs priv c a s mem in Eff (with_core tock s') m' a' (raised t).
  Proof.
    intros Hd (Hi & Hp & Hw & Hs & Hh) Hn Hf. destruct (manual_words d m w Hd Hi Hp Hw Hs Hh) as (c & Hc & Hdo). exists c.
    destruct Hdo as [(S1 & S2 & S3 & _)|(_ & _ & l & Hl & _)]; [|rewrite Hn in Hl; destruct Hl].
    split; [exact S1|]. split; [exact S2|]. split; [exact S3|]. intros a s mem.
    unfold decode1 in Hc. unfold exec1. destruct (parse d w) as [e|] eqn:E; [|discriminate Hc]. cbn [option_map] in Hc. injection Hc as <-.
    pose proof (proj1 (forallb_forall _ _) csr_fns_scalar e (proj1 (parse_sound d w e Hd E))) as R. cbv beta in R. change (a_sem (act1 e w)) with (sem1 e) in S1. rewrite S1 in R.
    destruct (csr_fn_of (m_sem m)) as [K|] eqn:EK; [|now destruct Hf]. destruct (e_sem e); try discriminate R. unfold exec_scalar.
    rewrite kind_sem. change (a_sem (act1 e w)) with (sem1 e). rewrite S1, csr_fn_sys by (rewrite EK; discriminate).
    destruct (a_src (act1 e w)); reflexivity.
  Qed.
  Lemma at_u32 w lo n : 0 <= n <= 32 -> u32 (at_ w lo n) = at_ w lo n.
  Proof.
    intros Hn. unfold u32. apply Z.mod_small. unfold at_. assert (A : 0 <= (w / 2 ^ lo) mod 2 ^ n < 2 ^ n) by (apply Z.mod_pos_bound, Z.pow_pos_nonneg; lia).
    split; [apply A|]. eapply Z.lt_le_trans; [apply A|]. apply Z.pow_le_mono_r; lia.
  Qed.
  Lemma set_core_writes w r v (s : arch) (Q : Z -> Prop) (g h : core S -> core S) : dest_is (DKX 7) w r -> Q (u32 v) -> writes (at_ w 7 5) Q s (with_core g (with_core h (set_dst r v s))).
  Proof. exact (set_writes w r v s Q g). Qed.

  Theorem csr_exec w a (s : arch) m : decoder_ok d -> csr_word w ->
    let f := exec w a s m in let k := k_sys (a_csr s) in let old := c_read csrs (csr_no w) k in
    f_mem f = m /\ f_pc f = (a + 4) mod 2 ^ 32 /\ csr_keeps s (f_arch f) /\
    (c_ok csrs (csr_no w) (csr_writes w) k = true ->
       f_halt f = None /\
       (csr_reads w -> writes (at_ w 7 5) (fun v => v = fst old mod 2 ^ 32) s (f_arch f) /\
                       k_sys (a_csr (f_arch f)) = csr_written csrs w (csr_operand w s) (snd old)) /\
       (~ csr_reads w -> a_regs (f_arch f) = a_regs s /\ k_sys (a_csr (f_arch f)) = csr_written csrs w (csr_operand w s) k)) /\
    (c_ok csrs (csr_no w) (csr_writes w) k = false ->
       f_halt f = Some RUserRequest /\ a_regs (f_arch f) = a_regs s /\ k_sys (a_csr (f_arch f)) = k).
  Proof.
    intros Hd Hw f k old. destruct (csr_entry w Hw) as (m0 & Hi & Hp & Hn & Hf & Hsrc & Hdst).
    destruct (exec_csr w m0 Hd (csr_proper w m0 Hw Hi Hp) Hn) as (c & S1 & S2 & S3 & E); [rewrite Hf; discriminate|].
    unfold f. rewrite E. clear f E. rewrite Hsrc in S2. rewrite Hdst in S3. unfold csr_sys. rewrite S1, Hf.
    destruct Hw as (_ & _ & Hk). assert (K : 0 <= at_ w 12 2 < 4) by (unfold at_; apply Z.mod_pos_bound; lia).
    unfold csr_written in *. unfold src_for, dst_for, fn_for, list_is, csr_reads, csr_writes in *.
    set (o := if at_ w 14 1 =? 0 then KX 15 else Ufld 15 5) in *.
    assert (V : forall p, operand_is o w p -> u32 (value1 (a_regs s) p) = csr_operand w s mod 2 ^ 32).
    { intros p Hp0. unfold o, csr_operand in *. unfold u32. destruct (at_ w 14 1 =? 0); [now rewrite (ureg w 15 p)|now rewrite (ufld w 15 5 p)]. }
    assert (N : forall q, operand_is csr_src w q -> u32 (value1 (a_regs s) q) = csr_no w).
    { intros q Hq. rewrite (ufld w 20 12 q) by (lia || exact Hq). apply at_u32. lia. }
    clearbody o.
    assert (RM : forall r wr g, dest_is (DKX 7) w r ->
      let f := (let '(s', m', a', t) := read_modify csrs (csr_no w) r wr g a s m in Eff (with_core tock s') m' a' (raised t)) in
      f_mem f = m /\ f_pc f = (a + 4) mod 2 ^ 32 /\ csr_keeps s (f_arch f) /\
      (c_ok csrs (csr_no w) wr k = true -> f_halt f = None /\ writes (at_ w 7 5) (fun v => v = fst old mod 2 ^ 32) s (f_arch f) /\ k_sys (a_csr (f_arch f)) = g (snd old)) /\
      (c_ok csrs (csr_no w) wr k = false -> f_halt f = Some RUserRequest /\ a_regs (f_arch f) = a_regs s /\ k_sys (a_csr (f_arch f)) = k)).
    { intros r wr g Hr f. unfold f, read_modify. fold k. destruct (c_ok csrs (csr_no w) wr k).
      - fold old. destruct old as [v f1]. cbn [fst snd f_mem f_pc f_arch f_halt raised]. split; [reflexivity|]. split; [reflexivity|]. split; [destruct r; repeat split|].
        split; [|discriminate]. intros _. split; [reflexivity|]. split; [now apply set_core_writes|]. destruct r; reflexivity.
      - cbn [f_mem f_pc f_arch f_halt]. split; [reflexivity|]. split; [reflexivity|]. split; [repeat split|]. split; [discriminate|]. intros _. repeat split. }
    destruct (Z.eqb_spec (at_ w 12 2) 1) as [K1|K1]; [destruct (Z.eqb_spec (at_ w 7 5) 0) as [R|R]|
      destruct (Z.eqb_spec (at_ w 15 5) 0) as [R|R]; [|destruct (Z.eqb_spec (at_ w 12 2) 2) as [K2|K2]]]; cbn [orb negb].
    - inversion S2 as [|? p ? r1 Hp1 O1 E1 E2]; subst. inversion O1 as [|? q ? r2 Hq O2 E1 E3]; subst. inversion O2; subst.
      inversion S3 as [|? r ? r3 Hr O3 E1 E4]; subst. inversion O3; subst. rewrite (N q Hq), (V p Hp1). fold k. rewrite K1.
      destruct (c_ok csrs (csr_no w) true k); cbn [f_mem f_pc f_arch f_halt raised].
      + split; [reflexivity|]. split; [reflexivity|]. split; [repeat split|]. split; [|discriminate]. intros _. split; [reflexivity|]. split; [intros [L|L]; now destruct L|]. intros _. split; reflexivity.
      + split; [reflexivity|]. split; [reflexivity|]. split; [repeat split|]. split; [discriminate|]. intros _. repeat split.
    - inversion S2 as [|? p ? r1 Hp1 O1 E1 E2]; subst. inversion O1 as [|? q ? r2 Hq O2 E1 E3]; subst. inversion O2; subst.
      inversion S3 as [|? r ? r3 Hr O3 E1 E4]; subst. inversion O3 as [|? r' ? r4 Hr' O4 E1 E5]; subst. inversion O4; subst. rewrite (N q Hq), (V p Hp1), K1.
      destruct (RM r true (c_write csrs (csr_no w) (csr_operand w s mod 2 ^ 32)) Hr) as (A1 & A2 & A3 & A4 & A5).
      split; [exact A1|]. split; [exact A2|]. split; [exact A3|]. split; [|exact A5]. intros H. destruct (A4 H) as (B1 & B2 & B3). split; [exact B1|].
      split; [intros _; now split|]. intros L. destruct L. now right.
    - inversion S2 as [|? q ? r2 Hq O2 E1 E3]; subst. inversion O2; subst.
      inversion S3 as [|? r ? r3 Hr O3 E1 E4]; subst. inversion O3; subst. rewrite (N q Hq).
      destruct (RM r false (fun f => f) Hr) as (A1 & A2 & A3 & A4 & A5).
      split; [exact A1|]. split; [exact A2|]. split; [exact A3|]. split; [|exact A5]. intros H. destruct (A4 H) as (B1 & B2 & B3). split; [exact B1|].
      split; [intros _; now split|]. intros L. destruct L. now left.
    - inversion S2 as [|? p ? r1 Hp1 O1 E1 E2]; subst. inversion O1 as [|? q ? r2 Hq O2 E1 E3]; subst. inversion O2; subst.
      inversion S3 as [|? r ? r3 Hr O3 E1 E4]; subst. inversion O3 as [|? r' ? r4 Hr' O4 E1 E5]; subst. inversion O4; subst. rewrite (N q Hq), (V p Hp1), K2.
      destruct (RM r true (c_set csrs (csr_no w) (csr_operand w s mod 2 ^ 32)) Hr) as (A1 & A2 & A3 & A4 & A5).
      split; [exact A1|]. split; [exact A2|]. split; [exact A3|]. split; [|exact A5]. intros H. destruct (A4 H) as (B1 & B2 & B3). split; [exact B1|].
      split; [intros _; now split|]. intros L. destruct L. left. lia.
    - inversion S2 as [|? p ? r1 Hp1 O1 E1 E2]; subst. inversion O1 as [|? q ? r2 Hq O2 E1 E3]; subst. inversion O2; subst.
      inversion S3 as [|? r ? r3 Hr O3 E1 E4]; subst. inversion O3 as [|? r' ? r4 Hr' O4 E1 E5]; subst. inversion O4; subst. rewrite (N q Hq), (V p Hp1).
      replace (at_ w 12 2) with 3 by lia.
      destruct (RM r true (c_clear csrs (csr_no w) (csr_operand w s mod 2 ^ 32)) Hr) as (A1 & A2 & A3 & A4 & A5).
      split; [exact A1|]. split; [exact A2|]. split; [exact A3|]. split; [|exact A5]. intros H. destruct (A4 H) as (B1 & B2 & B3). split; [exact B1|].
      split; [intros _; now split|]. intros L. destruct L. left. lia.
  Qed.

  (** ** The contracts of C76, C77 and C83 *)
  Lemma csr_shape c a (s : arch) :
    (exists s' t, (forall m, csr_sys csrs priv c a s m = (s', m, next a, t)) /\ k_wrong (a_csr s') = k_wrong (a_csr s) /\ forall m, sized s m -> sized s' m) \/
    (forall m, csr_sys csrs priv c a s m = priv c a s m).
  Proof.
    assert (RM : forall n r w g, exists s' t, (forall m, read_modify csrs n r w g a s m = (s', m, next a, t)) /\ k_wrong (a_csr s') = k_wrong (a_csr s) /\ forall m, sized s m -> sized s' m).
    { intros n r w g. unfold read_modify. destruct (c_ok csrs n w (k_sys (a_csr s))); [|eexists; eexists; split; [intros m; reflexivity|]; split; [reflexivity|auto]].
      destruct (c_read csrs n (k_sys (a_csr s))) as [old f]. eexists. eexists. split; [intros m; reflexivity|]. split; [destruct r; reflexivity|].
      intros m H. apply (sized_dst r old) in H. eapply sized_core; [|exact H]. intros; split; reflexivity. }
    unfold csr_sys. destruct (csr_fn_of (a_sem c)) as [K|]; [|right; reflexivity].
    destruct K; destruct (a_src c) as [|p [|q [|]]]; try (right; reflexivity); destruct (a_dst c) as [|r [|r' [|]]]; try (right; reflexivity); left; try apply RM.
    destruct (c_ok csrs _ true _); eexists; eexists; (split; [intros m; reflexivity|]; split; [reflexivity|]); [|auto].
    intros m H. eapply sized_core; [|exact H]. intros; split; reflexivity.
  Qed.
  Lemma csr_ok : sys_ok priv -> sys_ok (csr_sys csrs priv).
  Proof.
    intros H c a s m. destruct (csr_shape c a s) as [(s' & t & E & _ & Q)|E]; rewrite E; [|apply H].
    split; [apply u32_mod|]. split; [intros x _; reflexivity|apply Q].
  Qed.
  Lemma csr_defined : sys_defined priv -> sys_defined (csr_sys csrs priv).
  Proof. intros H c a s m. destruct (csr_shape c a s) as [(s' & t & E & Q & _)|E]; rewrite E; [exact Q|apply H]. Qed.
  Lemma csr_quiet : sys_quiet priv -> sys_quiet (csr_sys csrs priv).
  Proof.
    intros H c a s m m'. destruct (csr_shape c a s) as [(s' & t & E & _ & Q)|E]; rewrite !E; [|apply H].
    split; [reflexivity|]. split; [reflexivity|]. split; [reflexivity|]. split; [apply u32_mod|reflexivity].
  Qed.

  (** ** What is left to [priv] *)
  Lemma priv_unused priv' w a (s : arch) m e : decoder_ok d -> parse d w = Some e -> ~ In (e_name e) privileged ->
    exec1 d zbb (csr_sys csrs priv') junk ljunk w a s m = exec w a s m.
  Proof.
    intros Hd E Hn. unfold exec1. rewrite E. pose proof (proj1 (forallb_forall _ _) all_known e (proj1 (parse_sound d w e Hd E))) as K. unfold known in K.
    destruct (e_sem e); try reflexivity.
    destruct (existsb (String.eqb (e_name e)) privileged) eqn:X.
    { exfalso. apply Hn. apply existsb_exists in X as (n & Hi & En). apply String.eqb_eq in En. now rewrite En. }
    cbn [orb] in K. unfold exec_scalar. rewrite kind_sem. change (a_sem (act1 e w)) with (sem1 e).
    destruct (kind_of_sem (sem1 e)); try reflexivity.
    assert (Q : csr_sys csrs priv' (act1 e w) a s m = csr_sys csrs priv (act1 e w) a s m); [|destruct (a_src (act1 e w)); rewrite Q; reflexivity].
    unfold csr_sys. change (a_sem (act1 e w)) with (sem1 e). cbn [act1 a_src a_dst].
    destruct (csr_fn_of (sem1 e)) as [F|]; [|discriminate K].
    destruct F; destruct (e_src e) as [|p [|q [|]]]; try discriminate K; destruct (e_dst e) as [|r [|r' [|]]]; try discriminate K; reflexivity.
  Qed.
End Csr.
