(** * A kernel run through the Renode interface: proofs for C79 *)
From Coq Require Import ZArith List Bool String Lia ZifyBool ZifyNat.
From Verif Require Import CInt LaneSpec VecModel VecSpec ConvModel MemModel MemSpec LogModel.
From Verif Require Import DecodeTypes DecodeTable DecodeModel DecodeSpec V2DecTypes V2DecModel V1ScalModel.
From Verif Require Import TopModel TopSpec CliModel CliSpec RenodeModel RenodeSpec RenodeTopModel RenodeTopSpec MachModel MachSpec MachInvSpec KernSessSpec.
From Verif Require RenodeProofs RenodeTopProofs MachProofs3 MachProofs4 MachInvProofs.
Import ListNotations.
Open Scope list_scope.
Open Scope Z_scope.


(** ** Lists as memory *)
Lemma le_bytes_cons v l : le_bytes (v :: l) = map (fun j => (v / 256 ^ j) mod 256) [0; 1; 2; 3] ++ le_bytes l.
Proof. reflexivity. Qed.
Lemma le_bytes_length l : length (le_bytes l) = (4 * length l)%nat.
Proof. induction l as [|w l IH]; [reflexivity|]. rewrite le_bytes_cons, app_length, IH, map_length. cbn [length]. lia. Qed.
Lemma le_bytes_nth : forall l i w j, nth_error l i = Some w -> 0 <= j < 4 -> nth (Z.to_nat (4 * Z.of_nat i + j)) (le_bytes l) 0 = (w / 256 ^ j) mod 256.
Proof.
  induction l as [|v l IH]; intros i w j H Hj; [destruct i; discriminate|]. rewrite le_bytes_cons.
  destruct i as [|i]; cbn [nth_error] in H.
  - injection H as ->. rewrite app_nth1 by (cbn [map length]; lia). assert (E : j = 0 \/ j = 1 \/ j = 2 \/ j = 3) by lia. destruct E as [->|[->|[->| ->]]]; reflexivity.
  - rewrite app_nth2 by (cbn [map length]; lia). rewrite <- (IH i w j H Hj). f_equal. cbn [map length]. lia.
Qed.
Lemma uval4_bytes m x w : 0 <= w < 2 ^ 32 -> (forall j, 0 <= j < 4 -> m (x + j) = (w / 256 ^ j) mod 256) -> uval 4 m x = w.
Proof.
  intros Hw H. unfold uval. cbn [seq map fold_right].
  change (Z.of_nat 0) with 0. change (Z.of_nat 1) with 1. change (Z.of_nat 2) with 2. change (Z.of_nat 3) with 3.
  rewrite (H 0), (H 1), (H 2), (H 3) by lia. clear H.
  change (256 ^ 0) with 1. change (256 ^ 1) with 256. change (256 ^ 2) with 65536. change (256 ^ 3) with 16777216.
  change (2 ^ (8 * 0)) with 1. change (2 ^ (8 * 1)) with 256. change (2 ^ (8 * 2)) with 65536. change (2 ^ (8 * 3)) with 16777216. change (2 ^ 32) with 4294967296 in Hw.
  assert (forall a b, 0 < b -> 0 <= a mod b < b /\ a = b * (a / b) + a mod b) by (intros a b Hb; split; [now apply Z.mod_pos_bound|apply Z_div_mod_eq_full]).
  replace 65536 with (256 * 256) in * by reflexivity. replace 16777216 with (256 * 256 * 256) in * by reflexivity.
  rewrite <- !Z.div_div by lia. rewrite Z.div_1_r. set (w1 := w / 256). set (w2 := w1 / 256). set (w3 := w2 / 256).
  assert (Q1 : 0 <= w mod 256 < 256 /\ w = 256 * w1 + w mod 256) by exact (H w 256 eq_refl).
  assert (Q2 : 0 <= w1 mod 256 < 256 /\ w1 = 256 * w2 + w1 mod 256) by exact (H w1 256 eq_refl).
  assert (Q3 : 0 <= w2 mod 256 < 256 /\ w2 = 256 * w3 + w2 mod 256) by exact (H w2 256 eq_refl).
  clearbody w1 w2 w3. rewrite (Z.mod_small w3) by lia. lia.
Qed.
Lemma written_in m a l x : 0 <= x - a < Z.of_nat (length l) -> x <= 0x3fffff -> written m a l x = nth (Z.to_nat (x - a)) l 0.
Proof. intros H1 H2. unfold written, max_address. replace ((a <=? x) && (x <? a + Z.of_nat (length l)) && (x <=? 4194303)) with true by lia. reflexivity. Qed.
Lemma written_out m a l x : ~ 0 <= x - a < Z.of_nat (length l) -> written m a l x = m x.
Proof. intros H. unfold written. replace ((a <=? x) && (x <? a + Z.of_nat (length l))) with false by lia. reflexivity. Qed.
Lemma kernel_words k op w : 0 <= k <= 2 -> 0 <= op < 2 ^ 32 -> In w (kernel k op) -> 0 <= w < 2 ^ 32.
Proof.
  intros Hk Ho Hw. unfold kernel in Hw. cbn [In] in Hw. change (2 ^ 25) with 33554432 in Hw. change (2 ^ 12) with 4096 in Hw.
  change (2 ^ 32) with 4294967296 in *. repeat (destruct Hw as [Hw|Hw]); try lia.
Qed.

Definition is_step {File Blocks} (q : RenodeModel.call File Blocks * result) : bool := match fst q with Step _ _ _ => true | _ => false end.
Lemma only_step {File Blocks} : forall (pre : list (RenodeModel.call File Blocks * result)) s t h1 s' h2,
  existsb is_step pre = false -> existsb is_step t = false -> is_step s = true -> is_step s' = true -> pre ++ s :: t = h1 ++ s' :: h2 -> pre = h1 /\ s = s'.
Proof.
  induction pre as [|q pre IH]; intros s t h1 s' h2 P T Hs Hs' E.
  - destruct h1 as [|q h1]; cbn [app] in E; [now injection E|]. exfalso. injection E as _ ->. rewrite existsb_app in T. cbn [existsb] in T. rewrite Hs' in T.
    apply orb_false_iff in T as [_ T]. discriminate T.
  - destruct h1 as [|q' h1]; cbn [app existsb] in *.
    + injection E as -> _. rewrite Hs' in P. discriminate P.
    + injection E as -> E. apply orb_false_iff in P as [_ P]. destruct (IH s t h1 s' h2 P T Hs Hs' E) as [-> ->]. now split.
Qed.
Section Sess.
  Context {S : Type}.
  Notation arch := (arch (C := core S)).
  Notation mach := (mach (C := core S)).
  Variable d : decoder.
  Variable zbb : Z -> option act.
  Variable sys : act -> Z -> arch -> (Z -> Z) -> arch * (Z -> Z) * Z * option Z.
  Variable junk : Z -> Z -> vbytes.
  Variable ljunk : Z -> Z.
  Notation exec := (exec1 d zbb sys junk ljunk).
  Variable evicted : Z -> Z -> bool.
  Variable reg_id : string -> option Z.
  Variable reg_size : Z -> Z.
  Variable csr_id : string -> option Z.
  Variable csr_get : Z -> core S -> Z.
  Variable csr_set : Z -> Z -> core S -> core S.
  Variable boot : arch.
  Variable boot_pc : Z.
  Context {File Blocks : Type}.
  Variable create_shared : Z * Z * Blocks -> top (C := core S).
  Variable files : File -> option (list Z).
  Variable elf : File -> (Z -> Z) -> option Z * (Z -> Z).
  Variable enums : dbgreg -> Z.
  Variable names : Z -> option string.
  Notation ops_ := (top_ops exec evicted reg_id reg_size csr_id csr_get csr_set boot boot_pc create_shared files elf enums names).
  Notation concerns_ := (concerns exec reg_id reg_size csr_id csr_get csr_set boot boot_pc files elf names).
  Notation session_ := (session exec reg_id reg_size csr_id csr_get csr_set boot boot_pc files elf names).
  Notation rcall := (RenodeModel.call File Blocks).

  Lemma session_cons j x (k : rcall) r h x2 : session_ j x ((k, r) :: h) x2 -> exists x1, concerns_ j k r x x1 /\ session_ j x1 h x2.
  Proof. intros H. inversion H; subst. eauto. Qed.
  Lemma session_nil j x x2 : session_ j x ([] : list (rcall * result)) x2 -> x2 = x.
  Proof. intros H. now inversion H. Qed.
  (** Calls about instance 0. *)
  Lemma do_write p l r x x1 : 0 <= p -> Z.of_nat (length l) < 2 ^ 64 -> concerns_ 0 (WriteMem 0 p l : rcall) r (Some x) x1 ->
    r_ret r = Z.max 0 (Z.min (Z.of_nat (length l)) (0x3fffff - p + 1)) /\
    exists m, x1 = Some (Inst m (n_last x)) /\ stored_at (n_mach x) p l m.
  Proof. intros H1 H2 H. unfold concerns in H. cbn [target] in H. rewrite Z.eqb_refl in H. exact (H H1 H2). Qed.
  Lemma do_reg r0 i v r x x1 : numbered reg_id reg_size names r0 i -> concerns_ 0 (WriteReg 0 r0 v : rcall) r (Some x) x1 ->
    r_ret r = 0 /\ x1 = Some (Inst (Mach (m_pc (n_mach x)) (Arch (upd1 (a_regs (m_arch (n_mach x))) i (v mod 2 ^ 32)) (a_csr (m_arch (n_mach x)))) (m_mem (n_mach x))) (n_last x)).
  Proof.
    intros (nm & N1 & N2 & N3 & N4) H. unfold concerns in H. cbn [target] in H. rewrite Z.eqb_refl in H. unfold behaves in H. rewrite N1 in H.
    unfold peek in H. rewrite N3, N4 in H. change (size_ok 4) with true in H. cbv iota in H. destruct H as [H1 H2]. split; [exact H1|].
    rewrite H2. unfold assign, poke. rewrite N3, N4. change (size_ok 4) with true. cbv iota zeta. change (2 ^ (8 * 4)) with (2 ^ 32).
    replace (String.eqb nm pc_name) with false; [reflexivity|]. symmetry. apply String.eqb_neq. exact N2.
  Qed.
  Lemma do_pc r0 v r x x1 : numbered_pc reg_id reg_size names r0 -> concerns_ 0 (WriteReg 0 r0 v : rcall) r (Some x) x1 ->
    r_ret r = 0 /\ x1 = Some (Inst (Mach (v mod 2 ^ 32) (m_arch (n_mach x)) (m_mem (n_mach x))) (n_last x)).
  Proof.
    intros (N1 & i & N3 & N4) H. unfold concerns in H. cbn [target] in H. rewrite Z.eqb_refl in H. unfold behaves in H. rewrite N1 in H.
    unfold peek in H. rewrite N3, N4 in H. change (size_ok 4) with true in H. cbv iota in H. destruct H as [H1 H2]. split; [exact H1|].
    rewrite H2. unfold assign, poke. rewrite N3, N4. change (size_ok 4) with true. cbv iota zeta. change (2 ^ (8 * 4)) with (2 ^ 32).
    reflexivity.
  Qed.

  Variables (k op p : Z) (e : entry) (o : elop) (T : ity).
  Hypothesis Hd : decoder_ok d.
  Hypothesis Hsys : sys_ok sys.
  Hypothesis Hk : 0 <= k <= 2.
  Hypothesis Hop : 0 <= op < 2 ^ 32.
  Hypothesis Hp : parse d op = Some e.
  Hypothesis Hm : meaning (e_name e) = Some (SmVec (VEl o T) false true).
  Hypothesis HT : bits T = 8 * 2 ^ k.
  Hypothesis Hr : ~ reads_dest o.
  Hypothesis Hf : f_vd op = 8 /\ f_vs1 op = 0 /\ f_vs2 op = 4.
  Hypothesis Hpp : 0 <= p /\ p + 32 <= top_address.
  Variables (n a b out va vb vo : Z) (la lb : list Z).
  Notation size := (n * 2 ^ k).
  Hypothesis Hn : 0 <= n.
  Hypothesis Hla : Z.of_nat (length la) = size.
  Hypothesis Hlb : Z.of_nat (length lb) = size.
  Hypothesis La : 0 <= a /\ a + size <= top_address.
  Hypothesis Lb : 0 <= b /\ b + size <= top_address.
  Hypothesis Lo : 0 <= out /\ out + size <= top_address.
  Hypothesis Va : va mod 2 ^ 31 = a.
  Hypothesis Vb : vb mod 2 ^ 31 = b.
  Hypothesis Vo : vo mod 2 ^ 31 = out.
  Hypothesis Dpa : disjoint p 32 a size.
  Hypothesis Dpb : disjoint p 32 b size.
  Hypothesis Dpo : disjoint p 32 out size.
  Hypothesis Dab : disjoint a size b size.
  Hypothesis Ha : apart_from out a size.
  Hypothesis Hb : apart_from out b size.
  Hypothesis HL : forall i, 0 <= i < n -> lane_pre o T (elem T (listed la) 0 i) (elem T (listed lb) 0 i).
  Variables r10 r11 r12 r14 rp : Z.
  Hypothesis N10 : numbered reg_id reg_size names r10 10.
  Hypothesis N11 : numbered reg_id reg_size names r11 11.
  Hypothesis N12 : numbered reg_id reg_size names r12 12.
  Hypothesis N14 : numbered reg_id reg_size names r14 14.
  Hypothesis Npc : numbered_pc reg_id reg_size names rp.
  Hypothesis H0 : a_regs boot 0 = 0.

  (** The state in which the kernel starts. *)
  Definition ready (x : inst (C := core S)) : Prop :=
    n_last x = RNone /\ m_pc (n_mach x) = p /\
    a_regs (m_arch (n_mach x)) = upd1 (upd1 (upd1 (upd1 (a_regs boot) 10 (va mod 2 ^ 32)) 11 (vb mod 2 ^ 32)) 12 (n mod 2 ^ 32)) 14 (vo mod 2 ^ 32) /\
    forall z, m_mem (n_mach x) z = written (written (written (fun _ => 0) p (le_bytes (kernel k op))) a la) b lb z.
  Lemma size_bounds : 0 <= size <= 2 ^ 22 /\ 1 <= 2 ^ k <= 4 /\ n <= size.
  Proof.
    clear - Hk Hn Lo. assert (P : 1 <= 2 ^ k <= 4). { assert (X : k = 0 \/ k = 1 \/ k = 2) by lia. destruct X as [->|[->| ->]]; cbn; lia. }
    unfold top_address in Lo. change (2 ^ 22) with 0x400000. set (z := 2 ^ k) in *. clearbody z. nia.
  Qed.
  Lemma prepared max r0 r1 r2 r3 r4 r5 r6 r7 r8 x : r_ret r0 = 0 ->
    session_ 0 None ([(Construct max None, r0); (WriteMem 0 p (le_bytes (kernel k op)), r1); (WriteMem 0 a la, r2); (WriteMem 0 b lb, r3);
      (WriteReg 0 r10 va, r4); (WriteReg 0 r11 vb, r5); (WriteReg 0 r12 n, r6); (WriteReg 0 r14 vo, r7); (WriteReg 0 rp p, r8)] : list (rcall * result)) x ->
    map r_ret [r1; r2; r3; r4; r5; r6; r7; r8] = [32; size; size; 0; 0; 0; 0; 0] /\ exists y, x = Some y /\ ready y.
  Proof.
    destruct size_bounds as (B1 & B2 & B3).
    assert (KL : length (le_bytes (kernel k op)) = 32%nat) by (rewrite le_bytes_length; reflexivity).
    unfold top_address in *.
    intros R0 Hs. destruct (session_cons _ _ _ _ _ _ Hs) as (x1 & C1 & Hs1). clear Hs. unfold concerns in C1. cbn [target] in C1. rewrite R0 in C1. destruct C1 as [_ ->].
    destruct (session_cons _ _ _ _ _ _ Hs1) as (x2 & C2 & Hs2). clear Hs1. apply do_write in C2; [|lia|lia]. destruct C2 as (E1 & m1 & -> & P1 & A1 & M1).
    destruct (session_cons _ _ _ _ _ _ Hs2) as (x3 & C3 & Hs3). clear Hs2. apply do_write in C3; [|lia|lia]. destruct C3 as (E2 & m2 & -> & P2 & A2 & M2).
    destruct (session_cons _ _ _ _ _ _ Hs3) as (x4 & C4 & Hs4). clear Hs3. apply do_write in C4; [|lia|lia]. destruct C4 as (E3 & m3 & -> & P3 & A3 & M3).
    cbn [n_mach n_last born m_pc m_arch m_mem] in *.
    destruct (session_cons _ _ _ _ _ _ Hs4) as (x5 & C5 & Hs5). clear Hs4. destruct (do_reg _ _ _ _ _ _ N10 C5) as [E4 ->]. clear C5.
    destruct (session_cons _ _ _ _ _ _ Hs5) as (x6 & C6 & Hs6). clear Hs5. destruct (do_reg _ _ _ _ _ _ N11 C6) as [E5 ->]. clear C6.
    destruct (session_cons _ _ _ _ _ _ Hs6) as (x7 & C7 & Hs7). clear Hs6. destruct (do_reg _ _ _ _ _ _ N12 C7) as [E6 ->]. clear C7.
    destruct (session_cons _ _ _ _ _ _ Hs7) as (x8 & C8 & Hs8). clear Hs7. destruct (do_reg _ _ _ _ _ _ N14 C8) as [E7 ->]. clear C8.
    destruct (session_cons _ _ _ _ _ _ Hs8) as (x9 & C9 & Hs9). clear Hs8. destruct (do_pc _ _ _ _ _ Npc C9) as [E8 ->]. clear C9.
    apply session_nil in Hs9. subst x. cbn [n_mach n_last born m_pc m_arch m_mem a_regs] in *.
    split.
    - cbn [map]. rewrite E1, E2, E3, E4, E5, E6, E7, E8, KL, Hla, Hlb. change (Z.of_nat 32) with 32.
      rewrite !Z.min_l by lia. rewrite !Z.max_r by lia. reflexivity.
    - eexists. split; [reflexivity|]. unfold ready. cbn [n_mach n_last m_pc m_arch m_mem a_regs]. split; [reflexivity|]. split; [apply Z.mod_small; lia|].
      split; [now rewrite A3, A2, A1|]. intros z. rewrite M3. unfold written at 1 2. destruct (_ && _); [reflexivity|]. rewrite M2. unfold written at 1 2. destruct (_ && _); [reflexivity|]. exact (M1 z).
  Qed.

  Definition steps : nat := Z.to_nat (7 * Z.max 1 ((size + 127) / 128) + 1).
  Lemma ready_runs x : ready x ->
    halts_at exec (n_mach x) steps RUserRequest /\
    (forall i, (i < steps)%nat -> word_at (ref exec i (n_mach x)) = uval 4 (listed (le_bytes (kernel k op))) (m_pc (ref exec i (n_mach x)) - p)) /\
    (forall i old, 0 <= i < n -> lane_spec o T old (elem T (listed la) 0 i) (elem T (listed lb) 0 i) (elem (dst_ty o T) (m_mem (ref exec steps (n_mach x))) out i)).
  Proof.
    intros (_ & X1 & X2 & X3). destruct (n_mach x) as [pc s mem]. cbn [m_pc m_arch m_mem] in *. subst pc.
    destruct size_bounds as (B1 & B2 & B3).
    assert (KL : length (le_bytes (kernel k op)) = 32%nat) by (rewrite le_bytes_length; reflexivity).
    unfold disjoint in *. unfold top_address in *.
    assert (Mc : forall z, p <= z < p + 32 -> mem z = listed (le_bytes (kernel k op)) (z - p)).
    { intros z Hz. rewrite X3. rewrite written_out by lia. rewrite written_out by lia. rewrite written_in by lia. reflexivity. }
    assert (Ma : forall z, a <= z < a + size -> mem z = listed la (z - a)).
    { intros z Hz. rewrite X3. rewrite written_out by lia. rewrite written_in by lia. reflexivity. }
    assert (Mb : forall z, b <= z < b + size -> mem z = listed lb (z - b)).
    { intros z Hz. rewrite X3. rewrite written_in by lia. reflexivity. }
    assert (Hcode : placed mem p (kernel k op)).
    { intros i w Hi. assert (L : (i < 8)%nat) by (change 8%nat with (length (kernel k op)); apply nth_error_Some; congruence).
      apply uval4_bytes; [apply (kernel_words k op w Hk Hop); eapply nth_error_In; eassumption|].
      intros j Hj. rewrite Mc by lia. unfold listed. rewrite <- (le_bytes_nth (kernel k op) i w j Hi Hj). f_equal. lia. }
    assert (E : lanebytes T = 2 ^ k) by (unfold lanebytes; rewrite HT, Z.mul_comm; apply Z.div_mul; lia).
    assert (EA : forall i, 0 <= i < n -> elem T mem a i = elem T (listed la) 0 i).
    { intros i Hi. apply MachProofs3.elem_ext. rewrite E. intros t Ht. assert (0 <= i * 2 ^ k + t < size) by (clear - Hi Ht B2; set (z := 2 ^ k) in *; clearbody z; nia).
      rewrite Ma by lia. f_equal. lia. }
    assert (EB : forall i, 0 <= i < n -> elem T mem b i = elem T (listed lb) 0 i).
    { intros i Hi. apply MachProofs3.elem_ext. rewrite E. intros t Ht. assert (0 <= i * 2 ^ k + t < size) by (clear - Hi Ht B2; set (z := 2 ^ k) in *; clearbody z; nia).
      rewrite Mb by lia. f_equal. lia. }
    assert (Reg : a_regs s 0 = 0 /\ a_regs s 12 = n /\ a_regs s 10 mod 2 ^ 31 = a /\ a_regs s 11 mod 2 ^ 31 = b /\ a_regs s 14 mod 2 ^ 31 = out).
    { assert (MM : forall v, (v mod 2 ^ 32) mod 2 ^ 31 = v mod 2 ^ 31) by (intros v; change (2 ^ 32) with (2 ^ 31 * 2); rewrite Z.rem_mul_r by lia; rewrite Z.mul_comm, Z.mod_add, Z.mod_mod by lia; reflexivity).
      rewrite X2. unfold upd1. change (0 =? 14) with false. change (0 =? 12) with false. change (0 =? 11) with false. change (0 =? 10) with false.
      change (12 =? 14) with false. change (12 =? 12) with true. change (10 =? 14) with false. change (10 =? 12) with false. change (10 =? 11) with false. change (10 =? 10) with true.
      change (11 =? 14) with false. change (11 =? 12) with false. change (11 =? 11) with true. change (14 =? 14) with true. cbv iota.
      rewrite !MM. repeat split; try assumption. apply Z.mod_small. lia. }
    destruct Reg as (Q0 & Q12 & Q10 & Q11 & Q14).
    destruct (MachProofs4.kernel_runs d zbb sys junk ljunk k op p e o T Hd Hk Hp Hm HT Hr Hf Hpp mem n a b out Hcode ltac:(lia) La Lb Lo ltac:(unfold MachProofs4.window; intros z Hz; lia) Ha Hb
      ltac:(intros i Hi; rewrite EA, EB by assumption; now apply HL) s Q0 Q12 Q10 Q11 Q14) as (K1 & [K2 _] & _ & _ & _ & _ & _ & _ & _ & K3).
    fold steps in K1, K2, K3. split; [exact K1|]. split.
    - intros i Hi. destruct (K2 i Hi) as [(j0 & J1 & J2 & _) I2]. assert (I1 : p <= m_pc (ref exec i (Mach p s mem)) <= p + 28) by (clear - J1 J2; lia). clear J1 J2. unfold word_at. rewrite MachProofs3.load32_uval. apply MachProofs3.uval_ext. intros j Hj. 
      cbn [Z.of_nat] in Hj. change (Z.of_nat 4) with 4 in Hj. rewrite I2 by (clear - I1 Hj Dpo; unfold MachProofs4.window; lia). rewrite Mc by (clear - I1 Hj; lia). f_equal. clear; lia.
    - intros i old Hi. rewrite <- EA, <- EB by assumption. now apply K3.
  Qed.

  Notation job_ := (@job File Blocks).
  Lemma steps_pos : (0 < steps)%nat.
  Proof. unfold steps. clear. lia. Qed.
  Lemma steps_small : Z.of_nat steps < 2 ^ 32.
  Proof. destruct size_bounds as (B & _). unfold steps. assert ((size + 127) / 128 < 2 ^ 22) by (apply Z.div_lt_upper_bound; lia). rewrite Z2Nat.id by lia. change (2 ^ 32) with 4294967296. change (2 ^ 22) with 4194304 in *. lia. Qed.
  (** Within the kernel's run there is only one halt, the last. *)
  Lemma executes_exact x N q last : ready x -> Z.of_nat steps <= N -> executes exec (n_mach x) N q last -> q = steps /\ last = RUserRequest.
  Proof.
    intros Rx HN (E1 & E2 & E3). destruct (ready_runs x Rx) as ((_ & K1 & K2) & _). unfold reached in K1. pose proof steps_pos as SP.
    destruct (lt_eq_lt_dec q steps) as [[L|L]|L].
    - exfalso. destruct E3 as [(E3 & _ & _)|(E3 & E4)]; [clear - L HN E3; lia|]. rewrite K1 in E4 by (clear - L E3; lia). discriminate.
    - subst q. split; [reflexivity|]. destruct E3 as [(_ & _ & E3)|(_ & E4)]; [rewrite E3 in K2 by (clear - SP; lia); discriminate|]. rewrite K2 in E4. injection E4 as <-. reflexivity.
    - exfalso. rewrite E2 in K2 by (clear - L SP; lia). discriminate.
  Qed.
  Theorem job_ok fuel max N ag rs : Z.of_nat steps <= N < 2 ^ 64 ->
    RenodeModel.run ops_ fuel (job_ max k op p a b out va vb vo n la lb r10 r11 r12 r14 rp N size) agent0 = Some (Ok (ag, rs)) ->
    map r_ret rs = [0; 32; size; size; 0; 0; 0; 0; 0; Z.of_nat steps; size] /\
    r_status (nth 9 rs (R 0 None [] None)) = Some 0 /\
    let data := r_data (nth 10 rs (R 0 None [] None)) in
    Z.of_nat (length data) = size /\
    forall i old, 0 <= i < n -> lane_spec o T old (elem T (listed la) 0 i) (elem T (listed lb) 0 i) (elem (dst_ty o T) (listed data) 0 i).
  Proof.
    intros HN HR. destruct size_bounds as (B1 & B2 & B3).
    pose proof (RenodeProofs.run_length _ _ _ _ _ _ HR) as L.
    destruct (RenodeProofs.run_cons _ _ _ _ _ _ _ HR) as (a1 & q0 & qs & F1 & _ & E0).
    assert (R0 : r_ret q0 = 0). { cbn [do_call] in F1. unfold construct in F1. cbn [create top_ops bind] in F1. injection F1 as _ <-. reflexivity. }
    assert (EK : exists r0 r1 r2 r3 r4 r5 r6 r7 r8 r9 r, rs = [r0; r1; r2; r3; r4; r5; r6; r7; r8; r9; r] /\ r_ret r0 = 0).
    { clear - L E0 R0. unfold job in L. cbn [length] in L. subst rs. do 10 (destruct qs as [|? qs]; [discriminate L|]). destruct qs; [|discriminate L].
      repeat eexists. exact R0. }
    clear E0 F1 R0 qs a1 q0 L. destruct EK as (r0 & r1 & r2 & r3 & r4 & r5 & r6 & r7 & r8 & r9 & r & -> & R0).
    set (pre := [(Construct max None, r0); (WriteMem 0 p (le_bytes (kernel k op)), r1); (WriteMem 0 a la, r2); (WriteMem 0 b lb, r3);
      (WriteReg 0 r10 va, r4); (WriteReg 0 r11 vb, r5); (WriteReg 0 r12 n, r6); (WriteReg 0 r14 vo, r7); (WriteReg 0 rp p, r8)] : list (rcall * result)).
    set (h := combine (job_ max k op p a b out va vb vo n la lb r10 r11 r12 r14 rp N size) [r0; r1; r2; r3; r4; r5; r6; r7; r8; r9; r]).
    assert (Eh : h = pre ++ [(Step 0 N true, r9); (ReadMem 0 out size, r)]) by reflexivity.
    assert (HS : exists y, session_ 0 None h y).
    { refine (RenodeTopProofs.session_ok exec evicted reg_id reg_size csr_id csr_get csr_set boot boot_pc create_shared files elf enums names fuel 0 _ ag _ HR _ _ _ _).
      - unfold job. cbn [filter is_construct length]. reflexivity.
      - unfold job. assert (KL : length (le_bytes (kernel k op)) = 32%nat) by (rewrite le_bytes_length; reflexivity).
        clear - Hpp La Lb Lo B1 HN Hla Hlb KL. unfold top_address in *. change (2 ^ 22) with 4194304 in B1.
        repeat constructor; cbn [arguments_ok]; change (2 ^ 64) with 18446744073709551616 in *; try lia.
      - intros m0 b0 q Hq. fold h in Hq. rewrite Eh in Hq. apply in_app_or in Hq. destruct Hq as [Hq|Hq].
        + unfold pre in Hq. cbn [In] in Hq. repeat (destruct Hq as [Hq|Hq]; [discriminate Hq|]). destruct Hq.
        + cbn [In] in Hq. repeat (destruct Hq as [Hq|Hq]; [discriminate Hq|]). destruct Hq.
      - exists (fun z => uval 4 (listed (le_bytes (kernel k op))) (z - p)). fold h. intros m (h1 & id & cnt & st & q & h2 & x & i & E & _ & Hs & _ & Hi & Hh & ->).
        assert (X : h1 = pre /\ cnt = N).
        { rewrite Eh in E. apply only_step in E; [|reflexivity|reflexivity|reflexivity|reflexivity]. destruct E as [E1 E2]. split; [exact (eq_sym E1)|]. apply (f_equal fst) in E2. cbn [fst] in E2. now injection E2. }
        destruct X as [-> ->]. destruct (prepared max r0 r1 r2 r3 r4 r5 r6 r7 r8 _ R0 Hs) as (_ & y & Ey & Ry). injection Ey as <-.
        destruct (ready_runs x Ry) as ((_ & K1 & K2) & Kw & _). unfold reached in K1.
        assert (Li : (i < steps)%nat). { destruct (le_lt_dec steps i) as [Li|Li]; [|exact Li]. exfalso. rewrite Hh in K2; [discriminate|]. pose proof steps_pos as SP. clear - Li SP. lia. }
        split; [exact (Kw i Li)|]. split.
        + unfold ref_step. destruct (_ =? _); [apply Z.mod_pos_bound; reflexivity|]. exact (proj1 (MachInvProofs.exec_keeps d zbb sys junk ljunk Hd Hsys _ _ _ _)).
        + intros z Hz. destruct (MachInvProofs.halt_reasons d zbb sys junk ljunk _ z Hz); auto. }
    destruct HS as [y HS]. rewrite Eh in HS.
    assert (Split : forall (h1 h2 : list (rcall * result)) z0 z2, session_ 0 z0 (h1 ++ h2) z2 -> exists z1, session_ 0 z0 h1 z1 /\ session_ 0 z1 h2 z2).
    { clear. induction h1 as [|[kk rr] h1 IH]; intros h2 z0 z2 H; [exists z0; split; [constructor|exact H]|]. cbn [app] in H. destruct (session_cons _ _ _ _ _ _ H) as (z1 & C & H1).
      destruct (IH _ _ _ H1) as (z3 & S1 & S2). exists z3. split; [econstructor; eassumption|exact S2]. }
    destruct (Split _ _ _ _ HS) as (z & S1 & S2). destruct (prepared max r0 r1 r2 r3 r4 r5 r6 r7 r8 _ R0 S1) as (ER & x & -> & Rx).
    destruct (session_cons _ _ _ _ _ _ S2) as (x1 & C1 & S3). destruct (session_cons _ _ _ _ _ _ S3) as (x2 & C2 & S4). clear HS S1 S2 S3 S4.
    unfold concerns in C1. cbn [target] in C1. rewrite Z.eqb_refl in C1. unfold behaves in C1. destruct C1 as (code & St & C1); [clear - HN; lia|].
    assert (NL : (N =? 0) || reason_eqb (n_last x) RSemihost = false). { destruct Rx as (-> & _). pose proof steps_pos. apply orb_false_iff. split; [lia|reflexivity]. }
    rewrite NL in C1. destruct C1 as (q & last & Ex & -> & RR & CC). destruct (executes_exact x N q last Rx (proj1 HN) Ex) as [-> ->]. cbn [step_code] in CC. subst code.
    unfold concerns in C2. cbn [target] in C2. rewrite Z.eqb_refl in C2. unfold behaves in C2.
    destruct C2 as (_ & Dt & RR2); [clear - Lo; lia|change (2 ^ 64) with 18446744073709551616; change (2 ^ 22) with 4194304 in B1; clear - B1; lia|]. cbn [n_mach] in Dt.
    set (mm := m_mem (ref exec steps (n_mach x))) in *.
    assert (DL : r_data r = map (fun i => mm (out + Z.of_nat i)) (seq 0 (Z.to_nat size))).
    { rewrite Dt. unfold max_address. unfold top_address in Lo. destruct (4194303 <? out) eqn:Q; [replace (Z.to_nat size) with 0%nat by (clear - Lo Q B1; lia); reflexivity|].
      rewrite Z.min_l by (clear - Lo; lia). reflexivity. }
    assert (LD : Z.of_nat (length (r_data r)) = size) by (rewrite DL, map_length, seq_length, Z2Nat.id; [reflexivity|clear - B1; lia]).
    split; [|split; [exact St|]].
    - cbn [map] in ER |- *. injection ER as -> -> -> -> -> -> -> ->. rewrite R0, RR, RR2, LD. rewrite Z.mod_small by (pose proof steps_small; clear - H; lia). reflexivity.
    - cbn [nth]. split; [exact LD|]. intros i old Hi. destruct (ready_runs x Rx) as (_ & _ & KS). fold mm in KS.
      replace (elem (dst_ty o T) (listed (r_data r)) 0 i) with (elem (dst_ty o T) mm out i); [now apply KS|].
      assert (LB : lanebytes (dst_ty o T) = 2 ^ k).
      { unfold lanebytes. replace (bits (dst_ty o T)) with (bits T) by (clear; now destruct o, T). rewrite HT. rewrite Z.mul_comm. apply Z.div_mul. lia. }
      apply MachProofs3.elem_ext. rewrite LB. intros t Ht. assert (Q : 0 <= i * 2 ^ k + t < size) by (clear - Hi Ht B2; set (z := 2 ^ k) in *; clearbody z; nia).
      rewrite Z.add_0_l. set (u := i * 2 ^ k + t) in *. replace (out + i * 2 ^ k + t) with (out + u) by (unfold u; ring). clearbody u.
      unfold listed. rewrite DL. rewrite (nth_indep _ 0 ((fun i => mm (out + Z.of_nat i)) 0%nat)) by (rewrite map_length, seq_length; clear - Q; lia).
      rewrite (map_nth (fun i => mm (out + Z.of_nat i))). rewrite seq_nth by (clear - Q; lia). rewrite Nat.add_0_l, Z2Nat.id by (clear - Q; lia). reflexivity.
  Qed.
End Sess.
