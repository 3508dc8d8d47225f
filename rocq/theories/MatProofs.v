(** * Proofs for the matrix product on the V1 machine *)
From Coq Require Import ZArith List Bool String Lia ZifyBool ZifyNat.
From Verif Require Import CInt VecModel VecSpec VecProofs VecEl ConvModel ConvSpec ConvProofs MemModel MemSpec MemProofs LogModel.
From Verif Require Import DecodeTypes DecodeTable DecodeModel DecodeSpec DecodeProofs DecodeProofs2 DecodeProofs3 DecodeProofs4 PropDecode.
From Verif Require Import V2DecModel V1ScalModel TopModel TopSpec TopProofs2 CliSpec MachModel MachSpec MachVecSpec MatSpec.
From Verif Require Import MachProofs MachProofs2 MachProofs3 MachProofs4 MachProofs6 MachProofs7.
Import ListNotations.
Open Scope string_scope.
Open Scope Z_scope.

(** ** Sums *)
Lemma sum_app b f : forall a, sum (a + b) f = sum a f + sum b (fun k => f (Z.of_nat a + k)).
Proof.
  intros a. induction b as [|b IH]; [rewrite Nat.add_0_r; cbn [sum]; lia|].
  rewrite Nat.add_succ_r. cbn [sum]. rewrite IH. rewrite Nat2Z.inj_add. lia.
Qed.
Lemma sum_by_4 f : forall n, sum (4 * n) f = sum n (fun m => sum 4 (fun b => f (4 * m + b))).
Proof.
  induction n as [|n IH]; [reflexivity|]. replace (4 * S n)%nat with (4 * n + 4)%nat by lia. rewrite sum_app, IH.
  cbn [sum]. replace (Z.of_nat (4 * n)) with (4 * Z.of_nat n) by lia. reflexivity.
Qed.
Lemma sum_bound n f B : (forall i, 0 <= i < Z.of_nat n -> - B <= f i <= B) -> - (Z.of_nat n * B) <= sum n f <= Z.of_nat n * B.
Proof.
  induction n as [|n IH]; intros H; [cbn [sum]; lia|]. cbn [sum].
  assert (H1 : forall i, 0 <= i < Z.of_nat n -> - B <= f i <= B) by (intros i Hi; apply H; lia).
  specialize (IH H1). specialize (H (Z.of_nat n) ltac:(lia)). lia.
Qed.

(** ** Places *)
Lemma place_cell i j : 0 <= i < 8 -> 0 <= j < 8 -> exists r q, 0 <= r < 8 /\ 0 <= q < 8 /\ row_of r q = i /\ word_of r q = j /\ mat_place i j = 32 * r + 4 * q.
Proof.
  intros Hi Hj.
  assert (Ei : i = 0 \/ i = 1 \/ i = 2 \/ i = 3 \/ i = 4 \/ i = 5 \/ i = 6 \/ i = 7) by lia.
  assert (Ej : j = 0 \/ j = 1 \/ j = 2 \/ j = 3 \/ j = 4 \/ j = 5 \/ j = 6 \/ j = 7) by lia.
  exists (4 * (i / 4) + swap12 (j mod 4)), (2 * (i mod 4) + j / 4).
  destruct Ei as [->|[->|[->|[->|[->|[->|[->| ->]]]]]]]; destruct Ej as [->|[->|[->|[->|[->|[->|[->| ->]]]]]]];
    vm_compute; repeat split; congruence.
Qed.

(** ** Rows of the concrete words *)
Lemma ldb_row d w v x : decoder_ok d -> In (w, v, x) [(0x1005003f, 0, 10); (0x1005013f, 4, 10); (0x1005883f, 32, 11); (0x1005893f, 36, 11)] ->
  exists e, parse d w = Some e /\ meaning (e_name e) = Some (SmLd I8 false false true I8 true) /\ has_xs2 (e_name e) = false /\ has_post (e_name e) = true /\
  w_m w = true /\ f_vd w = v /\ f_xs1 w = x /\ f_vs1 w <> 0.
Proof.
  intros Hd Hi. cbn [In] in Hi. destruct Hi as [Hi|[Hi|[Hi|[Hi|[]]]]]; injection Hi as <- <- <-; eexists;
    (split; [apply (in_memory d _ _ Hd); vm_compute; reflexivity|vm_compute; repeat split; congruence]).
Qed.
Lemma stb_row d w v : decoder_ok d -> In (w, v) [(0x30070c3f, 48); (0x30070d3f, 52)] ->
  exists e, parse d w = Some e /\ meaning (e_name e) = Some (SmSt I8 false false true) /\ has_xs2 (e_name e) = false /\ has_post (e_name e) = true /\
  w_m w = true /\ f_vd w = v /\ f_xs1 w = 14 /\ f_vs1 w <> 0.
Proof.
  intros Hd Hi. cbn [In] in Hi. destruct Hi as [Hi|[Hi|[]]]; injection Hi as <- <-; eexists;
    (split; [apply (in_memory d _ _ Hd); vm_compute; reflexivity|vm_compute; repeat split; congruence]).
Qed.
Lemma in_conv d w e : decoder_ok d -> forallb (fun g' => forallb (fun x => negb (matches w x)) (table g')) [GInst; GArith] = true ->
  filter (matches w) (table GConv) = [e] -> parse d w = Some e.
Proof. intros Hd. exact (only_in_group d w [GInst; GArith] GConv _ e Hd eq_refl). Qed.
Definition addi_act : act := Act [Fn "RV32::RiscVIAdd" []] [PX 12; PImm (-1)] [DX 12] None.
Lemma addi_row d : decoder_ok d -> exists e, parse d 0xfff60613 = Some e /\ (exists q, e_sem e = SmScalar q) /\ act1 e 0xfff60613 = addi_act.
Proof.
  intros Hd. eexists. split; [apply (in_inst d _ _ Hd); vm_compute; reflexivity|split; [eexists; vm_compute; reflexivity|vm_compute; reflexivity]].
Qed.
Lemma conv_row d : decoder_ok d -> let w := 0x80902c05 in exists e, parse d w = Some e /\ meaning (e_name e) = Some SmConv /\ e_sem e = SmConv /\
  f_xs2 w = 9 /\ f_vs1 w = 0 /\ f_vs3 w = 32.
Proof.
  intros Hd w. eexists. split; [apply (in_conv d _ _ Hd); vm_compute; reflexivity|vm_compute; repeat split].
Qed.
Lemma vcget_row d : decoder_ok d -> let w := 0x50000c1f in exists e, parse d w = Some e /\ meaning (e_name e) = Some SmVcGet /\ f_vd w = 48.
Proof.
  intros Hd w. eexists. split; [apply (in_memory d _ _ Hd); vm_compute; reflexivity|vm_compute; repeat split].
Qed.

Lemma lane8 b b' j k : 0 <= b j < 256 -> 0 <= b' k < 256 -> lane I8 b j = trunc I8 (uval 1 b' k) -> b j = b' k.
Proof.
  intros H1 H2. unfold lane. change (bits I8 / 8) with 1. change (Z.to_nat 1) with 1%nat. rewrite Z.mul_1_r.
  assert (U : forall (x : Z -> Z) i, uval 1 x i = x i) by (intros x i; unfold uval; cbn [seq map fold_right Z.of_nat]; rewrite !Z.add_0_r, Z.mul_0_r; change (2 ^ 0) with 1; lia).
  rewrite !U. unfold trunc. change (bits I8) with 8. change (is_signed I8) with true. cbn [andb]. change (2 ^ 8) with 256. change (2 ^ (8 - 1)) with 128.
  rewrite !Z.mod_small by assumption. destruct (128 <=? b j) eqn:E1, (128 <=? b' k) eqn:E2; lia.
Qed.
Lemma vbyte_byte {C} (s : arch (C := C)) r j : 0 <= vbyte s r j < 256.
Proof. unfold vbyte. apply Z.mod_pos_bound. lia. Qed.

Section Steps.
  Context {S : Type}.
  Notation arch := (arch (C := core S)).
  Variable d : decoder.
  Variable zbb : Z -> option act.
  Variable sys : act -> Z -> arch -> (Z -> Z) -> arch * (Z -> Z) * Z * option Z.
  Variable junk : Z -> Z -> vbytes.
  Variable ljunk : Z -> Z.
  Notation exec := (exec1 d zbb sys junk ljunk).
  Hypothesis Hd : decoder_ok d.

  (** What no instruction of the program changes. *)
  Definition calm (s s' : arch) : Prop :=
    k_dw (a_csr s') = k_dw (a_csr s) /\ k_log (a_csr s') = k_log (a_csr s) /\ k_wrong (a_csr s') = k_wrong (a_csr s) /\ k_sys (a_csr s') = k_sys (a_csr s).
  Definition mat_x (i : Z) : Prop := 10 <= i <= 12 \/ i = 14.
  Definition mat_v (r : Z) : Prop := 0 <= r < 8 \/ 32 <= r < 40 \/ 48 <= r < 56.
  Definition mframe (s s' : arch) : Prop :=
    calm s s' /\ (forall i, i < 64 -> ~ mat_x i -> a_regs s' i = a_regs s i) /\ vsame s s' mat_v.
  Lemma mframe_trans a b c : mframe a b -> mframe b c -> mframe a c.
  Proof.
    intros ((K1 & K2 & K3 & K4) & X1 & V1) ((L1 & L2 & L3 & L4) & X2 & V2). split; [unfold calm; repeat split; congruence|]. split.
    - intros i Hi N. rewrite X2 by assumption. now apply X1.
    - intros r j Hj N Hjj. rewrite V2 by assumption. now apply V1.
  Qed.
  Lemma keeps_calm (s s' : arch) : keeps s s' -> calm s s'.
  Proof. intros (K1 & K2 & K3 & K4 & K5). now repeat split. Qed.
  Lemma mframe_of s s' x (P : Z -> Prop) : calm s s' -> xsame s s' x -> mat_x x -> vsame s s' P -> (forall r, P r -> mat_v r) -> mframe s s'.
  Proof.
    intros K X Cx V HP. split; [exact K|]. split.
    - intros i Hi N. apply X; [exact Hi|]. intros ->. now apply N.
    - intros r j Hj N Hjj. apply V; auto.
  Qed.

  (** The operands of the loads and stores. *)
  Definition bops (s : arch) (x v : Z) : mop := MO false false true false (a_regs s x) None (VG v 4) (Some x) true.
  Lemma bops_facts s x v B : a_regs s x mod 2 ^ 31 = B -> B + 128 <= top_address ->
    let o := bops s x v in
    nsel I8 o = 128 /\ ~ over I8 o false /\ 0 <= B /\
    (forall e, 0 <= e < 128 -> eaddr I8 o false e = B + e) /\
    (forall y y', post_spec I8 o false y y' -> (forall i, i <> x -> y' i = y i) /\ y' x = B + 128).
  Proof.
    intros HB Ht o. unfold top_address in Ht.
    assert (B0 : 0 <= B) by (rewrite <- HB; apply Z.mod_pos_bound; lia).
    assert (Bo : base_of o = B) by exact HB.
    assert (Ns : nsel I8 o = 128) by reflexivity.
    assert (Ea : forall e, 0 <= e < 128 -> eaddr I8 o false e = B + e).
    { intros e He. rewrite eaddr_unit; rewrite ?Bo; [change (lanebytes I8) with 1; lia|left; reflexivity|reflexivity| |exact B0|exact He].
      change (regs_of o) with 4. lia. }
    split; [exact Ns|]. split.
    { intros (e & He & H). rewrite Ns in He. rewrite Ea in H by exact He. unfold top_address in H. lia. }
    split; [exact B0|]. split; [exact Ea|].
    intros y y' HP. unfold post_spec in HP. cbv [o bops mo_post] in HP. fold (bops s x v) in HP. fold o in HP. destruct HP as [P1 P2]. split; [exact P1|].
    rewrite P2, Ns, Bo. change (128 =? 0) with false. cbv iota. change (increment I8 o false) with 128. apply Z.mod_small. lia.
  Qed.
  Lemma step_ldb w v x B a s m : In (w, v, x) [(0x1005003f, 0, 10); (0x1005013f, 4, 10); (0x1005883f, 32, 11); (0x1005893f, 36, 11)] ->
    (forall y, 0 <= m y < 256) -> a_regs s 0 = 0 -> a_regs s x mod 2 ^ 31 = B -> B + 128 <= top_address ->
    let f := exec w a s m in
    f_mem f = m /\ f_pc f = next a /\ f_halt f = None /\ keeps s (f_arch f) /\ xsame s (f_arch f) x /\
    a_regs (f_arch f) x = B + 128 /\ vsame s (f_arch f) (fun r => v <= r < v + 4) /\
    forall g j, 0 <= g < 4 -> 0 <= j < 32 -> vbyte (f_arch f) (v + g) j = m (B + 32 * g + j).
  Proof.
    intros Hi Hm8 H0 HB Ht f.
    assert (Hx : x <> 0 /\ x < 64). { cbn [In] in Hi. destruct Hi as [Hi|[Hi|[Hi|[Hi|[]]]]]; injection Hi as <- <- <-; lia. }
    destruct (ldb_row d w v x Hd Hi) as (e & Hp & Hm & X2 & Po & Wm & Vd & X1 & V1).
    destruct (mach_load d zbb sys junk ljunk _ e a s m _ _ _ _ _ _ Hd Hp Hm H0) as (F1 & F2 & F3 & (y & F4 & F5) & _ & F6).
    assert (EO : operands w (e_name e) s false false false = bops s x v).
    { unfold operands. rewrite X2, Po, Wm, Vd, X1. replace (f_vs1 w =? 0) with false by lia. replace (x =? 0) with false by lia. reflexivity. }
    rewrite EO in *. rewrite Wm, Vd in F6. destruct (bops_facts s x v B HB Ht) as (O1 & O2 & O3 & O4 & O5).
    destruct (F6 O2) as (F7 & F8 & F9). destruct (O5 _ _ F4) as [P1 P2]. fold f in F1, F2, F3, F5, F7, F8, F9.
    split; [exact F1|]. split; [exact F2|]. split; [exact F7|]. split; [exact F3|].
    split; [|split; [|split]].
    - intros i Hi2 N. rewrite F5 by exact Hi2. now apply P1.
    - rewrite F5 by lia. exact P2.
    - intros r j Hr N Hj. now apply F9.
    - intros g j Hg Hj. specialize (F8 g j Hg Hj). cbv zeta in F8. rewrite O1 in F8. change (nlanes I8) with 32 in F8.
      replace (g * 32 + j <? 128) with true in F8 by lia. rewrite O4 in F8 by lia. change (Z.to_nat (lanebytes I8)) with 1%nat in F8.
      replace (B + 32 * g + j) with (B + (g * 32 + j)) by lia. apply lane8; [apply vbyte_byte|apply Hm8|exact F8].
  Qed.
  Lemma step_stb w v B a s m : In (w, v) [(0x30070c3f, 48); (0x30070d3f, 52)] ->
    a_regs s 0 = 0 -> a_regs s 14 mod 2 ^ 31 = B -> B + 128 <= top_address ->
    let f := exec w a s m in
    f_pc f = next a /\ f_halt f = None /\ keeps s (f_arch f) /\ xsame s (f_arch f) 14 /\
    a_regs (f_arch f) 14 = B + 128 /\ vsame s (f_arch f) (fun _ => False) /\
    (forall A, ~ (B <= A < B + 128) -> f_mem f A = m A) /\
    forall g j, 0 <= g < 4 -> 0 <= j < 32 -> f_mem f (B + 32 * g + j) = vbyte s (v + g) j.
  Proof.
    intros Hi H0 HB Ht f.
    destruct (stb_row d w v Hd Hi) as (e & Hp & Hm & X2 & Po & Wm & Vd & X1 & V1).
    destruct (mach_store d zbb sys junk ljunk _ e a s m I8 false false true false Hd Hp Hm (fun h => match Bool.diff_false_true h with end) H0)
      as (F2 & F3 & (y & F4 & F5) & F9 & _ & F6).
    assert (EO : operands w (e_name e) s false false false = bops s 14 v).
    { unfold operands. rewrite X2, Po, Wm, Vd, X1. replace (f_vs1 w =? 0) with false by lia. reflexivity. }
    rewrite EO in *. destruct (bops_facts s 14 v B HB Ht) as (O1 & O2 & O3 & O4 & O5).
    destruct (F6 O2) as (F7 & F8). destruct (O5 _ _ F4) as [P1 P2]. fold f in F2, F3, F5, F7, F8, F9.
    destruct (stored_unit I8 _ _ _ _ B (or_introl eq_refl) F8) as [Q1 Q2];
      [rewrite O1; lia|intros i Hi'; change (lanebytes I8) with 1; rewrite Z.mul_1_r; apply O4; now rewrite O1 in Hi'|].
    rewrite O1 in *. change (lanebytes I8) with 1 in Q1, Q2.
    split; [exact F2|]. split; [exact F7|]. split; [exact F3|].
    split; [|split; [|split; [|split]]].
    - intros i Hi2 N. rewrite F5 by exact Hi2. now apply P1.
    - rewrite F5 by lia. exact P2.
    - intros r j Hr N Hj. now apply F9.
    - intros A HA. apply Q1. lia.
    - intros g j Hg Hj. specialize (Q2 (32 * g + j) 0 ltac:(lia) ltac:(lia)). change (nlanes I8) with 32 in Q2.
      replace (B + (32 * g + j) * 1 + 0) with (B + 32 * g + j) in Q2 by lia. rewrite Q2. change (g_base (mo_v (bops s 14 v))) with v.
      f_equal; [|]; [f_equal|]; lia.
  Qed.
  Lemma step_addi a s m :
    let f := exec 0xfff60613 a s m in
    f_mem f = m /\ f_pc f = next a /\ f_halt f = None /\ keeps s (f_arch f) /\ xsame s (f_arch f) 12 /\
    a_regs (f_arch f) 12 = (a_regs s 12 mod 2 ^ 32 - 1) mod 2 ^ 32 /\ vsame s (f_arch f) (fun _ => False).
  Proof.
    intros f. destruct (addi_row d Hd) as (e & Hp & (q & Es) & Ea).
    assert (E : f = exec_scalar sys ljunk addi_act a s m) by (unfold f, exec1; rewrite Hp, Es, Ea; reflexivity).
    change (exec_scalar sys ljunk addi_act a s m) with (normal (set_dst (DX 12) (u32 (a_regs s 12) + (2 ^ 32 - 1)) s) m a) in E. rewrite E. clear E f.
    split; [reflexivity|]. split; [reflexivity|]. split; [reflexivity|]. split; [repeat split|].
    split; [|split].
    - intros i Hi N. cbn [normal f_arch with_core set_dst a_regs]. unfold upd. now replace (i =? 12) with false by lia.
    - change (a_regs (f_arch (normal (set_dst (DX 12) (u32 (a_regs s 12) + (2 ^ 32 - 1)) s) m a)) 12) with (u32 (u32 (a_regs s 12) + (2 ^ 32 - 1))).
      unfold u32. replace (a_regs s 12 mod 2 ^ 32 + (2 ^ 32 - 1)) with (a_regs s 12 mod 2 ^ 32 - 1 + 1 * 2 ^ 32) by lia. apply Z_mod_plus_full.
    - intros r j Hr _ Hj. unfold vbyte. cbn [normal f_arch with_core set_dst a_regs]. unfold upd. now replace (64 + r =? 12) with false by lia.
  Qed.
  Lemma vec_log w e a s m : parse d w = Some e -> ~ is_scalar_op (e_sem e) -> k_log (a_csr (f_arch (exec w a s m))) = k_log (a_csr s).
  Proof.
    intros Hp N. rewrite (exec_vec d zbb sys junk ljunk w e) by assumption. unfold exec_vector.
    destruct (vec_step _ _ _ _ _) as [[[x t]| |]|]; reflexivity.
  Qed.
  Lemma step_conv a s m : a_regs s 0 = 0 -> acc_wf (k_acc (a_csr s)) -> conv_legal (a_regs s 9) ->
    let f := exec 0x80902c05 a s m in
    f_mem f = m /\ f_pc f = next a /\ f_halt f = None /\ calm s (f_arch f) /\ (forall i, i < 64 -> a_regs (f_arch f) i = a_regs s i) /\
    vsame s (f_arch f) (fun _ => False) /\ acc_wf (k_acc (a_csr (f_arch f))) /\
    forall r q, 0 <= r < 8 -> 0 <= q < 8 -> k_acc (a_csr (f_arch f)) r q = (k_acc (a_csr s) r q + conv_sum (a_regs s 9) (vbyte s) 0 32 r q) mod 2 ^ 32.
  Proof.
    intros H0 Ha Hc f. destruct (conv_row d Hd) as (e & Hp & Hm & Es & X2 & V1 & V3).
    pose proof (vec_log _ e a s m Hp ltac:(rewrite Es; intros [])) as L.
    destruct (mach_conv d zbb sys junk ljunk _ e a s m Hd Hp Hm H0 Ha) as (F1 & F2 & F3 & F4 & F5 & F6 & F7 & _ & F8).
    rewrite X2, V1, V3 in F8. destruct (F8 Hc) as (F9 & F10 & F11). fold f in L, F1, F2, F3, F4, F5, F6, F7, F9, F10, F11.
    split; [exact F1|]. split; [exact F2|]. split; [exact F9|]. split; [repeat split; assumption|]. split; [exact F3|].
    split; [intros r j Hr _ Hj; now apply F4|]. split; assumption.
  Qed.
  Lemma step_vcget a s m : a_regs s 0 = 0 -> acc_wf (k_acc (a_csr s)) ->
    let f := exec 0x50000c1f a s m in
    f_mem f = m /\ f_pc f = next a /\ f_halt f = None /\ calm s (f_arch f) /\ (forall i, i < 64 -> a_regs (f_arch f) i = a_regs s i) /\
    vsame s (f_arch f) (fun r => 48 <= r < 48 + 8) /\ acc_wf (k_acc (a_csr (f_arch f))) /\
    forall r q, 0 <= r < 8 -> 0 <= q < 8 -> k_acc (a_csr (f_arch f)) r q = 0 /\ uval 4 (vbyte (f_arch f) (48 + r)) (4 * q) = k_acc (a_csr s) r q.
  Proof.
    intros H0 Ha f. destruct (vcget_row d Hd) as (e & Hp & Hm & Vd).
    destruct (mach_vcget d zbb sys junk ljunk _ e a s m Hd Hp Hm H0 Ha) as ((F1 & F2 & F3 & F4 & F5 & F6) & X & D & V & A & R).
    rewrite Vd in V, R. fold f in F1, F2, F3, F4, F5, F6, X, D, V, A, R.
    split; [exact F1|]. split; [exact F2|]. split; [exact F3|]. split; [repeat split; assumption|]. split; [exact X|].
    split; [exact V|]. split; assumption.
  Qed.
End Steps.
