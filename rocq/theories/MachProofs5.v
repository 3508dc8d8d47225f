(** * Proofs for the V1 machine: RV32IM *)
From Coq Require Import ZArith List Bool String Lia ZifyBool ZifyNat.
From Verif Require Import CInt VecModel VecSpec LogModel LogSpec.
From Verif Require LogProofs.
From Verif Require Import DecodeTypes DecodeTable DecodeModel DecodeSpec.
From Verif Require Import V2DecTypes V2DecModel V2DecSpec V2DecProofs2 V1ScalModel V1ScalSpec V1ScalProofs TopModel RvSpec MachModel MachSpec MachProofs2.
Import ListNotations.
Open Scope string_scope.
Open Scope Z_scope.

(** ** The operations *)
Lemma u32_range v : 0 <= u32 v < 2 ^ 32.
Proof. unfold u32. apply Z.mod_pos_bound. lia. Qed.
Lemma u32_low v : low (u32 v) v.
Proof.
  unfold low, u32. rewrite Zminus_mod, Z.mod_mod, Z.sub_diag by lia. reflexivity.
Qed.
Lemma s32_signed x s : signed x s -> s = s32 x.
Proof.
  unfold signed, s32, u32. intros [H1 H2]. pose proof (Z_div_mod_eq_full (s - x) (2 ^ 32)) as D. rewrite H2 in D.
  pose proof (Z_div_mod_eq_full x (2 ^ 32)) as E. pose proof (Z.mod_pos_bound x (2 ^ 32) ltac:(lia)).
  set (q := (s - x) / 2 ^ 32) in *. set (p := x / 2 ^ 32) in *. set (r := x mod 2 ^ 32) in *. clearbody q p r.
  destruct (r <? 2 ^ 31) eqn:L; lia.
Qed.
Lemma signed_s32 x : signed x (s32 x).
Proof.
  unfold signed, s32, u32. pose proof (Z_div_mod_eq_full x (2 ^ 32)) as E. pose proof (Z.mod_pos_bound x (2 ^ 32) ltac:(lia)).
  destruct (x mod 2 ^ 32 <? 2 ^ 31) eqn:L; (split; [lia|]).
  - rewrite Zminus_mod, Z.mod_mod, Z.sub_diag by lia. reflexivity.
  - replace (x mod 2 ^ 32 - 2 ^ 32 - x) with ((- (x / 2 ^ 32) - 1) * 2 ^ 32) by lia. apply Z_mod_mult.
Qed.
Lemma bits_u32 v f : (forall i, 0 <= i < 32 -> Z.testbit v i = f i) -> bits_are (u32 v) f.
Proof.
  intros H i Hi. unfold u32. rewrite Z.mod_pow2_bits_low by lia. now apply H.
Qed.
Definition fine (f : Z -> Z -> Z) (P : Z -> Z -> Z -> Prop) : Prop := forall x y, 0 <= x < 2 ^ 32 -> 0 <= y < 2 ^ 32 -> P x y (u32 (f x y)).
Lemma truth_if (b : bool) P : (b = true <-> P) -> truth (u32 (if b then 1 else 0)) P.
Proof. intros H. destruct b; [left|right]; (split; [|reflexivity]); [tauto|]. intros p. apply H in p. discriminate. Qed.
Lemma fine_slt : fine (fun a b => if s32 a <? s32 b then 1 else 0) compares.
Proof. intros x y Hx Hy s t Hs Ht. apply s32_signed in Hs, Ht. subst. apply truth_if. apply Z.ltb_lt. Qed.
Lemma fine_sltu : fine (fun a b => if a <? b then 1 else 0) comparesu.
Proof. intros x y Hx Hy. apply truth_if. apply Z.ltb_lt. Qed.
Lemma fine_sll : fine (fun a b => a * 2 ^ (b mod 32)) lefts.
Proof.
  intros x y Hx Hy. unfold lefts. cbv zeta. pose proof (Z.mod_pos_bound y 32 ltac:(lia)). set (n := y mod 32) in *. clearbody n.
  apply bits_u32. intros i Hi. rewrite <- Z.shiftl_mul_pow2 by lia. rewrite Z.shiftl_spec by lia.
  destruct (n <=? i) eqn:E; [reflexivity|]. rewrite Z.testbit_neg_r by lia. reflexivity.
Qed.
Lemma above x i : 0 <= x < 2 ^ 32 -> 32 <= i -> Z.testbit x i = false.
Proof. intros Hx Hi. rewrite <- (Z.mod_small x (2 ^ 32)) by lia. apply Z.mod_pow2_bits_high. lia. Qed.
Lemma fine_srl : fine (fun a b => a / 2 ^ (b mod 32)) rights.
Proof.
  intros x y Hx Hy. unfold rights. cbv zeta. pose proof (Z.mod_pos_bound y 32 ltac:(lia)). set (n := y mod 32) in *. clearbody n.
  apply bits_u32. intros i Hi. rewrite <- Z.shiftr_div_pow2 by lia. rewrite Z.shiftr_spec by lia.
  destruct (i + n <? 32) eqn:E; [reflexivity|]. cbn [andb]. apply above; lia.
Qed.
Lemma s32_bit x i : 0 <= x < 2 ^ 32 -> 0 <= i -> Z.testbit (s32 x) i = Z.testbit x (Z.min i 31).
Proof.
  intros Hx Hi. unfold s32, u32. rewrite Z.mod_small by lia.
  destruct (x <? 2 ^ 31) eqn:L.
  - assert (F : forall j, 31 <= j -> Z.testbit x j = false).
    { intros j Hj. rewrite <- (Z.mod_small x (2 ^ 31)) by lia. apply Z.mod_pow2_bits_high. lia. }
    destruct (Z.le_gt_cases 31 i) as [G|G]; [rewrite Z.min_r by lia; rewrite !F by lia; reflexivity|now rewrite Z.min_l by lia].
  - replace (x - 2 ^ 32) with (x + (-1) * 2 ^ 32) by lia.
    destruct (Z.lt_ge_cases i 32) as [G|G].
    + rewrite <- (Z.mod_pow2_bits_low _ 32 i) by lia. rewrite Z_mod_plus_full. rewrite Z.mod_pow2_bits_low by lia. f_equal. lia.
    + rewrite Z.min_r by lia. replace (Z.testbit x 31) with true.
      * replace (x + -1 * 2 ^ 32) with (Z.lnot (2 ^ 32 - 1 - x)) by (unfold Z.lnot; lia). rewrite Z.lnot_spec by lia. rewrite above by lia. reflexivity.
      * symmetry. apply Z.testbit_true; [lia|]. replace (x / 2 ^ 31) with 1; [reflexivity|]. apply Z.div_unique with (x - 2 ^ 31); lia.
Qed.
Lemma fine_sra : fine (fun a b => s32 a / 2 ^ (b mod 32)) rights_a.
Proof.
  intros x y Hx Hy. unfold rights_a. cbv zeta. pose proof (Z.mod_pos_bound y 32 ltac:(lia)). set (n := y mod 32) in *. clearbody n.
  apply bits_u32. intros i Hi. rewrite <- Z.shiftr_div_pow2 by lia. rewrite Z.shiftr_spec by lia. apply s32_bit; lia.
Qed.
Lemma high_div p : high (u32 (p / 2 ^ 32)) p.
Proof.
  exists (p / 2 ^ 32), (p mod 2 ^ 32). split; [rewrite Z.mul_comm; apply Z_div_mod_eq_full|]. split; [apply Z.mod_pos_bound; lia|apply u32_low].
Qed.
Lemma divides_quot a b : b <> 0 -> divides_as a b (Z.quot a b) (Z.rem a b).
Proof.
  intros Hb. split; [apply Z.quot_rem'|]. split; [now apply Z.rem_bound_abs|]. rewrite Z.mul_comm. 
  pose proof (Z.rem_sign_mul a b Hb). lia.
Qed.
Lemma divides_div a b : 0 <= a -> 0 < b -> divides_as a b (a / b) (a mod b).
Proof.
  intros Ha Hb. split; [apply Z_div_mod_eq_full|]. pose proof (Z.mod_pos_bound a b Hb). split; [rewrite !Z.abs_eq; lia|]. apply Z.mul_nonneg_nonneg; lia.
Qed.
Lemma s32_zero x : 0 <= x < 2 ^ 32 -> (s32 x =? 0) = (x =? 0).
Proof. intros H. unfold s32, u32. rewrite Z.mod_small by lia. destruct (x <? 2 ^ 31) eqn:E; lia. Qed.
Lemma fine_div : fine (fun a b => if b =? 0 then -1 else Z.quot (s32 a) (s32 b)) (on_signed (fun s t v => if t =? 0 then v = 2 ^ 32 - 1 else exists q r, divides_as s t q r /\ low v q)).
Proof.
  intros x y Hx Hy s t Hs Ht. apply s32_signed in Hs, Ht. subst. rewrite s32_zero by assumption. destruct (y =? 0) eqn:E; [reflexivity|].
  exists (Z.quot (s32 x) (s32 y)), (Z.rem (s32 x) (s32 y)). split; [apply divides_quot; apply Z.eqb_neq; now rewrite s32_zero|apply u32_low].
Qed.
Lemma fine_rem : fine (fun a b => if b =? 0 then a else Z.rem (s32 a) (s32 b))
  (fun x y v => on_signed (fun s t v => if t =? 0 then v = x else exists q r, divides_as s t q r /\ low v r) x y v).
Proof.
  intros x y Hx Hy s t Hs Ht. apply s32_signed in Hs, Ht. subst. rewrite s32_zero by assumption.
  destruct (y =? 0) eqn:E; [unfold u32; now apply Z.mod_small|].
  exists (Z.quot (s32 x) (s32 y)), (Z.rem (s32 x) (s32 y)). split; [apply divides_quot; apply Z.eqb_neq; now rewrite s32_zero|apply u32_low].
Qed.
Lemma fine_divu : fine (fun a b => if b =? 0 then -1 else a / b) (fun x y v => if y =? 0 then v = 2 ^ 32 - 1 else exists q r, divides_as x y q r /\ low v q).
Proof.
  intros x y Hx Hy. destruct (y =? 0) eqn:E; [reflexivity|]. exists (x / y), (x mod y). split; [apply divides_div; lia|apply u32_low].
Qed.
Lemma fine_remu : fine (fun a b => if b =? 0 then a else a mod b) (fun x y v => if y =? 0 then v = x else exists q r, divides_as x y q r /\ low v r).
Proof.
  intros x y Hx Hy. destruct (y =? 0) eqn:E; [unfold u32; now apply Z.mod_small|]. exists (x / y), (x mod y). split; [apply divides_div; lia|apply u32_low].
Qed.
Lemma fine_mulh : fine (fun a b => s32 a * s32 b / 2 ^ 32) (on_signed (fun s t v => high v (s * t))).
Proof. intros x y Hx Hy s t Hs Ht. apply s32_signed in Hs, Ht. subst. apply high_div. Qed.
Lemma fine_mulhsu : fine (fun a b => s32 a * b / 2 ^ 32) (fun x y v => forall s, signed x s -> high v (s * y)).
Proof. intros x y Hx Hy s Hs. apply s32_signed in Hs. subst. apply high_div. Qed.
Lemma fine_and : fine Z.land ands.
Proof. intros x y _ _. apply bits_u32. intros i Hi. apply Z.land_spec. Qed.
Lemma fine_or : fine Z.lor ors.
Proof. intros x y _ _. apply bits_u32. intros i Hi. apply Z.lor_spec. Qed.
Lemma fine_xor : fine Z.lxor xors.
Proof. intros x y _ _. apply bits_u32. intros i Hi. apply Z.lxor_spec. Qed.

(** ** The manual's table against the kinds *)
Definition kind_of_sem (l : list fn2) : MachModel.kind := act_kind (Act l [] [] None).
Lemma kind_sem c : act_kind c = kind_of_sem (a_sem c).
Proof. reflexivity. Qed.
Definition is_imm (k : V2DecSpec.kind) : Prop := In k imms \/ k = Ufld 20 5.
Definition alu_row (m : ment) : Prop := forall P, lookup (m_name m) op_specs = Some P ->
  exists f k, kind_of_sem (m_sem m) = KAlu f /\ fine f P /\ m_src m = [KX 15; k] /\ (k = KX 20 \/ is_imm k) /\
    m_dst m = [DKX 7] /\ m_child m = None /\ m_nop m = rd0.
Ltac row := eexists; eexists; split; [reflexivity|]; split;
  [first [exact fine_slt|exact fine_sltu|exact fine_and|exact fine_or|exact fine_xor|exact fine_sll|exact fine_srl|exact fine_sra|
          exact fine_mulh|exact fine_mulhsu|exact fine_div|exact fine_divu|exact fine_rem|exact fine_remu|
          intros ? ? _ _; first [apply u32_low|apply high_div]]|];
  split; [reflexivity|]; split; [unfold is_imm, imms; cbn [In]; auto 10|]; auto.
Lemma alu_rows : Forall alu_row manual1.
Proof.
  unfold manual1, base1, mul_div, zicsr1, priv1, coral1, getvl1.
  repeat first [apply Forall_cons|apply Forall_nil|apply Forall_app; split|cbn [flat_map app map]];
    (intros P HP; cbn in HP; first [discriminate HP|injection HP as <-; row]).
Qed.
Definition named {A} (l : list (string * A)) (Q : ment -> A -> Prop) (m : ment) : Prop := forall a, lookup (m_name m) l = Some a -> Q m a.
Ltac rows := unfold manual1, base1, mul_div, zicsr1, priv1, coral1, getvl1;
  repeat first [apply Forall_cons|apply Forall_nil|apply Forall_app; split|cbn [flat_map app map]];
    (let P := fresh in let HP := fresh in intros P HP; cbn in HP; first [discriminate HP|injection HP as <-]).
Definition fine_branch (c : Z -> Z -> bool) (P : Z -> Z -> Prop) : Prop := forall x y, c x y = true <-> P x y.
Lemma on_s32 (Q : Z -> Z -> Prop) x y : Q (s32 x) (s32 y) <-> (forall s t, signed x s -> signed y t -> Q s t).
Proof. split; [intros H s t Hs Ht; apply s32_signed in Hs, Ht; now subst|intros H; apply H; apply signed_s32]. Qed.
Lemma branch_rows : Forall (named branch_specs (fun m P => exists c, kind_of_sem (m_sem m) = KBranch c /\ fine_branch c P /\
  m_src m = [KX 15; KX 20; Bimm] /\ m_dst m = [DKPc] /\ m_nop m = [])) manual1.
Proof.
  rows; (eexists; split; [reflexivity|]; split; [|auto]); intros x y; cbv beta.
  - exact (Z.eqb_eq x y).
  - change (negb (x =? y) = true <-> x <> y). rewrite negb_true_iff. apply Z.eqb_neq.
  - change ((s32 x <? s32 y) = true <-> (forall s t, signed x s -> signed y t -> s < t)). rewrite <- (on_s32 Z.lt). apply Z.ltb_lt.
  - change ((s32 y <=? s32 x) = true <-> (forall s t, signed x s -> signed y t -> t <= s)). rewrite <- (on_s32 (fun s t => t <= s)). apply Z.leb_le.
  - exact (Z.ltb_lt x y).
  - exact (Z.leb_le y x).
Qed.
Lemma load_rows : Forall (named load_specs (fun m T => kind_of_sem (m_sem m) = KLoad T /\ In T [I8; I16; I32; U8; U16] /\
  m_src m = [KX 15; Iimm] /\ m_dst m = [] /\ m_child m = Some ([], [DKX 7]) /\ m_nop m = [])) manual1.
Proof. rows; (split; [reflexivity|]; split; [cbn; tauto|auto]). Qed.
Lemma store_rows : Forall (named store_specs (fun m T => kind_of_sem (m_sem m) = KStore T /\ In T [U8; U16; U32] /\
  m_src m = [KX 15; Simm; KX 20] /\ m_dst m = [] /\ m_nop m = [])) manual1.
Proof. rows; (split; [reflexivity|]; split; [cbn; tauto|auto]). Qed.
Definition jumps : list (string * (MachModel.kind * list V2DecSpec.kind * list dkind * list (list (Z * Z * Z)))) := [
  ("jal", (KJal, [Jimm], [DKPc; DKX 7], [])); ("jalr", (KJalr, [KX 15; Iimm], [DKPc; DKX 7], []));
  ("lui", (KLui, [Uimm], [DKX 7], rd0)); ("auipc", (KAuipc, [Uimm], [DKX 7], rd0)) ].
Lemma jump_rows : Forall (named jumps (fun m t => let '(k, s, o, n) := t in kind_of_sem (m_sem m) = k /\ m_src m = s /\ m_dst m = o /\ m_nop m = n)) manual1.
Proof. rows; auto. Qed.

(** ** Operand values *)
Lemma value_ok k w x v o : (k = KX 15 \/ k = KX 20 \/ is_imm k) -> value k w x v -> operand_is k w o -> value1 x o = v.
Proof.
  intros Hk Hv Ho.
  assert (R : forall lo, k = KX lo -> value1 x o = v).
  { intros lo ->. cbn [value operand_is] in *. subst v o. unfold reg_at. now destruct (at_ w lo 5 =? 0). }
  assert (G : forall k', k = k' -> In k' imms -> value1 x o = v).
  { intros k' -> Hi. assert (Hv' : operand_is k' w (PImm v)).
    { unfold imms in Hi. cbn [In] in Hi. destruct Hi as [<-|[<-|[<-|[<-|[<-|[]]]]]]; exact Hv. }
    assert (exists u, o = PImm u) as (u & ->).
    { unfold imms in Hi. cbn [In] in Hi. destruct Hi as [<-|[<-|[<-|[<-|[<-|[]]]]]]; destruct Ho as (u & -> & _); eauto. }
    cbn [value1]. exact (imms_unique k' w u v Hi Ho Hv'). }
  destruct Hk as [->|[->|[Hk| ->]]]; [exact (R _ eq_refl)|exact (R _ eq_refl)|exact (G k eq_refl Hk)|].
  cbn [value operand_is Ufld] in *. destruct Hv as (v1 & E & B1 & _ & H1). injection E as <-. destruct Ho as (u & -> & B2 & _ & H2).
  specialize (H1 0 20 5 (or_introl eq_refl)). specialize (H2 0 20 5 (or_introl eq_refl)). unfold at_ in H1, H2.
  rewrite Z.pow_0_r, Z.div_1_r, Z.mod_small in H1, H2 by lia. cbn [value1]. congruence.
Qed.
Lemma in_manual (m : ment) (Q : ment -> Prop) : Forall Q manual1 -> In m manual1 -> Q m.
Proof. intros H. exact (proj1 (Forall_forall Q manual1) H m). Qed.

Lemma scalar_kinds : forallb (fun e => match e_sem e with SmScalar _ => true | _ => match kind_of_sem (sem1 e) with KSys => true | _ => false end end) all_entries = true.
Proof. vm_compute. reflexivity. Qed.

Section Set_.
  Context {S : Type}.
  Notation arch := (arch (C := core S)).
  Definition rd (w : Z) : Z := at_ w 7 5.
  Lemma rd_range w : 0 <= rd w < 32.
  Proof. unfold rd, at_. apply Z.mod_pos_bound. lia. Qed.
  Lemma set_writes w r v (s : arch) (Q : Z -> Prop) (g : core S -> core S) : dest_is (DKX 7) w r -> Q (u32 v) -> writes (rd w) Q s (with_core g (set_dst r v s)).
  Proof.
    intros Hr HQ. cbn [dest_is] in Hr. fold (rd w) in Hr. pose proof (rd_range w). split.
    - intros i Hi N. subst r. destruct (rd w =? 0) eqn:E; cbn [set_dst with_core a_regs]; unfold upd.
      + now replace (i =? -1) with false by lia.
      + now replace (i =? rd w) with false by lia.
    - intros N. subst r. replace (rd w =? 0) with false by lia. cbn [set_dst with_core a_regs]. unfold upd. rewrite Z.eqb_refl.
      split; [apply u32_range|exact HQ].
  Qed.
  Lemma same_writes w (s : arch) (Q : Z -> Prop) (g : core S -> core S) : rd w = 0 -> writes (rd w) Q s (with_core g s).
  Proof. intros H. split; [intros; reflexivity|]. intros N. now destruct N. Qed.
  Lemma keeps_set r v (s : arch) : keeps s (with_core tock (set_dst r v s)).
  Proof. destruct r; repeat split. Qed.
  Lemma keeps_tock (s : arch) : keeps s (with_core tock s).
  Proof. repeat split. Qed.
End Set_.

Section Rv.
  Context {S : Type}.
  Notation arch := (arch (C := core S)).
  Variable d : decoder.
  Variable zbb : Z -> option act.
  Variable sys : act -> Z -> arch -> (Z -> Z) -> arch * (Z -> Z) * Z * option Z.
  Variable junk : Z -> Z -> vbytes.
  Variable ljunk : Z -> Z.
  Notation exec := (exec1 d zbb sys junk ljunk).

  (** The word is executed as [exec_scalar] of what it decodes to. *)
  Lemma exec_proper m w : decoder_ok d -> proper m w -> kind_of_sem (m_sem m) <> KSys ->
    exists c, does m w c /\ forall a s mem, exec w a s mem = exec_scalar sys ljunk c a s mem.
  Proof.
    intros Hd (Hi & Hp & Hw & Hs & Hh) Hk. destruct (manual_words d m w Hd Hi Hp Hw Hs Hh) as (c & Hc & Hdo). exists c. split; [exact Hdo|].
    intros a s mem. unfold decode1 in Hc. unfold exec1. destruct (parse d w) as [e|] eqn:E; [|discriminate]. cbn [option_map] in Hc. injection Hc as <-.
    pose proof (DecodeProofs.parse_sound d w e Hd E) as [He _]. pose proof (proj1 (forallb_forall _ _) scalar_kinds e He) as K. cbv beta in K.
    assert (N : kind_of_sem (sem1 e) <> KSys).
    { change (sem1 e) with (a_sem (act1 e w)). destruct Hdo as [(-> & _)|(-> & _)]; [exact Hk|discriminate]. }
    destruct (e_sem e); try reflexivity; destruct (kind_of_sem (sem1 e)); try discriminate K; now destruct N.
  Qed.
  Lemma nop_act m w c : does m w c -> kind_of_sem (m_sem m) <> KSys ->
    (a_sem c = m_sem m /\ list_is operand_is w (m_src m) (a_src c) /\ list_is dest_is w (m_dst m) (a_dst c) /\
     match m_child m, a_child c with None, None => True | Some (s, t), Some (s', t') => list_is operand_is w s s' /\ list_is dest_is w t t' | _, _ => False end) \/
    (act_kind c = KNop /\ exists l, In l (m_nop m) /\ forall lo n v, In (lo, n, v) l -> at_ w lo n = v).
  Proof. intros [H|(H1 & H2 & H3)] _; [now left|right]. split; [|exact H3]. rewrite kind_sem, H1. reflexivity. Qed.

  Theorem rv_op m w a s mem P x y : decoder_ok d -> proper m w -> lookup (m_name m) op_specs = Some P -> values m w (a_regs s) [x; y] ->
    let f := exec w a s mem in
    f_mem f = mem /\ f_pc f = (a + 4) mod 2 ^ 32 /\ f_halt f = None /\ keeps s (f_arch f) /\
    writes (rd w) (P (x mod 2 ^ 32) (y mod 2 ^ 32)) s (f_arch f).
  Proof.
    intros Hd Hp HP HV f. destruct (in_manual m _ alu_rows (proj1 Hp) P HP) as (g & k & Ek & Hf & Es & Hk & Ed & Ec & En).
    destruct (exec_proper m w Hd Hp) as (c & Hdo & E); [rewrite Ek; discriminate|]. unfold f. rewrite E. clear f E.
    destruct (nop_act m w c Hdo) as [(S1 & S2 & S3 & S4)|(S1 & l & S2 & S3)]; [rewrite Ek; discriminate| |].
    - unfold values in HV. rewrite Es in *. rewrite Ed in S3. unfold list_is in *. inversion S2 as [|? p ? r1 Hp1 O1 E1 E2]; subst. inversion O1 as [|? q ? r2 Hq O2 E1 E3]; subst. inversion O2; subst.
      inversion S3 as [|? r ? r3 Hr O3 E1 E4]; subst. inversion O3; subst.
      inversion HV as [|? ? ? ? V1 V2]; subst. inversion V2 as [|? ? ? ? V3 _]; subst.
      unfold exec_scalar. rewrite kind_sem, S1, Ek, <- E2, <- E4.
      rewrite (value_ok (KX 15) w (a_regs s) x p), (value_ok k w (a_regs s) y q) by tauto.
      cbn [normal f_mem f_pc f_halt f_arch]. split; [reflexivity|]. split; [reflexivity|]. split; [reflexivity|]. split; [apply keeps_set|].
      apply set_writes; [exact Hr|]. apply Hf; apply u32_range.
    - rewrite En in S2. destruct S2 as [<-|[]]. specialize (S3 7 5 0 (or_introl eq_refl)).
      unfold exec_scalar. rewrite S1. cbn [normal f_mem f_pc f_halt f_arch]. split; [reflexivity|]. split; [reflexivity|]. split; [reflexivity|]. split; [apply keeps_tock|].
      apply same_writes. exact S3.
  Qed.

  Theorem rv_branch m w a s mem P x y i : decoder_ok d -> proper m w -> lookup (m_name m) branch_specs = Some P -> values m w (a_regs s) [x; y; i] ->
    let f := exec w a s mem in
    f_mem f = mem /\ f_halt f = None /\ keeps s (f_arch f) /\ a_regs (f_arch f) = a_regs s /\
    (P (x mod 2 ^ 32) (y mod 2 ^ 32) -> f_pc f = (a + i) mod 2 ^ 32) /\ (~ P (x mod 2 ^ 32) (y mod 2 ^ 32) -> f_pc f = (a + 4) mod 2 ^ 32).
  Proof.
    intros Hd Hp HP HV f. destruct (in_manual m _ branch_rows (proj1 Hp) P HP) as (g & Ek & Hf & Es & Ed & En).
    destruct (exec_proper m w Hd Hp) as (c & Hdo & E); [rewrite Ek; discriminate|]. unfold f. rewrite E. clear f E.
    destruct (nop_act m w c Hdo) as [(S1 & S2 & S3 & S4)|(S1 & l & S2 & S3)]; [rewrite Ek; discriminate| |rewrite En in S2; destruct S2].
    unfold values in HV. rewrite Es in *. rewrite Ed in S3. unfold list_is in *.
    inversion S2 as [|? p ? r1 Hp1 O1 E1 E2]; subst. inversion O1 as [|? q ? r2 Hq O2 E1 E3]; subst. inversion O2 as [|? o ? r3 Ho O3 E1 E5]; subst. inversion O3; subst.
    inversion S3 as [|? r ? r4 Hr O4 E1 E4]; subst. inversion O4; subst.
    inversion HV as [|? ? ? ? V1 V2]; subst. inversion V2 as [|? ? ? ? V3 V4]; subst. inversion V4 as [|? ? ? ? V5 _]; subst.
    unfold exec_scalar. rewrite kind_sem, S1, Ek, <- E2, <- E4.
    rewrite (value_ok (KX 15) w (a_regs s) x p), (value_ok (KX 20) w (a_regs s) y q), (value_ok Bimm w (a_regs s) i o) by (unfold is_imm, imms; cbn [In]; tauto).
    cbn [f_mem f_pc f_halt f_arch]. split; [reflexivity|]. split; [reflexivity|]. split; [apply keeps_tock|]. split; [reflexivity|].
    change (x mod 2 ^ 32) with (u32 x). change (y mod 2 ^ 32) with (u32 y). specialize (Hf (u32 x) (u32 y)). split; intros H.
    - apply Hf in H. rewrite H. unfold u32. rewrite Zplus_mod_idemp_r. reflexivity.
    - destruct (g (u32 x) (u32 y)); [|reflexivity]. destruct H. now apply Hf.
  Qed.

  (** Jumps and upper immediates: the value of rd and the next pc. *)
  Theorem rv_jump m w a s mem vs : decoder_ok d -> proper m w -> values m w (a_regs s) vs ->
    forall v pc, In (m_name m, v, pc) (match vs with
      | [i] => [("jal", a + 4, a + i); ("lui", i, a + 4); ("auipc", a + i, a + 4)]
      | [x; i] => [("jalr", a + 4, (x + i) - (x + i) mod 2)]
      | _ => [] end) ->
    let f := exec w a s mem in
    f_mem f = mem /\ f_halt f = None /\ keeps s (f_arch f) /\ f_pc f = pc mod 2 ^ 32 /\ writes (rd w) (fun r => low r v) s (f_arch f).
  Proof.
    intros Hd Hp HV v pc Hin f.
    assert (Hn : exists k ks ds nl, lookup (m_name m) jumps = Some (k, ks, ds, nl)).
    { destruct vs as [|v1 [|v2 [|v3 vs]]]; cbn [In] in Hin; try (now destruct Hin).
      - destruct Hin as [H|[H|[H|[]]]]; apply (f_equal (fun t => fst (fst t))) in H; cbn [fst] in H; rewrite <- H; cbn; eauto.
      - destruct Hin as [H|[]]; apply (f_equal (fun t => fst (fst t))) in H; cbn [fst] in H; rewrite <- H; cbn; eauto. }
    destruct Hn as (k & ks & ds & nl & Hn). destruct (in_manual m _ jump_rows (proj1 Hp) _ Hn) as (Ek & Es & Ed & En).
    assert (Hk : kind_of_sem (m_sem m) <> KSys).
    { rewrite Ek. clear - Hn. unfold jumps in Hn. cbn [lookup] in Hn.
      repeat (match type of Hn with (if ?b then _ else _) = _ => destruct b end; [injection Hn as <- <- <- <-; discriminate|]). discriminate. }
    destruct (exec_proper m w Hd Hp Hk) as (c & Hdo & E). unfold f. rewrite E. clear f E.
    destruct (nop_act m w c Hdo Hk) as [(S1 & S2 & S3 & S4)|(S1 & l & S2 & S3)].
    - unfold values in HV. rewrite Es in *. rewrite Ed in S3. unfold list_is in *.
      assert (C1 : kind_of_sem (a_sem c) = k) by now rewrite S1.
      destruct vs as [|v1 [|v2 [|v3 vs]]]; cbn [In] in Hin; try (now destruct Hin).
      + destruct Hin as [H|[H|[H|[]]]]; injection H as Hm <- <-; rewrite <- Hm in Hn; cbn in Hn; injection Hn as <- <- <- <-;
        inversion S2 as [|? p ? r1 Hp1 O1 E1 E2]; subst; inversion O1; subst; inversion HV as [|? ? ? ? V1 V2]; subst.
        * inversion S3 as [|? r ? r4 Hr O4 E1 E4]; subst. inversion O4 as [|? r' ? r5 Hr' O5 E1 E5]; subst. inversion O5; subst.
          unfold exec_scalar. rewrite kind_sem, C1, <- E2, <- E4. rewrite (value_ok Jimm w (a_regs s) v1 p) by (unfold is_imm, imms; cbn [In]; tauto).
          cbn [f_mem f_pc f_halt f_arch]. split; [reflexivity|]. split; [reflexivity|]. split; [apply keeps_set|]. split; [unfold u32; now rewrite Zplus_mod_idemp_r|].
          apply set_writes; [exact Hr'|apply u32_low].
        * inversion S3 as [|? r ? r4 Hr O4 E1 E4]; subst. inversion O4; subst.
          unfold exec_scalar. rewrite kind_sem, C1, <- E2, <- E4. rewrite (value_ok Uimm w (a_regs s) v1 p) by (unfold is_imm, imms; cbn [In]; tauto).
          cbn [normal f_mem f_pc f_halt f_arch]. split; [reflexivity|]. split; [reflexivity|]. split; [apply keeps_set|]. split; [reflexivity|].
          apply set_writes; [exact Hr|]. unfold low, u32. rewrite Z.mod_mod by lia. apply u32_low.
        * inversion S3 as [|? r ? r4 Hr O4 E1 E4]; subst. inversion O4; subst.
          unfold exec_scalar. rewrite kind_sem, C1, <- E2, <- E4. rewrite (value_ok Uimm w (a_regs s) v1 p) by (unfold is_imm, imms; cbn [In]; tauto).
          cbn [normal f_mem f_pc f_halt f_arch]. split; [reflexivity|]. split; [reflexivity|]. split; [apply keeps_set|]. split; [reflexivity|].
          apply set_writes; [exact Hr|]. replace (u32 (a + u32 v1)) with (u32 (a + v1)) by (unfold u32; now rewrite Zplus_mod_idemp_r). apply u32_low.
      + destruct Hin as [H|[]]; injection H as Hm <- <-; rewrite <- Hm in Hn; cbn in Hn; injection Hn as <- <- <- <-.
        inversion S2 as [|? p ? r1 Hp1 O1 E1 E2]; subst; inversion O1 as [|? q ? r2 Hq O2 E1 E3]; subst; inversion O2; subst.
        inversion HV as [|? ? ? ? V1 V2]; subst. inversion V2 as [|? ? ? ? V3 _]; subst.
        inversion S3 as [|? r ? r4 Hr O4 E1 E4]; subst. inversion O4 as [|? r' ? r5 Hr' O5 E1 E5]; subst. inversion O5; subst.
        unfold exec_scalar. rewrite kind_sem, C1, <- E2, <- E4.
        rewrite (value_ok (KX 15) w (a_regs s) v1 p), (value_ok Iimm w (a_regs s) v2 q) by (unfold is_imm, imms; cbn [In]; tauto).
        cbn [f_mem f_pc f_halt f_arch]. split; [reflexivity|]. split; [reflexivity|]. split; [apply keeps_set|]. split.
        * replace (u32 (u32 v1 + u32 v2)) with (u32 (v1 + v2)) by (unfold u32; now rewrite Zplus_mod).
          generalize (v1 + v2) as t. intros t. clear. change (2 ^ 32 - 2) with (Z.lnot 1 mod 2 ^ 32).
          unfold u32. apply Z.bits_inj'. intros i Hi. rewrite Z.land_spec.
          replace (t - t mod 2) with (2 * (t / 2)) by (pose proof (Z_div_mod_eq_full t 2); lia).
          destruct (Z.lt_ge_cases i 32) as [L|L].
          { rewrite !Z.mod_pow2_bits_low by lia. rewrite Z.lnot_spec by lia. rewrite <- (Z.shiftl_mul_pow2 (t / 2) 1) || rewrite (Z.mul_comm 2).
            change 2 with (2 ^ 1). rewrite <- Z.shiftl_mul_pow2, <- Z.shiftr_div_pow2 by lia. rewrite Z.shiftl_spec by lia.
            destruct (Z.eq_dec i 0) as [->|N].
            - cbn. now rewrite andb_false_r.
            - rewrite Z.shiftr_spec by lia. replace (i - 1 + 1) with i by lia. replace (Z.testbit 1 i) with false; [apply andb_true_r|].
              symmetry. rewrite <- (Z.mod_small 1 (2 ^ 1)) by lia. apply Z.mod_pow2_bits_high. lia. }
          { rewrite !Z.mod_pow2_bits_high by lia. reflexivity. }
        * apply set_writes; [exact Hr'|apply u32_low].
    - (* nop *)
      rewrite En in S2. assert (Hl : l = [(7, 5, 0)] /\ In (m_name m) ["lui"; "auipc"]).
      { clear - Hn S2. unfold jumps in Hn. cbn [lookup] in Hn.
        repeat (match type of Hn with (if String.eqb ?x ?y then _ else _) = _ => destruct (String.eqb_spec x y) as [E|_] end;
          [injection Hn as <- <- <- <-; unfold rd0 in S2; cbn [In] in S2; first [destruct S2; fail|destruct S2 as [<-|[]]; rewrite E; cbn [In]; auto]|]).
        discriminate. }
      destruct Hl as [-> Hnm]. specialize (S3 7 5 0 (or_introl eq_refl)).
      unfold exec_scalar. rewrite S1. cbn [normal f_mem f_pc f_halt f_arch]. split; [reflexivity|]. split; [reflexivity|]. split; [apply keeps_tock|].
      split; [|now apply same_writes].
      destruct vs as [|v1 [|v2 [|v3 vs]]]; cbn [In] in Hin; try (now destruct Hin).
      + destruct Hin as [H|[H|[H|[]]]]; injection H as Hm <- <-; try reflexivity. rewrite <- Hm in Hnm. cbn [In] in Hnm. destruct Hnm as [H|[H|[]]]; discriminate.
      + destruct Hin as [H|[]]; injection H as Hm <- <-. rewrite <- Hm in Hnm. cbn [In] in Hnm. destruct Hnm as [H|[H|[]]]; discriminate.
  Qed.
End Rv.
