(** * V2 decoder: immediates, the odd instructions, scalar loads and stores *)
From Verif Require Import CInt V2DecTypes V2Table V2Model V2Spec V2DecModel V2DecSpec V2DecProofs.
From Verif Require V2Proofs.
Import ListNotations.
Open Scope string_scope.
Open Scope list_scope.
Open Scope Z_scope.

(** ** Immediates *)
Lemma at_bit v lo n k : 0 <= lo -> 0 <= k < n -> Z.testbit (at_ v lo n) k = Z.testbit v (k + lo).
Proof. intros. unfold at_. rewrite Z.mod_pow2_bits_low, Z.div_pow2_bits by lia. reflexivity. Qed.
(** All bits from z to n are given by some piece. *)
Definition full (z n : nat) (l : list (Z * Z * Z)) : bool :=
  forallb (fun k => existsb (fun t => let '(i, _, m) := t in (0 <=? i) && (i <=? Z.of_nat k) && (Z.of_nat k <? i + m)) l) (seq z (n - z)).
Lemma full_same (z n : nat) l v1 v2 : full z n l = true ->
  (forall i j m, In (i, j, m) l -> at_ v1 i m = at_ v2 i m) ->
  v1 mod 2 ^ Z.of_nat z = 0 -> v2 mod 2 ^ Z.of_nat z = 0 -> v1 mod 2 ^ Z.of_nat n = v2 mod 2 ^ Z.of_nat n.
Proof.
  intros F S Z1 Z2. apply Z.bits_inj'. intros k Hk. destruct (Z_lt_ge_dec k (Z.of_nat n)).
  2:{ now rewrite !Z.mod_pow2_bits_high by lia. }
  rewrite !Z.mod_pow2_bits_low by lia. destruct (Z_lt_ge_dec k (Z.of_nat z)).
  - rewrite <- (Z.mod_pow2_bits_low v1 (Z.of_nat z) k), <- (Z.mod_pow2_bits_low v2 (Z.of_nat z) k) by lia. now rewrite Z1, Z2.
  - unfold full in F. rewrite forallb_forall in F. specialize (F (Z.to_nat k) ltac:(apply in_seq; lia)).
    apply existsb_exists in F as (((i & j) & m) & Hin & F). rewrite !andb_true_iff in F. rewrite Z2Nat.id in F by lia.
    pose proof (S i j m Hin) as E. apply (f_equal (fun x => Z.testbit x (k - i))) in E.
    rewrite !at_bit in E by lia. now replace (k - i + i) with k in E by lia.
Qed.
Lemma times_small h q v1 v2 : - h <= v1 < h -> - h <= v2 < h -> v1 - v2 = 2 * h * q -> v1 = v2.
Proof.
  intros R1 R2 D. destruct (Z.lt_trichotomy q 0) as [Q|[Q|Q]].
  - pose proof (Z.mul_le_mono_nonneg_l q (-1) (2 * h) ltac:(lia) ltac:(lia)). lia.
  - rewrite Q, Z.mul_0_r in D. lia.
  - pose proof (Z.mul_le_mono_nonneg_l 1 q (2 * h) ltac:(lia) ltac:(lia)). lia.
Qed.
Lemma same_rem a v1 v2 : a <> 0 -> v1 mod a = v2 mod a -> v1 - v2 = a * (v1 / a - v2 / a).
Proof.
  intros Ha S. pose proof (Z.div_mod v1 a Ha) as E1. pose proof (Z.div_mod v2 a Ha) as E2. rewrite S in E1. revert E1 E2.
  generalize (v2 mod a) (v1 / a) (v2 / a). intros r x y -> ->. ring.
Qed.
Lemma imm_unique (z n : nat) h l w v1 v2 : full z n l = true -> (2 * h = 2 ^ Z.of_nat n) ->
  operand_is (KImm (- h) h (Z.of_nat z) l) w (PImm v1) -> operand_is (KImm (- h) h (Z.of_nat z) l) w (PImm v2) -> v1 = v2.
Proof.
  cbn [operand_is]. intros F H (x1 & E1 & R1 & M1 & L1) (x2 & E2 & R2 & M2 & L2). injection E1 as <-. injection E2 as <-.
  assert (S : v1 mod 2 ^ Z.of_nat n = v2 mod 2 ^ Z.of_nat n).
  { apply (full_same z n l); [exact F| |exact M1|exact M2]. intros i j m Hin. rewrite (L1 i j m Hin), (L2 i j m Hin). reflexivity. }
  rewrite <- H in S. apply (times_small h (v1 / (2 * h) - v2 / (2 * h))); [exact R1|exact R2|].
  apply same_rem; [clear S; lia|exact S].
Qed.
Lemma imms_unique k w v1 v2 : In k imms -> operand_is k w (PImm v1) -> operand_is k w (PImm v2) -> v1 = v2.
Proof.
  intros [<-|[<-|[<-|[<-|[<-|[]]]]]].
  - exact (imm_unique 0 12 2048 [(0, 20, 12)] w v1 v2 eq_refl eq_refl).
  - exact (imm_unique 0 12 2048 [(5, 25, 7); (0, 7, 5)] w v1 v2 eq_refl eq_refl).
  - exact (imm_unique 1 13 4096 [(12, 31, 1); (11, 7, 1); (5, 25, 6); (1, 8, 4)] w v1 v2 eq_refl eq_refl).
  - exact (imm_unique 12 32 2147483648 [(12, 12, 20)] w v1 v2 eq_refl eq_refl).
  - exact (imm_unique 1 21 1048576 [(20, 31, 1); (12, 12, 8); (11, 20, 1); (1, 21, 10)] w v1 v2 eq_refl eq_refl).
Qed.
Lemma imms_exist k w : In k imms -> exists v, operand_is k w (PImm v).
Proof.
  assert (A : forall k n, In (n, k) ktab -> (exists o, src2 n w = o /\ operand_is k w o)).
  { intros k0 n H. exists (src2 n w). split; [reflexivity|]. now apply ktab_sound. }
  assert (B : forall a b z l, (exists o, operand_is (KImm a b z l) w o) -> exists v, operand_is (KImm a b z l) w (PImm v)).
  { intros a b z l (o & v & -> & H). exists v. exists v. split; [reflexivity|exact H]. }
  intros [<-|[<-|[<-|[<-|[<-|[]]]]]]; apply B.
  - exists (PImm (wrap I32 (sext 12 (at_ w 20 12)))). apply i_is.
  - exists (src2 "S_imm12" w). apply s_is.
  - exists (src2 "B_imm12" w). apply b_is.
  - exists (src2 "U_imm20" w). apply u_is.
  - exists (src2 "J_imm20" w). apply j_is.
Qed.
(** A word that carries a given immediate. *)
Ltac fit :=
  repeat match goal with
  | |- context [at_ ?v ?i ?n] => pose proof (at_range v i n ltac:(lia)); generalize dependent (at_ v i n); intros
  end; lia.
Ltac fields :=
  repeat (rewrite at_low by lia);
  rewrite at_high; [rewrite Z.sub_diag; rewrite at_of_at by lia; reflexivity|lia|lia|fit].
Lemma imms_encodable k a b z l v : In k imms -> k = KImm a b z l -> a <= v < b -> v mod 2 ^ z = 0 ->
  exists w, word w /\ operand_is k w (PImm v).
Proof.
  intros Hk -> Hv Hz.
  assert (X : exists w, word w /\ forall i j n, In (i, j, n) l -> at_ v i n = at_ w j n).
  { destruct Hk as [E|[E|[E|[E|[E|[]]]]]]; unfold Iimm, Simm, Bimm, Uimm, Jimm in E; injection E as <- <- <- <-.
    - exists (at_ v 0 12 * 2 ^ 20 + 0). split; [unfold word; fit|].
      cbn [In]. intros i j n [H|[]]. injection H as <- <- <-. symmetry. fields.
    - exists (at_ v 5 7 * 2 ^ 25 + (at_ v 0 5 * 2 ^ 7 + 0)). split; [unfold word; fit|].
      cbn [In]. intros i j n [H|[H|[]]]; injection H as <- <- <-; symmetry; fields.
    - exists (at_ v 12 1 * 2 ^ 31 + (at_ v 5 6 * 2 ^ 25 + (at_ v 1 4 * 2 ^ 8 + (at_ v 11 1 * 2 ^ 7 + 0)))). split; [unfold word; fit|].
      cbn [In]. intros i j n [H|[H|[H|[H|[]]]]]; injection H as <- <- <-; symmetry; fields.
    - exists (at_ v 12 20 * 2 ^ 12 + 0). split; [unfold word; fit|].
      cbn [In]. intros i j n [H|[]]. injection H as <- <- <-. symmetry. fields.
    - exists (at_ v 20 1 * 2 ^ 31 + (at_ v 1 10 * 2 ^ 21 + (at_ v 11 1 * 2 ^ 20 + (at_ v 12 8 * 2 ^ 12 + 0)))). split; [unfold word; fit|].
      cbn [In]. intros i j n [H|[H|[H|[H|[]]]]]; injection H as <- <- <-; symmetry; fields. }
  destruct X as (w & Hw & X). exists w. split; [exact Hw|]. exists v. repeat split; try exact X; try lia.
Qed.

(** ** Words with a single row *)
Lemma list1 {A B} (r : A -> Z -> B -> Prop) w a b : r a w b -> list_is r w [a] [b].
Proof. intros H. constructor; [exact H|constructor]. Qed.
Lemma vrsub_act d w : decoder2_ok d -> at_ w 0 7 = 87 -> at_ w 12 3 = 3 -> at_ w 26 6 = 3 ->
  exists a, decode2 d w = Some a /\ a_sem a = [Fn "Vrsub" []] /\ a_dst a = [] /\ a_child a = None /\
            list_is operand_is w [KV 20; Vsimm; KMask; KV 7] (a_src a).
Proof.
  intros Hd H1 H2 H3. destruct (row2 "vrsub_vi") as [e|] eqn:E; [|vm_compute in E; discriminate].
  exists (act_of e w). split.
  - apply (sole_decodes d w (P [(0, 7, 87); (12, 3, 3); (26, 6, 3)] []) "vrsub_vi" e Hd); [vm_cast_no_check (eq_refl true)|exact E|].
    split; cbn [p_eq p_ne In]; [|intros ? ? ? []].
    intros lo n v [H|[H|[H|[]]]]; injection H as <- <- <-; assumption.
  - vm_compute in E. injection E as <-. cbn [act_of a_sem a_dst a_child a_src e2_sem e2_dst e2_child e2_src map option_map].
    split; [reflexivity|]. split; [reflexivity|]. split; [reflexivity|].
    apply srcs_sound with (l := ["vs2"; "simm5"; "vmask"; "vd"]). vm_compute. reflexivity.
Qed.
Ltac one_row d w p n Hd := 
  let e := fresh "e" in let E := fresh "E" in
  destruct (row2 n) as [e|] eqn:E; [|vm_compute in E; discriminate];
  exists (act_of e w); split;
  [apply (sole_decodes d w p n e Hd); [vm_cast_no_check (eq_refl true)|exact E|assumption]
  |vm_compute in E; injection E as <-; cbn [act_of a_sem a_dst a_child a_src e2_sem e2_dst e2_child e2_src map option_map fst snd]].
Lemma vsux_act d w b c : decoder2_ok d -> In (b, c) [(1, 0); (2, 5); (4, 6)] -> meets_pat w (vpat 39 c 1 [] [(29, 3, 0)]) ->
  exists a, decode2 d w = Some a /\ a_sem a = [Fn "VsSegmentStrided" [b]] /\ a_dst a = [] /\ a_child a = None /\
            list_is operand_is w [KV 7; KX 15; KV 20; KMask; Ufld 29 3] (a_src a).
Proof.
  intros Hd [H|[H|[H|[]]]] Hp; injection H as <- <-.
  - one_row d w (vpat 39 0 1 [] [(29, 3, 0)]) "vsuxsegei8" Hd. split; [reflexivity|]. split; [reflexivity|]. split; [reflexivity|].
    apply srcs_sound with (l := ["vs3"; "rs1"; "vs2"; "vmask"; "nf"]). vm_compute. reflexivity.
  - one_row d w (vpat 39 5 1 [] [(29, 3, 0)]) "vsuxsegei16" Hd. split; [reflexivity|]. split; [reflexivity|]. split; [reflexivity|].
    apply srcs_sound with (l := ["vs3"; "rs1"; "vs2"; "vmask"; "nf"]). vm_compute. reflexivity.
  - one_row d w (vpat 39 6 1 [] [(29, 3, 0)]) "vsuxsegei32" Hd. split; [reflexivity|]. split; [reflexivity|]. split; [reflexivity|].
    apply srcs_sound with (l := ["vs3"; "rs1"; "vs2"; "vmask"; "nf"]). vm_compute. reflexivity.
Qed.
Lemma odd_wrong d w m : decoder2_ok d -> In m odd -> meets_pat w (m_pat m) -> exists a, decode2 d w = Some a /\ ~ does m w a.
Proof.
  intros Hd Hm Hp. cbn in Hm. destruct Hm as [<-|Hm].
  - destruct (vrsub_act d w Hd) as (a & Ha & Hs & Hds & _); try (apply Hp; cbn; tauto).
    exists a. split; [exact Ha|]. intros [(_ & _ & D & _)|(S & _)]; [|rewrite Hs in S; discriminate].
    rewrite Hds in D. inversion D.
  - destruct Hm as [<-|[<-|[<-|[]]]].
    + destruct (vsux_act d w 1 0 Hd) as (a & Ha & Hs & _); [cbn; tauto|exact Hp|]. exists a. split; [exact Ha|].
      intros [(S & _)|(S & _)]; rewrite Hs in S; discriminate.
    + destruct (vsux_act d w 2 5 Hd) as (a & Ha & Hs & _); [cbn; tauto|exact Hp|]. exists a. split; [exact Ha|].
      intros [(S & _)|(S & _)]; rewrite Hs in S; discriminate.
    + destruct (vsux_act d w 4 6 Hd) as (a & Ha & Hs & _); [cbn; tauto|exact Hp|]. exists a. split; [exact Ha|].
      intros [(S & _)|(S & _)]; rewrite Hs in S; discriminate.
Qed.
Lemma ff_plain d w b p : decoder2_ok d -> In (b, p) ff -> meets_pat w p ->
  exists a, decode2 d w = Some a /\ a_sem a = [Fn "VlStrided" [b]; Fn "VlChild" []] /\
            list_is operand_is w [KX 15; KC b; KMask] (a_src a) /\
            exists t, a_child a = Some ([], t) /\ list_is dest_is w [DKV 7] t.
Proof.
  intros Hd H Hp. cbn in H. destruct H as [H|[H|[H|[]]]]; injection H as <- <-.
  - one_row d w (vpat 7 0 0 [(20, 5, 16); (29, 3, 0)] []) "vle8ff" Hd. split; [reflexivity|]. split.
    + apply srcs_sound with (l := ["rs1"; "const1"; "vmask"]). vm_compute. reflexivity.
    + eexists. split; [reflexivity|]. apply dsts_sound with (l := ["vd"]). vm_compute. reflexivity.
  - one_row d w (vpat 7 5 0 [(20, 5, 16); (29, 3, 0)] []) "vle16ff" Hd. split; [reflexivity|]. split.
    + apply srcs_sound with (l := ["rs1"; "const2"; "vmask"]). vm_compute. reflexivity.
    + eexists. split; [reflexivity|]. apply dsts_sound with (l := ["vd"]). vm_compute. reflexivity.
  - one_row d w (vpat 7 6 0 [(20, 5, 16); (29, 3, 0)] []) "vle32ff" Hd. split; [reflexivity|]. split.
    + apply srcs_sound with (l := ["rs1"; "const4"; "vmask"]). vm_compute. reflexivity.
    + eexists. split; [reflexivity|]. apply dsts_sound with (l := ["vd"]). vm_compute. reflexivity.
Qed.

(** ** Scalar loads and stores *)
Lemma base_value x w : value2 x (src2 "rs1" w) = base_of x w.
Proof.
  assert (H : operand_is (KX 15) w (src2 "rs1" w)) by (apply ktab_sound; cbn; tauto).
  cbn [operand_is] in H. rewrite H. unfold base_of. destruct (at_ w 15 5 =? 0); reflexivity.
Qed.
Lemma load_row d w op f3 i : decoder2_ok d -> In (op, f3, i) loads -> at_ w 0 7 = op -> at_ w 12 3 = f3 ->
  exists a, decode2 d w = Some a /\ mem_fn (a_sem a) = Some i /\ a_src a = [src2 "rs1" w; src2 "I_imm12" w] /\
            a_child a = Some ([], [dst2 (if op =? 7 then "frd" else "rd") w]).
Proof.
  intros Hd H <- <-.
  assert (Hp : meets_pat w (P [(0, 7, at_ w 0 7); (12, 3, at_ w 12 3)] [])).
  { split; cbn [p_eq p_ne In]; [|intros ? ? ? []]. intros lo n v [E|[E|[]]]; injection E as <- <- <-; reflexivity. }
  cbn [loads In] in H.
  destruct H as [H|[H|[H|[H|[H|[H|[]]]]]]]; injection H as Ho Hf <-; rewrite <- Ho, <- Hf in Hp; rewrite <- Ho.
  - one_row d w (P [(0, 7, 3); (12, 3, 0)] []) "lb" Hd. repeat split.
  - one_row d w (P [(0, 7, 3); (12, 3, 1)] []) "lh" Hd. repeat split.
  - one_row d w (P [(0, 7, 3); (12, 3, 2)] []) "lw" Hd. repeat split.
  - one_row d w (P [(0, 7, 3); (12, 3, 4)] []) "lbu" Hd. repeat split.
  - one_row d w (P [(0, 7, 3); (12, 3, 5)] []) "lhu" Hd. repeat split.
  - one_row d w (P [(0, 7, 7); (12, 3, 2)] []) "flw" Hd. repeat split.
Qed.
Lemma store_row d w op f3 i : decoder2_ok d -> In (op, f3, i) stores -> at_ w 0 7 = op -> at_ w 12 3 = f3 ->
  exists a, decode2 d w = Some a /\ mem_fn (a_sem a) = Some i /\
            a_src a = [src2 "rs1" w; src2 "S_imm12" w; src2 (if op =? 39 then "frs2" else "rs2") w] /\ a_child a = None.
Proof.
  intros Hd H <- <-.
  assert (Hp : meets_pat w (P [(0, 7, at_ w 0 7); (12, 3, at_ w 12 3)] [])).
  { split; cbn [p_eq p_ne In]; [|intros ? ? ? []]. intros lo n v [E|[E|[]]]; injection E as <- <- <-; reflexivity. }
  cbn [stores In] in H.
  destruct H as [H|[H|[H|[H|[]]]]]; injection H as Ho Hf <-; rewrite <- Ho, <- Hf in Hp; rewrite <- Ho.
  - one_row d w (P [(0, 7, 35); (12, 3, 0)] []) "sb" Hd. repeat split.
  - one_row d w (P [(0, 7, 35); (12, 3, 1)] []) "sh" Hd. repeat split.
  - one_row d w (P [(0, 7, 35); (12, 3, 2)] []) "sw" Hd. repeat split.
  - one_row d w (P [(0, 7, 39); (12, 3, 2)] []) "fsw" Hd. repeat split.
Qed.
Section Access.
  Context {St : Type} (perform : v2mem -> list opnd -> list dopnd -> Z -> St -> St) (trap : Z -> Z -> St -> St).
  Lemma load_word d w op f3 i x ranges pc v s : decoder2_ok d -> In (op, f3, i) loads -> at_ w 0 7 = op -> at_ w 12 3 = f3 ->
    operand_is Iimm w (PImm v) ->
    let a := (base_of x w + v) mod 2 ^ 32 in
    let to := [if op =? 7 then DF (at_ w 7 5) else if at_ w 7 5 =? 0 then DX0 else DX (at_ w 7 5)] in
    low ranges -> a + width i < 2 ^ 32 ->
    (contained ranges a (width i) -> exec_mem2 perform trap d x ranges pc w s = Some (perform i [] to a s)) /\
    (~ contained ranges a (width i) -> exec_mem2 perform trap d x ranges pc w s = Some (trap 5 pc s)).
  Proof.
    intros Hd Hi Ho Hf Hv a to Hl Ha. destruct (load_row d w op f3 i Hd Hi Ho Hf) as (ac & Hdec & Hm & Hs & Hc).
    unfold exec_mem2. rewrite Hdec, Hm, Hs, Hc. cbv beta iota zeta. rewrite base_value.
    assert (V : value2 x (src2 "I_imm12" w) = v).
    { assert (K : operand_is Iimm w (src2 "I_imm12" w)) by (apply ktab_sound; cbn; tauto).
      destruct K as (v' & E & K). rewrite E. cbn [value2]. apply (imms_unique Iimm w); [cbn; tauto| |exact Hv].
      exists v'. split; [reflexivity|exact K]. }
    rewrite V.
    assert (T : [dst2 (if op =? 7 then "frd" else "rd") w] = to).
    { unfold to. destruct (op =? 7); f_equal.
      - assert (K : dest_is (DKF 7) w (dst2 "frd" w)) by (apply dtab_sound; cbn; tauto). exact K.
      - assert (K : dest_is (DKX 7) w (dst2 "rd" w)) by (apply dtab_sound; cbn; tauto). exact K. }
    rewrite T.
    assert (W : width i = check_size i /\ fault_code i = 5).
    { cbn [loads In] in Hi. destruct Hi as [H|[H|[H|[H|[H|[H|[]]]]]]]; injection H as _ _ <-; split; reflexivity. }
    destruct W as [W F]. rewrite W in *. rewrite <- F.
    destruct (V2Proofs.v2_exec_exact (fun j => perform j [] to) trap i ranges pc (base_of x w) v s Hl Ha) as [A B].
    split; intros H; f_equal; [exact (A H)|]. rewrite (B H). f_equal. cbn [loads In] in Hi. 
    destruct Hi as [E|[E|[E|[E|[E|[E|[]]]]]]]; injection E as _ _ <-; reflexivity.
  Qed.
  (** Stores; [n] bytes are checked. *)
  Lemma store_word d w op f3 i x ranges pc v s : decoder2_ok d -> In (op, f3, i) stores -> at_ w 0 7 = op -> at_ w 12 3 = f3 ->
    operand_is Simm w (PImm v) ->
    let a := (base_of x w + v) mod 2 ^ 32 in
    let from := [if op =? 39 then PF (at_ w 20 5) else if at_ w 20 5 =? 0 then PZero else PX (at_ w 20 5)] in
    let n := if op =? 39 then 8 else width i in
    low ranges -> a + n < 2 ^ 32 ->
    (contained ranges a n -> exec_mem2 perform trap d x ranges pc w s = Some (perform i from [] a s)) /\
    (~ contained ranges a n -> exec_mem2 perform trap d x ranges pc w s = Some (trap 7 pc s)).
  Proof.
    intros Hd Hi Ho Hf Hv a from n Hl Ha. destruct (store_row d w op f3 i Hd Hi Ho Hf) as (ac & Hdec & Hm & Hs & Hc).
    unfold exec_mem2. rewrite Hdec, Hm, Hs, Hc. cbv beta iota zeta. rewrite base_value.
    assert (V : value2 x (src2 "S_imm12" w) = v).
    { destruct (s_is w) as (v' & E & K). rewrite E. cbn [value2]. apply (imms_unique Simm w); [cbn; tauto| |exact Hv].
      exists v'. split; [reflexivity|exact K]. }
    rewrite V.
    assert (T : [src2 (if op =? 39 then "frs2" else "rs2") w] = from).
    { unfold from. destruct (op =? 39); f_equal.
      - assert (K : operand_is (KF 20) w (src2 "frs2" w)) by (apply ktab_sound; cbn; tauto). exact K.
      - assert (K : operand_is (KX 20) w (src2 "rs2" w)) by (apply ktab_sound; cbn; tauto). exact K. }
    rewrite T.
    assert (W : n = check_size i).
    { unfold n. cbn [stores In] in Hi. destruct Hi as [H|[H|[H|[H|[]]]]]; injection H as <- _ <-; reflexivity. }
    rewrite W in *.
    destruct (V2Proofs.v2_exec_exact (fun j => perform j from []) trap i ranges pc (base_of x w) v s Hl Ha) as [A B].
    split; intros H; f_equal; [exact (A H)|]. rewrite (B H). f_equal. cbn [stores In] in Hi.
    destruct Hi as [E|[E|[E|[E|[]]]]]; injection E as _ _ <-; reflexivity.
  Qed.
End Access.

(** ** Mnemonics *)
Definition nop_row (e : entry2) : bool := dec (list_eq_dec fn2_eq_dec (e2_sem e) [Fn "RiscVINop" []]).
Lemma texts_all : forallb (fun e => if existsb (String.eqb (e2_dis e)) (shared_forms ++ shared_names) then true else
  forallb (fun f => if String.eqb (e2_dis e) (e2_dis f) then
    if dec (list_eq_dec fn2_eq_dec (e2_sem e) (e2_sem f)) then true else if nop_row e then true else nop_row f else true) all2) all2 = true.
Proof. vm_cast_no_check (eq_refl true). Qed.
Lemma texts d w1 w2 e1 e2 : decoder2_ok d -> d w1 = Some e1 -> d w2 = Some e2 -> e2_dis e1 = e2_dis e2 ->
  ~ In (e2_dis e1) (shared_forms ++ shared_names) ->
  e2_sem e1 = e2_sem e2 \/ e2_sem e1 = [Fn "RiscVINop" []] \/ e2_sem e2 = [Fn "RiscVINop" []].
Proof.
  intros Hd H1 H2 E N. pose proof (Hd w1) as D1. pose proof (Hd w2) as D2. rewrite H1 in D1. rewrite H2 in D2.
  pose proof (good_of _ _ _ texts_all (proj1 D1)) as A. cbv beta in A.
  destruct (existsb (String.eqb (e2_dis e1)) (shared_forms ++ shared_names)) eqn:X.
  { apply existsb_exists in X as (t & Ht & X). apply String.eqb_eq in X as <-. contradiction. }
  pose proof (good_of _ _ _ A (proj1 D2)) as B. cbv beta in B. rewrite E, String.eqb_refl in B. unfold nop_row, dec in B.
  destruct (list_eq_dec fn2_eq_dec (e2_sem e1) (e2_sem e2)); [now left|].
  destruct (list_eq_dec fn2_eq_dec (e2_sem e1) [Fn "RiscVINop" []]); [now right; left|].
  destruct (list_eq_dec fn2_eq_dec (e2_sem e2) [Fn "RiscVINop" []]); [now right; right|discriminate].
Qed.
Lemma sole_row d w p n e : decoder2_ok d -> sole p n = true -> row2 n = Some e -> meets_pat w p ->
  exists f, d w = Some f /\ e2_sem f = e2_sem e.
Proof.
  intros Hd S R Hp. pose proof (sole_decodes d w p n e Hd S R Hp) as H. unfold decode2 in H.
  destruct (d w) as [f|]; [|discriminate]. exists f. split; [reflexivity|].
  change (a_sem (act_of f w) = a_sem (act_of e w)). cbn [option_map] in H. congruence.
Qed.
