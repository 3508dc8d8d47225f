(** * A copy loop on the V2 machine *)
From Coq Require Import ZArith List Bool String Lia ZifyBool ZifyNat.
From Verif Require Import CInt VecModel VecSpec LaneSpec MemModel V2DecTypes V2Table V2DecModel V2DecSpec V2Model V2Spec V1ScalSpec.
From Verif Require Import TopModel MachModel RvSpec V2MachModel V2MachSpec V2CopySpec.
From Verif Require V2MachProofs MachProofs5.
Import ListNotations.
Open Scope string_scope.
Open Scope list_scope.
Open Scope Z_scope.

(** ** The six words *)
Definition meetsb (w : Z) (p : pat) : bool :=
  forallb (fun t => let '(lo, n, v) := t in at_ w lo n =? v) (p_eq p) &&
  forallb (fun t => let '(lo, n, v) := t in negb (at_ w lo n =? v)) (p_ne p).
Lemma meetsb_iff w p : meetsb w p = true <-> meets_pat w p.
Proof.
  unfold meetsb. rewrite andb_true_iff, !forallb_forall. split.
  - intros [A B]. split; intros lo n v H; [specialize (A _ H); cbn in A; lia|specialize (B _ H); cbn in B; lia].
  - intros [A B]. split; intros [[lo n] v] H; [specialize (A lo n v H); lia|specialize (B lo n v H); lia].
Qed.
Definition entry_of (n : string) (l : list ment) : option ment := List.find (fun m => String.eqb (m_name m) n) l.
Definition sees (n : string) (w : Z) : bool :=
  match entry_of n manual with Some m => meetsb w (m_pat m) | None => false end && negb (existsb (meetsb w) holes).
Definition srcs (n : string) : list V2DecSpec.kind := match entry_of n manual with Some m => m_src m | None => [] end.
Lemma sees_gen l hs n w : match entry_of n l with Some m => meetsb w (m_pat m) | None => false end && negb (existsb (meetsb w) hs) = true ->
  exists m, entry_of n l = Some m /\ (In m l /\ meets_pat w (m_pat m) /\ forall p, In p hs -> ~ meets_pat w p) /\ m_name m = n.
Proof.
  rewrite andb_true_iff, negb_true_iff. intros [A B]. destruct (entry_of n l) as [m|] eqn:E; [|discriminate A]. exists m. split; [reflexivity|].
  unfold entry_of in E. apply find_some in E as [E1 E2]. split; [|now apply String.eqb_eq]. split; [exact E1|]. split; [now apply meetsb_iff|]. intros p Hp Hq.
  apply meetsb_iff in Hq. assert (K : existsb (meetsb w) hs = true) by (apply existsb_exists; eauto). rewrite K in B. discriminate B.
Qed.
Lemma sees_ok n w ks : sees n w = true -> srcs n = ks -> exists m, proper2 m w /\ m_name m = n /\ m_src m = ks.
Proof.
  intros H K. destruct (sees_gen manual holes n w H) as (m & E & P & N). exists m. split; [exact P|]. split; [exact N|]. unfold srcs in K. now rewrite E in K.
Qed.
Lemma imm_of w v a b z l : (a <=? v) && (v <? b) && (v mod 2 ^ z =? 0) && forallb (fun t => let '(i, j, n) := t in at_ v i n =? at_ w j n) l = true ->
  operand_is (KImm a b z l) w (PImm v).
Proof.
  rewrite !andb_true_iff. intros [[[A B] D] K]. exists v. split; [reflexivity|]. split; [lia|]. split; [lia|].
  intros i j n Hi. pose proof (proj1 (forallb_forall _ _) K _ Hi) as E. cbv beta iota in E. now apply Z.eqb_eq.
Qed.
Ltac word n w ks := destruct (sees_ok n w ks) as (m & Hp & Hn & Hs); [vm_compute; reflexivity|vm_compute; reflexivity|exists m; split; [exact Hp|split; [exact Hn|]]].
Ltac reg := cbn [value]; unfold reg_at; vm_compute (at_ _ _ _); reflexivity.
Lemma p_lbu x : exists m, proper2 m 0x54283 /\ m_name m = "lbu" /\ values m 0x54283 x [x 10; 0].
Proof.
  word "lbu" 0x54283 [V2DecSpec.KX 15; Iimm]. unfold values. rewrite Hs. constructor; [reflexivity|]. constructor; [|constructor]. apply imm_of. vm_compute. reflexivity.
Qed.
Lemma p_sb x : exists m, proper2 m 0x558023 /\ m_name m = "sb" /\ values m 0x558023 x [x 11; 0; x 5].
Proof.
  word "sb" 0x558023 [V2DecSpec.KX 15; Simm; V2DecSpec.KX 20]. unfold values. rewrite Hs. constructor; [reflexivity|]. constructor; [apply imm_of; vm_compute; reflexivity|].
  constructor; [reflexivity|constructor].
Qed.
Lemma p_addi w r v x : In (w, r, v) [(0x150513, 10, 1); (0x158593, 11, 1); (0xfff60613, 12, -1)] -> exists m, proper2 m w /\ m_name m = "addi" /\ values m w x [x r; v].
Proof.
  cbn [In]. intros [H|[H|[H|[]]]]; injection H as <- <- <-.
  - word "addi" 0x150513 [V2DecSpec.KX 15; Iimm]. unfold values. rewrite Hs. constructor; [reflexivity|]. constructor; [|constructor]. apply imm_of. vm_compute. reflexivity.
  - word "addi" 0x158593 [V2DecSpec.KX 15; Iimm]. unfold values. rewrite Hs. constructor; [reflexivity|]. constructor; [|constructor]. apply imm_of. vm_compute. reflexivity.
  - word "addi" 0xfff60613 [V2DecSpec.KX 15; Iimm]. unfold values. rewrite Hs. constructor; [reflexivity|]. constructor; [|constructor]. apply imm_of. vm_compute. reflexivity.
Qed.
Lemma p_bne x : exists m, proper2 m 0xfe0616e3 /\ m_name m = "bne" /\ values m 0xfe0616e3 x [x 12; 0; -20].
Proof.
  word "bne" 0xfe0616e3 [V2DecSpec.KX 15; V2DecSpec.KX 20; Bimm]. unfold values. rewrite Hs. constructor; [reflexivity|]. constructor; [reflexivity|].
  constructor; [|constructor]. apply imm_of. vm_compute. reflexivity.
Qed.

(** ** The loop *)
Section Loop.
  Context {C : Type}.
  Notation arch := (arch (C := C)).
  Variable d : decoder2.
  Variable trap : Z -> Z -> C -> C * Z.
  Variable other : act -> Z -> arch -> arch * Z.
  Variable vmem : act -> v2st C -> v2st C.
  Variable box : Z -> Z.
  Variable start len : Z.
  Variable ranges : list range.
  Notation step := (step2 d trap other vmem box start len ranges).
  Notation run := (run2 d trap other vmem box start len ranges).
  Variable p : Z.
  Hypothesis Hd : decoder2_ok d.
  Hypothesis Hi : itcm_ok start len.
  Hypothesis Hl : V2Spec.low ranges.
  Hypothesis Hin : start <= p /\ p + 24 <= start + len.

  Lemma run_add a b s : run (a + b) s = run b (run a s).
  Proof. revert s. induction a as [|a IH]; intros s; [reflexivity|]. cbn [Nat.add run2]. apply IH. Qed.

  Definition code (m : Z -> Z) : Prop := forall i, (i < 6)%nat -> word_in m (p + 4 * Z.of_nat i) = nth i copy_words 0.
  Lemma code_frame m m' : code m -> (forall b, p <= b < p + 24 -> m' b = m b) -> code m'.
  Proof. intros H E i Hi'. rewrite <- (H i Hi'). unfold word_in. rewrite !E by lia. reflexivity. Qed.
  Lemma in_at s i : (i < 6)%nat -> v_pc s = p + 4 * Z.of_nat i -> inside start len (v_pc (C := C) s).
  Proof. intros H E. unfold inside. lia. Qed.

  Definition bytes (m : Z -> Z) : Prop := forall b, 0 <= m b < 256.
  Lemma s_addi s i w r v : In (i, (w, r, v)) [(2%nat, (0x150513, 10, 1)); (3%nat, (0x158593, 11, 1)); (4%nat, (0xfff60613, 12, -1))] ->
    code (v_mem s) -> v_pc s = p + 4 * Z.of_nat i ->
    let t := step s in v_mem t = v_mem s /\ v_pc t = (v_pc s + 4) mod 2 ^ 32 /\ a_csr (v_arch t) = a_csr (v_arch s) /\
      a_regs (v_arch t) r = (a_regs (v_arch s) r + v) mod 2 ^ 32 /\ forall q, 0 <= q -> q <> r -> a_regs (v_arch t) q = a_regs (v_arch s) q.
  Proof.
    intros Hc Hco Hpc t. assert (H6 : (i < 6)%nat) by (cbn [In] in Hc; destruct Hc as [H|[H|[H|[]]]]; injection H as <- _ _ _; lia).
    assert (W : word_in (v_mem s) (v_pc s) = w). { rewrite Hpc, (Hco i H6). cbn [In] in Hc. destruct Hc as [H|[H|[H|[]]]]; injection H as <- <- _ _; reflexivity. }
    assert (R : MachProofs5.rd w = r /\ r <> 0). { cbn [In] in Hc. destruct Hc as [H|[H|[H|[]]]]; injection H as _ <- <- _; split; [reflexivity|lia|reflexivity|lia|reflexivity|lia]. }
    destruct (p_addi w r v (a_regs (v_arch s))) as (m & Pm & Nm & Vm). { cbn [In] in *. destruct Hc as [H|[H|[H|[]]]]; injection H as _ <- <- <-; tauto. }
    destruct (V2MachProofs.v2_op d trap other vmem box start len ranges m s adds (a_regs (v_arch s) r) v Hd Hi (in_at s i H6 Hpc)) as (A1 & A2 & A3 & A4 & A5).
    - rewrite W. exact Pm.
    - now rewrite Nm.
    - rewrite W. exact Vm.
    - fold t in A1, A2, A3, A4, A5. rewrite W in A4, A5. destruct R as [R R0]. rewrite R in A4, A5. destruct (A5 R0) as [B1 B2]. unfold adds, RvSpec.low in B2.
      split; [exact A1|]. split; [exact A2|]. split; [exact A3|]. split; [|intros q Q1 Q2; apply A4; [exact Q1|now left]].
      clear - B1 B2. revert B2. generalize (a_regs (v_arch t) r) (a_regs (v_arch s) r) B1. intros y z By E.
      assert (F : (z + v) mod 2 ^ 32 = (z mod 2 ^ 32 + v mod 2 ^ 32) mod 2 ^ 32) by apply Zplus_mod. rewrite F. clear F.
      generalize dependent (z mod 2 ^ 32 + v mod 2 ^ 32). intros e E. pose proof (Z.div_mod (y - e) (2 ^ 32) ltac:(lia)) as D. rewrite E in D.
      apply Z.mod_unique_pos with (q := - ((y - e) / 2 ^ 32)); lia.
  Qed.

  Lemma word_at s i : (i < 6)%nat -> code (v_mem s) -> v_pc (C := C) s = p + 4 * Z.of_nat i -> word_in (v_mem s) (v_pc s) = nth i copy_words 0.
  Proof. intros H6 Hco Hpc. rewrite Hpc. exact (Hco i H6). Qed.
  Lemma s_lbu s : code (v_mem s) -> bytes (v_mem s) -> v_pc s = p -> 0 <= a_regs (v_arch s) 10 -> a_regs (v_arch s) 10 + 1 < 2 ^ 32 ->
    let t := step s in
    (contained ranges (a_regs (v_arch s) 10) 1 -> v_mem t = v_mem s /\ v_pc t = p + 4 /\ a_csr (v_arch t) = a_csr (v_arch s) /\
      a_regs (v_arch t) 5 = v_mem s (a_regs (v_arch s) 10) /\ forall q, 0 <= q -> q <> 5 -> a_regs (v_arch t) q = a_regs (v_arch s) q) /\
    (~ contained ranges (a_regs (v_arch s) 10) 1 -> traps trap 5 s t).
  Proof.
    intros Hco Hb Hpc H0 H1 t. assert (Hpc' : v_pc s = p + 4 * Z.of_nat 0) by lia.
    pose proof (word_at s 0 ltac:(lia) Hco Hpc') as W. cbn [nth copy_words] in W.
    destruct (p_lbu (a_regs (v_arch s))) as (m & Pm & Nm & Vm).
    assert (A0 : (a_regs (v_arch s) 10 + 0) mod 2 ^ 32 = a_regs (v_arch s) 10) by (rewrite Z.add_0_r; apply Z.mod_small; lia).
    pose proof (V2MachProofs.v2_load d trap other vmem box start len ranges m s U8 (a_regs (v_arch s) 10) 0) as L. cbv zeta in L. rewrite W, A0 in L.
    destruct (L Hd Hi (in_at s 0 ltac:(lia) Hpc') Pm ltac:(now rewrite Nm) Vm Hb Hl H1) as [L1 L2]. split; [|exact L2].
    intros K. destruct (L1 K) as (B1 & [B2 B3] & B4 & B5). fold t in B1, B2, B3, B4, B5. change (MachProofs5.rd 0x54283) with 5 in B4, B5.
    split; [exact B1|]. split. { rewrite B2, Hpc. apply Z.mod_small. unfold itcm_ok in Hi. lia. }
    split; [exact B3|]. split; [|intros q Q1 Q2; apply B4; [exact Q1|now left]].
    destruct (B5 ltac:(lia)) as (D1 & u & U1 & U2 & U3). specialize (U3 0 ltac:(cbn; lia)). cbn [bits is_signed fits] in U1. change (256 ^ 0) with 1 in U3. rewrite Z.div_1_r, Z.add_0_r in U3.
    unfold fits in U1. rewrite Z.mod_small in U3 by (cbn in U1; lia). rewrite <- U3. unfold RvSpec.low in U2. cbn in U1. clear - D1 U1 U2.
    pose proof (Z.div_mod (a_regs (v_arch t) 5 - u) (2 ^ 32) ltac:(lia)) as D. rewrite U2 in D. lia.
  Qed.
  Lemma s_sb s : code (v_mem s) -> v_pc s = p + 4 -> 0 <= a_regs (v_arch s) 11 -> a_regs (v_arch s) 11 + 1 < 2 ^ 32 ->
    let t := step s in
    (contained ranges (a_regs (v_arch s) 11) 1 -> v_arch t = v_arch s /\ v_pc t = p + 8 /\
      v_mem t (a_regs (v_arch s) 11) = (a_regs (v_arch s) 5) mod 256 /\ forall b, b <> a_regs (v_arch s) 11 -> v_mem t b = v_mem s b) /\
    (~ contained ranges (a_regs (v_arch s) 11) 1 -> traps trap 7 s t).
  Proof.
    intros Hco Hpc H0 H1 t. assert (Hpc' : v_pc s = p + 4 * Z.of_nat 1) by lia.
    pose proof (word_at s 1 ltac:(lia) Hco Hpc') as W. cbn [nth copy_words] in W.
    destruct (p_sb (a_regs (v_arch s))) as (m & Pm & Nm & Vm).
    assert (A0 : (a_regs (v_arch s) 11 + 0) mod 2 ^ 32 = a_regs (v_arch s) 11) by (rewrite Z.add_0_r; apply Z.mod_small; lia).
    pose proof (V2MachProofs.v2_store d trap other vmem box start len ranges m s U8 (a_regs (v_arch s) 11) 0 (a_regs (v_arch s) 5)) as L. cbv zeta in L. rewrite W, A0 in L.
    destruct (L Hd Hi (in_at s 1 ltac:(lia) Hpc') Pm ltac:(now rewrite Nm) Vm Hl H1) as [L1 L2]. split; [|exact L2].
    intros K. destruct (L1 K) as (B1 & [B2 _] & B4 & B5). fold t in B1, B2, B4, B5.
    split; [exact B1|]. split. { rewrite B2, Hpc. rewrite Z.mod_small; unfold itcm_ok in Hi; lia. }
    specialize (B4 0 ltac:(cbn; lia)). change (256 ^ 0) with 1 in B4. rewrite Z.div_1_r, Z.add_0_r in B4. split; [exact B4|].
    intros b Q. apply B5. change (bits U8 / 8) with 1. lia.
  Qed.
  Lemma s_bne s : code (v_mem s) -> v_pc s = p + 20 -> 0 <= a_regs (v_arch s) 12 < 2 ^ 32 ->
    let t := step s in v_mem t = v_mem s /\ v_arch t = v_arch s /\ v_pc t = (if a_regs (v_arch s) 12 =? 0 then p + 24 else p).
  Proof.
    intros Hco Hpc H0 t. assert (Hpc' : v_pc s = p + 4 * Z.of_nat 5) by lia.
    pose proof (word_at s 5 ltac:(lia) Hco Hpc') as W. cbn [nth copy_words] in W.
    destruct (p_bne (a_regs (v_arch s))) as (m & Pm & Nm & Vm).
    pose proof (V2MachProofs.v2_branch d trap other vmem box start len ranges m s (fun x y => x <> y) (a_regs (v_arch s) 12) 0 (-20)) as L. cbv zeta in L. rewrite W in L.
    destruct (L Hd Hi (in_at s 5 ltac:(lia) Hpc') Pm ltac:(now rewrite Nm) Vm) as (B1 & B2 & B3 & B4). fold t in B1, B2, B3, B4.
    split; [exact B1|]. split; [exact B2|]. change (0 mod 2 ^ 32) with 0 in B3, B4. rewrite (Z.mod_small (a_regs (v_arch s) 12)) in B3, B4 by exact H0. unfold itcm_ok in Hi.
    destruct (Z.eqb_spec (a_regs (v_arch s) 12) 0) as [E|E].
    - rewrite (B4 ltac:(lia)), Z.mod_small; lia.
    - rewrite (B3 E), Z.mod_small; lia.
  Qed.

  Definition settled (s : v2st C) : Prop := code (v_mem s) /\ bytes (v_mem s).
  (** After the first two instructions. *)
  Lemma two s a b : settled s -> v_pc s = p -> a_regs (v_arch s) 10 = a -> a_regs (v_arch s) 11 = b -> 0 <= a -> a + 1 < 2 ^ 32 -> 0 <= b -> b + 1 < 2 ^ 32 -> b < p \/ p + 24 <= b ->
    contained ranges a 1 -> contained ranges b 1 ->
    let t := run 2 s in settled t /\ v_pc t = p + 8 /\ a_csr (v_arch t) = a_csr (v_arch s) /\ (forall q, 0 <= q -> q <> 5 -> a_regs (v_arch t) q = a_regs (v_arch s) q) /\
      v_mem t b = v_mem s a /\ forall x, x <> b -> v_mem t x = v_mem s x.
  Proof.
    intros [Hc Hb] Hpc Ha Hbb A1 A2 A3 A4 Hout Ca Cb t. subst t. cbn [run2].
    pose proof (s_lbu s Hc Hb Hpc) as L. cbv zeta in L. rewrite Ha in L. destruct (proj1 (L A1 A2) Ca) as (B1 & B2 & B3 & B4 & B5). clear L.
    generalize dependent (step s). intros u B1 B2 B3 B4 B5.
    pose proof (s_sb u ltac:(now rewrite B1) B2) as L. cbv zeta in L. rewrite (B5 11 ltac:(lia) ltac:(lia)), Hbb in L. destruct (proj1 (L A3 A4) Cb) as (D1 & D2 & D3 & D4). clear L.
    generalize dependent (step u). intros t D1 D2 D3 D4. rewrite B4, Z.mod_small in D3 by apply Hb.
    assert (M : forall x, x <> b -> v_mem t x = v_mem s x) by (intros x Hx; rewrite (D4 x Hx), B1; reflexivity).
    split; [split|].
    - apply (code_frame (v_mem s)); [exact Hc|]. intros x Hx. apply M. lia.
    - intros x. destruct (Z.eq_dec x b) as [->|N]; [rewrite D3|rewrite (M x N)]; apply Hb.
    - rewrite D1. split; [exact D2|]. split; [exact B3|]. split; [exact B5|]. split; [exact D3|exact M].
  Qed.
  Lemma turn s a b n : settled s -> v_pc s = p -> a_regs (v_arch s) 10 = a -> a_regs (v_arch s) 11 = b -> a_regs (v_arch s) 12 = n ->
    0 <= a -> a + 1 < 2 ^ 32 -> 0 <= b -> b + 1 < 2 ^ 32 -> b < p \/ p + 24 <= b -> 0 < n < 2 ^ 32 ->
    contained ranges a 1 -> contained ranges b 1 ->
    let t := run 6 s in settled t /\ v_pc t = (if n - 1 =? 0 then p + 24 else p) /\ a_csr (v_arch t) = a_csr (v_arch s) /\ keeps_others s t /\
      a_regs (v_arch t) 10 = a + 1 /\ a_regs (v_arch t) 11 = b + 1 /\ a_regs (v_arch t) 12 = n - 1 /\
      v_mem t b = v_mem s a /\ forall x, x <> b -> v_mem t x = v_mem s x.
  Proof.
    intros Hs Hpc Ha Hb Hn A1 A2 A3 A4 Hout Hnn Ca Cb t. subst t. change 6%nat with (2 + 4)%nat. rewrite run_add.
    destruct (two s a b Hs Hpc Ha Hb A1 A2 A3 A4 Hout Ca Cb) as ([U1 U2] & U3 & U4 & U5 & U6 & U7). generalize dependent (run 2 s). intros u U1 U2 U3 U4 U5 U6 U7.
    cbn [run2]. unfold itcm_ok in Hi.
    destruct (s_addi u 2 0x150513 10 1 ltac:(cbn [In]; tauto) U1 ltac:(lia)) as (V1 & V2 & V3 & V4 & V5). generalize dependent (step u). intros v V1 V2 V3 V4 V5.
    destruct (s_addi v 3 0x158593 11 1 ltac:(cbn [In]; tauto) ltac:(now rewrite V1) ltac:(rewrite V2, U3, Z.mod_small; lia)) as (W1 & W2 & W3 & W4 & W5).
    generalize dependent (step v). intros w W1 W2 W3 W4 W5. assert (Pw : v_pc w = p + 16) by (rewrite W2, V2, U3, (Z.mod_small (p + 8 + 4)), Z.mod_small; lia).
    destruct (s_addi w 4 0xfff60613 12 (-1) ltac:(cbn [In]; tauto) ltac:(now rewrite W1, V1) ltac:(lia)) as (X1 & X2 & X3 & X4 & X5).
    generalize dependent (step w). intros x X1 X2 X3 X4 X5. assert (Px : v_pc x = p + 20) by (rewrite X2, Pw, Z.mod_small; lia).
    assert (R12 : a_regs (v_arch x) 12 = n - 1). { rewrite X4, (W5 12), (V5 12), (U5 12), Hn, Z.mod_small by lia. lia. }
    destruct (s_bne x ltac:(now rewrite X1, W1, V1) Px ltac:(lia)) as (Y1 & Y2 & Y3). generalize dependent (step x). intros y Y1 Y2 Y3.
    rewrite R12 in Y3. assert (M : v_mem y = v_mem u) by now rewrite Y1, X1, W1, V1.
    split; [split; rewrite M; assumption|]. split; [exact Y3|]. rewrite Y2. split; [now rewrite X3, W3, V3, U4|].
    split; [intros q Q1 Q2; cbn [In] in Q2; rewrite Y2, (X5 q), (W5 q), (V5 q), (U5 q) by lia; reflexivity|].
    split; [rewrite (X5 10), (W5 10), V4, (U5 10), Ha, Z.mod_small by lia; lia|].
    split; [rewrite (X5 11), W4, (V5 11), (U5 11), Hb, Z.mod_small by lia; lia|]. split; [exact R12|]. rewrite M. split; assumption.
  Qed.
  Lemma loop s src dst n : at_copy p src dst n s -> places p src dst n -> forall k, Z.of_nat k <= n -> (forall i, 0 <= i < Z.of_nat k -> may_copy ranges src dst i) ->
    let t := run (6 * k) s in settled t /\ v_pc t = (if Z.of_nat k =? n then p + 24 else p) /\ a_csr (v_arch t) = a_csr (v_arch s) /\ keeps_others s t /\
      a_regs (v_arch t) 10 = src + Z.of_nat k /\ a_regs (v_arch t) 11 = dst + Z.of_nat k /\ a_regs (v_arch t) 12 = n - Z.of_nat k /\
      copied (v_mem s) (v_mem t) src dst (Z.of_nat k).
  Proof.
    intros (A1 & A2 & A3 & A4 & A5 & A6) (P1 & P2 & P3 & P4 & P5 & P6 & P7). induction k as [|k IH]; intros Hk Hm t; subst t.
    - replace (6 * 0)%nat with O by lia. cbn [run2]. change (Z.of_nat 0) with 0. destruct (Z.eqb_spec 0 n) as [E|_]; [lia|].
      split; [split; assumption|]. split; [exact A1|]. split; [reflexivity|]. split; [intros r _ _; reflexivity|]. split; [lia|]. split; [lia|]. split; [lia|].
      split; [lia|reflexivity].
    - replace (6 * S k)%nat with (6 * k + 6)%nat by lia. rewrite run_add.
      destruct (IH ltac:(lia) ltac:(intros i Hi'; apply Hm; lia)) as (B1 & B2 & B3 & B4 & B5 & B6 & B7 & B8 & B9). clear IH. generalize dependent (run (6 * k) s). intros u B1 B2 B3 B4 B5 B6 B7 B8 B9.
      destruct (Z.eqb_spec (Z.of_nat k) n) as [E|_]; [lia|]. destruct (Hm (Z.of_nat k) ltac:(lia)) as [C1 C2].
      destruct (turn u (src + Z.of_nat k) (dst + Z.of_nat k) (n - Z.of_nat k) B1 B2 B5 B6 B7) as (D1 & D2 & D3 & D4 & D5 & D6 & D7 & D8 & D9); try lia; try assumption.
      generalize dependent (run 6 u). intros t D1 D2 D3 D4 D5 D6 D7 D8 D9. rewrite Nat2Z.inj_succ.
      split; [exact D1|]. split. { rewrite D2. destruct (Z.eqb_spec (n - Z.of_nat k - 1) 0), (Z.eqb_spec (Z.succ (Z.of_nat k)) n); lia. }
      split; [now rewrite D3|]. split; [intros r R1 R2; rewrite (D4 r R1 R2); apply B4; assumption|]. split; [lia|]. split; [lia|]. split; [lia|].
      split.
      + intros i Hi'. destruct (Z.eq_dec i (Z.of_nat k)) as [->|N].
        * rewrite D8. apply B9. lia.
        * rewrite D9 by lia. apply B8. lia.
      + intros b Hb. rewrite D9 by lia. apply B9. lia.
  Qed.

  (** ** What is claimed *)
  Theorem copies s src dst n : at_copy p src dst n s -> places p src dst n -> (forall i, 0 <= i < n -> may_copy ranges src dst i) ->
    let t := run (6 * Z.to_nat n) s in
    v_pc t = p + 24 /\ a_csr (v_arch t) = a_csr (v_arch s) /\ keeps_others s t /\ copied (v_mem s) (v_mem t) src dst n.
  Proof.
    intros A B H t. pose proof B as B'. unfold places in B'. destruct (loop s src dst n A B (Z.to_nat n)) as (_ & B2 & B3 & B4 & _ & _ & _ & B8).
    - lia.
    - intros i Hi'. apply H. lia.
    - fold t in B2, B3, B4, B8. rewrite Z2Nat.id in B2, B8 by lia. rewrite Z.eqb_refl in B2. repeat split; try assumption; apply B8.
  Qed.
  Theorem stops_at_source s src dst n k : at_copy p src dst n s -> places p src dst n -> 0 <= k < n -> (forall i, 0 <= i < k -> may_copy ranges src dst i) ->
    ~ contained ranges (src + k) 1 ->
    let u := run (6 * Z.to_nat k) s in
    v_pc u = p /\ a_csr (v_arch u) = a_csr (v_arch s) /\ keeps_others s u /\ copied (v_mem s) (v_mem u) src dst k /\ traps trap 5 u (run (6 * Z.to_nat k + 1) s).
  Proof.
    intros A B Hk H N u. pose proof B as B'. unfold places in B'. destruct (loop s src dst n A B (Z.to_nat k)) as ([Bc Bb] & B2 & B3 & B4 & B5 & B6 & B7 & B8).
    - lia.
    - intros i Hi'. apply H. lia.
    - rewrite run_add. fold u in Bc, Bb, B2, B3, B4, B5, B6, B7, B8 |- *. rewrite Z2Nat.id in * by lia. destruct (Z.eqb_spec k n) as [E|_]; [lia|].
      split; [exact B2|]. split; [exact B3|]. split; [exact B4|]. split; [exact B8|]. cbn [run2]. apply s_lbu; try assumption; rewrite B5; [lia|lia|exact N].
  Qed.
  Theorem stops_at_destination s src dst n k : at_copy p src dst n s -> places p src dst n -> 0 <= k < n -> (forall i, 0 <= i < k -> may_copy ranges src dst i) ->
    contained ranges (src + k) 1 -> ~ contained ranges (dst + k) 1 ->
    let u := run (6 * Z.to_nat k + 1) s in
    v_pc u = p + 4 /\ a_csr (v_arch u) = a_csr (v_arch s) /\ keeps_others s u /\ copied (v_mem s) (v_mem u) src dst k /\ traps trap 7 u (run (6 * Z.to_nat k + 2) s).
  Proof.
    intros A B Hk H Y N u. pose proof B as B'. unfold places in B'. destruct (loop s src dst n A B (Z.to_nat k)) as ([Bc Bb] & B2 & B3 & B4 & B5 & B6 & B7 & B8).
    - lia.
    - intros i Hi'. apply H. lia.
    - unfold u. replace (6 * Z.to_nat k + 2)%nat with (6 * Z.to_nat k + 1 + 1)%nat by lia. rewrite !run_add. clear u. generalize dependent (run (6 * Z.to_nat k) s). intros v Bc Bb B2 B3 B4 B5 B6 B7 B8.
      rewrite Z2Nat.id in * by lia. destruct (Z.eqb_spec k n) as [E|_]; [lia|]. cbn [run2].
      pose proof (s_lbu v Bc Bb B2) as L. cbv zeta in L. rewrite B5 in L. destruct (proj1 (L ltac:(lia) ltac:(lia)) Y) as (D1 & D2 & D3 & D4 & D5). clear L.
      generalize dependent (step v). intros w D1 D2 D3 D4 D5.
      split; [exact D2|]. split; [now rewrite D3|]. split; [intros r R1 R2; rewrite (D5 r R1) by (cbn [In] in R2; lia); apply B4; assumption|]. split; [now rewrite D1|].
      apply s_sb; [now rewrite D1|exact D2|rewrite (D5 11); lia|rewrite (D5 11); lia|]. rewrite (D5 11), B6 by lia. exact N.
  Qed.
End Loop.
