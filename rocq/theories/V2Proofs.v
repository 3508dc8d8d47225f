(** * Proofs about the V2 checks *)
From Coq Require Import ZArith List Bool Lia ZifyBool.
From Verif Require Import CInt V2Model V2Spec.
Import ListNotations.
Open Scope Z_scope.
Ltac Zify.zify_post_hook ::= Z.div_mod_to_equations.

Lemma wrap32 x : wrap U32 x = x mod 4294967296.
Proof. reflexivity. Qed.
Lemma addr_eq base off : wrap U32 (wrap U32 base + wrap U32 (wrap I32 off)) = (base + off) mod 2 ^ 32.
Proof. unfold wrap. cbn [is_signed modulus half]. change (2 ^ 32) with 4294967296. lia. Qed.

Lemma lsu_valid_iff ranges a w : lsu_valid ranges a w = true <->
  exists s l, In (s, l) ranges /\ s <= a /\ (a + w) mod 2 ^ 32 <= (s + l) mod 2 ^ 32.
Proof.
  unfold lsu_valid. rewrite existsb_exists. rewrite wrap32. change (2 ^ 32) with 4294967296. split.
  - intros [[s l] [Hi H]]. cbn [fst snd] in H. rewrite wrap32 in H. exists s, l. split; [exact Hi|]. lia.
  - intros [s [l [Hi H]]]. exists (s, l). split; [exact Hi|]. cbn [fst snd]. rewrite wrap32. lia.
Qed.
Lemma contained_iff ranges a w : 0 < w -> contained ranges a w <->
  exists s l, In (s, l) ranges /\ s <= a /\ a + w <= s + l.
Proof.
  intro Hw. split; intros [s [l [Hi H]]]; exists s, l; (split; [exact Hi|]).
  - pose proof (H a). pose proof (H (a + w - 1)). lia.
  - intros x Hx. lia.
Qed.
Lemma lsu_exact ranges a w : low ranges -> 0 <= a -> 0 < w -> a + w < 2 ^ 32 ->
  lsu_valid ranges a w = true <-> contained ranges a w.
Proof.
  intros Hl Ha Hw Hb. rewrite lsu_valid_iff, contained_iff by exact Hw.
  split; intros [s [l [Hi H]]]; exists s, l; (split; [exact Hi|]); pose proof (Hl s l Hi).
  - rewrite !Z.mod_small in H by lia. lia.
  - rewrite !Z.mod_small by lia. lia.
Qed.
Lemma check_size_pos i : 1 <= check_size i <= 8.
Proof. destruct i; cbn; lia. Qed.
Theorem v2_exec_exact {St} (perform : v2mem -> Z -> St -> St) trap i ranges pc base off s :
  let a := (base + off) mod 2 ^ 32 in
  low ranges -> a + check_size i < 2 ^ 32 ->
  (contained ranges a (check_size i) ->
     v2_exec perform trap i ranges pc base off s = perform i a s) /\
  (~ contained ranges a (check_size i) ->
     v2_exec perform trap i ranges pc base off s = trap (if is_load i then 5 else 7) pc s).
Proof.
  cbv zeta. intros Hl Hb. unfold v2_exec. rewrite addr_eq. cbv zeta.
  set (a := (base + off) mod 2 ^ 32) in *.
  assert (Ha : 0 <= a) by (apply Z.mod_pos_bound; lia).
  pose proof (check_size_pos i) as Hc.
  pose proof (lsu_exact ranges a (check_size i) Hl Ha ltac:(lia) Hb) as [H1 H2].
  split; intro H.
  - rewrite (H2 H). reflexivity.
  - destruct (lsu_valid ranges a (check_size i)) eqn:E; [destruct (H (H1 eq_refl))|]. destruct i; reflexivity.
Qed.
Theorem lsu_wrap ranges w s l : In (s, l) ranges -> 0 < w -> s <= 2 ^ 32 - w ->
  lsu_valid ranges (2 ^ 32 - w) w = true.
Proof.
  intros Hi Hw Hs. apply lsu_valid_iff. exists s, l. split; [exact Hi|]. split; [exact Hs|].
  replace (2 ^ 32 - w + w) with (2 ^ 32) by lia. rewrite Z.mod_same by lia.
  apply Z.mod_pos_bound. lia.
Qed.

Theorem itcm_iff start len a : u32 start -> u32 len -> 0 <= a < 2 ^ 64 -> v2_decode start len a = Decoded a <->
  start <= a mod 2 ^ 32 /\ ((start + len) mod 2 ^ 32 < 4 \/ a mod 2 ^ 32 + 4 <= (start + len) mod 2 ^ 32).
Proof.
  unfold u32. intros Hs Hl Ha. unfold v2_decode, in_itcm. unfold wrap. cbn [is_signed modulus].
  change (2 ^ 32) with 4294967296 in *. change (2 ^ 64) with 18446744073709551616 in *.
  set (e := (start + len) mod 4294967296). assert (He : 0 <= e < 4294967296) by (apply Z.mod_pos_bound; lia).
  assert (Hb : 0 <= a mod 4294967296 < 4294967296) by (apply Z.mod_pos_bound; lia).
  set (b := a mod 4294967296) in *. clearbody e b.
  assert (Hm : (e - 4) mod 18446744073709551616 = if e <? 4 then e - 4 + 18446744073709551616 else e - 4).
  { destruct (e <? 4) eqn:E; [|apply Z.mod_small; lia].
    symmetry. apply (Z.mod_unique _ _ (-1)); lia. }
  rewrite Hm. destruct (e <? 4) eqn:E.
  - destruct ((start <=? b) && (b <=? e - 4 + 18446744073709551616)) eqn:E2; split; intro H; try discriminate; try reflexivity; lia.
  - destruct ((start <=? b) && (b <=? e - 4)) eqn:E2; split; intro H; try discriminate; try reflexivity; lia.
Qed.
Theorem itcm_exact start len a : 0 <= start -> 0 <= len -> 4 <= start + len < 2 ^ 32 -> 0 <= a < 2 ^ 32 ->
  v2_decode start len a =
  if (start <=? a) && (a + 4 <=? start + len) then Decoded a else Invalid a.
Proof.
  intros H1 H2 H3 H4. assert (u32 start /\ u32 len) as [Hs Hl] by (unfold u32; lia).
  pose proof (itcm_iff start len a Hs Hl ltac:(lia)) as [A B].
  rewrite !(Z.mod_small a), !(Z.mod_small (start + len)) in * by lia.
  destruct ((start <=? a) && (a + 4 <=? start + len)) eqn:E.
  - apply B. lia.
  - assert (N : v2_decode start len a <> Decoded a) by (intro H; apply A in H; lia).
    unfold v2_decode in *. destruct (in_itcm start len (wrap U32 a)); [congruence | reflexivity].
Qed.

Theorem mpause_ok {St} (trap : Z -> Z -> St -> St) hs inst s :
  (exists hs1 h hs2, hs = hs1 ++ h :: hs2 /\
     Forall (fun b => b = false) (fst (call_all hs1 inst s)) /\
     fst (h inst (snd (call_all hs1 inst s))) = true /\
     run_handlers trap hs inst s = snd (call_all (hs1 ++ [h]) inst s)) \/
  (Forall (fun b => b = false) (fst (call_all hs inst s)) /\
   run_handlers trap hs inst s = trap 3 (match inst with Some a => a | None => 0 end) (snd (call_all hs inst s))).
Proof.
  revert s. induction hs as [|h r IH]; intro s.
  - right. split; [constructor | reflexivity].
  - cbn [run_handlers call_all]. destruct (h inst s) as [b s1] eqn:E. destruct b.
    + left. exists [], h, r. split; [reflexivity|]. split; [constructor|]. cbn [call_all snd fst app].
      rewrite E. split; reflexivity.
    + destruct (IH s1) as [[hs1 [h0 [hs2 [-> [F [T R]]]]]]|[F R]].
      * left. exists (h :: hs1), h0, hs2. split; [reflexivity|]. cbn [call_all app]. rewrite E.
        destruct (call_all hs1 inst s1) as [bs s2] eqn:E1. cbn [fst snd] in *.
        split; [constructor; [reflexivity | exact F]|]. split; [exact T|]. rewrite R.
        destruct (call_all (hs1 ++ [h0]) inst s1) as [bs' s3]. reflexivity.
      * right. destruct (call_all r inst s1) as [bs s2] eqn:E1. cbn [fst snd] in *.
        split; [constructor; [reflexivity | exact F] | exact R].
Qed.

Theorem misa_bits v i : 0 <= v < 2 ^ 32 -> 0 <= i ->
  Z.testbit (stretch_misa v) i =
  if i <? 26 then Z.testbit v i
  else if (i =? 62) || (i =? 63) then Z.testbit v (i - 32) else false.
Proof.
  intros Hv Hi. unfold stretch_misa. rewrite wrap32, Z.mod_small by (change (2 ^ 32) with 4294967296 in Hv; lia).
  change (2 ^ 32) with 4294967296 in Hv. unfold wrap. cbn [is_signed modulus].
  rewrite (Z.mod_small v) by lia. change 18446744073709551616 with (2 ^ 64).
  rewrite Z.lor_spec. rewrite <- Z.land_ones by lia. rewrite !Z.land_spec.
  rewrite Z.shiftl_spec by exact Hi. rewrite Z.land_spec.
  change 67108863 with (Z.ones 26). change 3221225472 with (Z.shiftl 3 30).
  rewrite !Z.testbit_ones_nonneg by lia.
  destruct (Z_lt_dec i 32).
  - rewrite (Z.testbit_neg_r _ (i - 32)) by lia. cbn [andb orb].
    replace ((i =? 62) || (i =? 63)) with false by lia. destruct (i <? 26); [apply andb_true_r | apply andb_false_r].
  - replace (i <? 26) with false by lia. rewrite andb_false_r, orb_false_r.
    rewrite Z.shiftl_spec by lia. destruct ((i =? 62) || (i =? 63)) eqn:E.
    + replace (i <? 64) with true by lia.
      assert (i = 62 \/ i = 63) as [->| ->] by lia; rewrite !andb_true_r; reflexivity.
    + destruct (Z_lt_dec i 62).
      * rewrite (Z.testbit_neg_r _ (i - 32 - 30)) by lia. rewrite andb_false_r. reflexivity.
      * replace (i <? 64) with false by lia. apply andb_false_r.
Qed.

(** The factory. *)
Lemma create_lsu (l : list range) : forall acc, fold_left (fun l r => l ++ [r]) l acc = acc ++ l.
Proof.
  induction l as [|r l IH]; intro acc; cbn [fold_left]; [symmetry; apply app_nil_r|].
  rewrite IH, <- app_assoc. reflexivity.
Qed.
Lemma fold_lsu ops : forall f, f_lsu (fold_left fstep ops f) = f_lsu f ++ lsu_of ops.
Proof.
  induction ops as [|o ops IH]; intro f; cbn [fold_left lsu_of flat_map]; [symmetry; apply app_nil_r|].
  rewrite IH. fold (lsu_of ops). destruct o; cbn [fstep f_lsu app]; [reflexivity | reflexivity|].
  rewrite <- app_assoc. reflexivity.
Qed.
Lemma fold_itcm ops : forall f, (forall s l, ~ In (SetItcmRange s l) ops) ->
  f_itcm (fold_left fstep ops f) = f_itcm f.
Proof.
  induction ops as [|o ops IH]; intros f H; cbn [fold_left]; [reflexivity|].
  rewrite IH by (intros s l Hi; apply (H s l); right; exact Hi).
  destruct o; try reflexivity. destruct (H s l). left. reflexivity.
Qed.
Lemma fold_misa ops : forall f, (forall v, ~ In (SetInitialMisaValue v) ops) ->
  f_misa (fold_left fstep ops f) = f_misa f.
Proof.
  induction ops as [|o ops IH]; intros f H; cbn [fold_left]; [reflexivity|].
  rewrite IH by (intros v Hi; apply (H v); right; exact Hi).
  destruct o; try reflexivity. destruct (H v). left. reflexivity.
Qed.
Theorem build_ok ops :
  c_lsu (build ops) = lsu_of ops /\
  (forall r, last_itcm ops r -> c_itcm (build ops) = r) /\
  ((forall s l, ~ In (SetItcmRange s l) ops) -> c_itcm (build ops) = (0, 0)) /\
  (forall v, last_misa ops v -> c_misa (build ops) = Some (stretch_misa v)) /\
  ((forall v, ~ In (SetInitialMisaValue v) ops) -> c_misa (build ops) = None).
Proof.
  unfold build, create. cbn [c_lsu c_itcm c_misa].
  split; [rewrite create_lsu, fold_lsu; reflexivity|].
  split; [|split; [|split]].
  - intros r [a [s [l [b [-> [-> H]]]]]]. rewrite fold_left_app. cbn [fold_left].
    rewrite fold_itcm by exact H. reflexivity.
  - intro H. rewrite fold_itcm by exact H. reflexivity.
  - intros v [a [b [-> H]]]. rewrite fold_left_app. cbn [fold_left]. rewrite fold_misa by exact H. reflexivity.
  - intro H. rewrite fold_misa by exact H. reflexivity.
Qed.
