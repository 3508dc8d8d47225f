(** * Proofs about the convolution and accumulator instructions *)
From Verif Require Import CInt Lane LaneSpec VecModel VecSpec ConvModel ConvSpec LaneProofs VecProofs VecFrame.
From Coq Require Import ZifyBool ZifyNat.
Import ListNotations.
Ltac Zify.zify_post_hook ::= Z.div_mod_to_equations.

Lemma land3 i : Z.land i 3 = i mod 4.
Proof. change 3 with (Z.ones 2). now rewrite Z.land_ones by lia. Qed.
Lemma landn3 i : Z.land i (Z.lnot 3) = 4 * (i / 4).
Proof.
  change (Z.lnot 3) with (Z.lnot (Z.ones 2)).
  rewrite <- Z.ldiff_land, Z.ldiff_ones_r by lia.
  rewrite Z.shiftr_div_pow2, Z.shiftl_mul_pow2 by lia. change (2 ^ 2) with 4. lia.
Qed.
Lemma wrapU32 x : wrap U32 x = x mod 2 ^ 32.
Proof. rewrite <- trunc_wrap. reflexivity. Qed.
Lemma wrapI32 x : 0 <= x < 2 ^ 32 -> wrap I32 x = s32 x.
Proof.
  intros H. rewrite <- trunc_wrap. unfold trunc, s32. cbn [bits is_signed].
  change (true && (2 ^ (32 - 1) <=? x mod 2 ^ 32)) with (2 ^ 31 <=? x mod 2 ^ 32).
  rewrite Z.mod_small by lia. destruct (2 ^ 31 <=? x) eqn:E1, (x <? 2 ^ 31) eqn:E2; lia.
Qed.
Lemma wrapI32_id x : - 2 ^ 31 <= x < 2 ^ 31 -> wrap I32 x = x.
Proof.
  intros H. rewrite <- trunc_wrap. unfold trunc. cbn [bits is_signed].
  change (true && (2 ^ (32 - 1) <=? x mod 2 ^ 32)) with (2 ^ 31 <=? x mod 2 ^ 32).
  assert (x mod 2 ^ 32 = x \/ x mod 2 ^ 32 = x + 2 ^ 32).
  { destruct (Z.lt_ge_cases x 0); [right|left; apply Z.mod_small; lia].
    rewrite <- (Z_mod_plus_full x 1). apply Z.mod_small. lia. }
  destruct (2 ^ 31 <=? x mod 2 ^ 32) eqn:E; lia.
Qed.
Lemma sbyte_bval f b : 0 <= b < 256 -> sbyte f b = bval f b.
Proof.
  intros H. unfold sbyte, bval. destruct f; [|reflexivity]. cbn [andb].
  rewrite <- trunc_wrap. unfold trunc. cbn [bits is_signed].
  change (true && (2 ^ (8 - 1) <=? b mod 2 ^ 8)) with (128 <=? b mod 2 ^ 8).
  rewrite Z.mod_small by lia. reflexivity.
Qed.
Lemma bval_range f b : 0 <= b < 256 -> -128 <= bval f b <= 255.
Proof. unfold bval. destruct f; cbn [andb]; [|lia]. destruct (128 <=? b) eqn:E; lia. Qed.
Lemma sext9_ok b : 0 <= b < 512 -> sext9 b = Ok (s9 b).
Proof.
  intros H. assert (forallb (fun x => match sext9 x with Ok v => v =? s9 x | _ => false end)
     (map Z.of_nat (seq 0 512)) = true) as A by (vm_compute; reflexivity).
  rewrite forallb_forall in A. specialize (A b).
  destruct (sext9 b) as [v| |].
  - apply f_equal. apply Z.eqb_eq, A. apply in_map_iff. exists (Z.to_nat b). split; [lia|].
    apply in_seq. lia.
  - discriminate A. apply in_map_iff. exists (Z.to_nat b). split; [lia|]. apply in_seq. lia.
  - discriminate A. apply in_map_iff. exists (Z.to_nat b). split; [lia|]. apply in_seq. lia.
Qed.
Lemma s9_range b : 0 <= b < 512 -> -256 <= s9 b <= 255.
Proof. unfold s9. destruct (b <? 256) eqn:E; lia. Qed.
Lemma fld_range w lo n : 0 <= n -> 0 <= fld w lo n < 2 ^ n.
Proof. intros. apply Z.mod_pos_bound. apply Z.pow_pos_nonneg; lia. Qed.
Lemma bfield_fld w p n : 0 <= p -> 0 <= n -> p + n <= 32 -> bfield (wrap U32 w) p n = fld w p n.
Proof.
  intros. rewrite wrapU32. unfold bfield, fld.
  replace 32 with (p + (32 - p)) by lia. rewrite Z.pow_add_r by lia.
  rewrite Z.rem_mul_r by (apply Z.pow_nonzero || apply Z.pow_pos_nonneg; lia).
  rewrite Z.mul_comm, Z.div_add by (apply Z.pow_nonzero; lia).
  rewrite (Z.div_small (w mod 2 ^ p)) by (apply Z.mod_pos_bound, Z.pow_pos_nonneg; lia).
  rewrite Z.add_0_l. replace (32 - p) with (n + (32 - p - n)) by lia.
  rewrite Z.pow_add_r by lia.
  rewrite Z.rem_mul_r by (apply Z.pow_nonzero || apply Z.pow_pos_nonneg; lia).
  rewrite Z.mul_comm, Z_mod_plus_full. apply Z.mod_mod, Z.pow_nonzero; lia.
Qed.
Lemma sfield_s9 w p : 0 <= p -> p + 9 <= 32 -> sfield (wrap U32 w) p 9 = s9 (fld w p 9).
Proof. intros. unfold sfield. rewrite bfield_fld by lia. reflexivity. Qed.
Lemma interleave_swap x : interleave x = swap12 x. Proof. reflexivity. Qed.
Lemma i32_ok x : - 2 ^ 31 <= x < 2 ^ 31 -> i32 x = Ok x.
Proof.
  intros H. unfold i32. replace (in_range I32 x) with true; [reflexivity|].
  unfold in_range. cbn. symmetry. lia.
Qed.
Lemma i32_inv x v : i32 x = Ok v -> v = x /\ - 2 ^ 31 <= x < 2 ^ 31.
Proof.
  unfold i32. destruct (in_range I32 x) eqn:E; [|discriminate]. intros [= <-].
  unfold in_range in E. cbn in E. split; [reflexivity|]. lia.
Qed.

(** ** Sums *)
Lemma sum_ext n f g : (forall i, 0 <= i < Z.of_nat n -> f i = g i) -> sum n f = sum n g.
Proof.
  induction n as [|m IH]; intros H; [reflexivity|]. cbn [sum].
  rewrite IH by (intros; apply H; lia). rewrite H by lia. reflexivity.
Qed.
Lemma sum_0 n f : (forall i, 0 <= i < Z.of_nat n -> f i = 0) -> sum n f = 0.
Proof.
  induction n as [|m IH]; intros H; [reflexivity|]. cbn [sum].
  rewrite IH by (intros; apply H; lia). rewrite H by lia. reflexivity.
Qed.
Lemma sum_delta n f k : 0 <= k < Z.of_nat n ->
  sum n (fun i => if i =? k then f i else 0) = f k.
Proof.
  induction n as [|m IH]; intros H; [lia|]. cbn [sum].
  destruct (Z.eqb_spec (Z.of_nat m) k) as [E|E].
  - rewrite sum_0; [rewrite E; lia|]. intros i Hi. destruct (Z.eqb_spec i k); [lia|reflexivity].
  - rewrite IH by lia. lia.
Qed.
Lemma sum32 f : sum 32 f = sum 8 (fun w => sum 4 (fun b => f (4 * w + b))).
Proof.
  change 32%nat with (8 * 4)%nat. generalize 8%nat as n. intros n.
  induction n as [|n IH]; [reflexivity|].
  change (S n * 4)%nat with (S (S (S (S (n * 4))))).
  change (sum (S n) ?g) with (sum n g + g (Z.of_nat n)). rewrite <- IH. cbn [sum].
  rewrite !Z.add_assoc. repeat f_equal; lia.
Qed.

(** ** aconv *)
Definition idx_i (i j : Z) : Z := Z.land i (Z.lnot 3) + interleave (Z.land (j / 4) 3).
Definition idx_j (i j : Z) : Z := Z.land i 3 * (8 / 4) + j / 4 / 4.

Lemma hit_iff i w b r c : 0 <= i < 8 -> 0 <= w < 8 -> 0 <= b < 4 -> 0 <= r < 8 -> 0 <= c < 8 ->
  (r =? idx_i i (4 * w + b)) && (c =? idx_j i (4 * w + b)) = (i =? row_of r c) && (w =? word_of r c).
Proof.
  intros Hi Hw Hb Hr Hc. unfold idx_i, idx_j, row_of, word_of.
  rewrite !land3, landn3. rewrite interleave_swap.
  replace ((4 * w + b) / 4) with w by lia. change (8 / 4) with 2.
  unfold swap12.
  destruct (Z.eqb_spec (w mod 4) 1), (Z.eqb_spec (w mod 4) 2), (Z.eqb_spec (r mod 4) 1), (Z.eqb_spec (r mod 4) 2); lia.
Qed.

(** The value the innermost body adds. *)
Section Conv.
  Variables (c : vconv_cmd) (b1 b2 : Z) (narrow : Z -> vbytes).
  Hypothesis Hb1 : -256 <= b1 <= 255.
  Hypothesis Hb2 : -256 <= b2 <= 255.
  Hypothesis Hn : forall i j, 0 <= i < 8 -> 0 <= j < 32 -> 0 <= narrow i j < 256.

  Definition bterm (wide : vbytes) (k i j : Z) : Z :=
    (bval (vc_sdata1 c) (narrow i (4 * k + j mod 4)) + b1) * (bval (vc_sdata2 c) (wide j) + b2).

  Lemma body_ok wide k i j acc : 0 <= k < 8 -> 0 <= i < 8 -> 0 <= j < 32 ->
    (forall j, 0 <= j < 32 -> 0 <= wide j < 256) ->
    conv_body c b1 b2 narrow wide k i j acc =
    Ok (upd2 acc (idx_i i j) (idx_j i j) ((acc (idx_i i j) (idx_j i j) + bterm wide k i j) mod 2 ^ 32)).
  Proof.
    intros Hk Hi Hj Hw. unfold conv_body, bterm. fold (idx_i i j) (idx_j i j). rewrite land3.
    assert (0 <= narrow i (4 * k + j mod 4) < 256) as Hx by (apply Hn; lia).
    specialize (Hw j Hj). rewrite !sbyte_bval by assumption.
    pose proof (bval_range (vc_sdata1 c) _ Hx). pose proof (bval_range (vc_sdata2 c) _ Hw).
    set (x := bval (vc_sdata1 c) _ ) in *. set (y := bval (vc_sdata2 c) _) in *. clearbody x y.
    rewrite i32_ok by lia. cbn [bind]. rewrite i32_ok by lia. cbn [bind].
    rewrite i32_ok by nia. cbn [bind]. rewrite !wrapU32. f_equal. f_equal. now rewrite Zplus_mod_idemp_r.
  Qed.

  Lemma upd2_val f i j v a b : upd2 f i j v a b = if (a =? i) && (b =? j) then v else f a b.
  Proof. reflexivity. Qed.

  Definition ind (p : bool) (x : Z) := if p then x else 0.
  Definition hit (r q i j : Z) := (r =? idx_i i j) && (q =? idx_j i j).

  Lemma jloop wide k i acc : 0 <= k < 8 -> 0 <= i < 8 ->
    (forall j, 0 <= j < 32 -> 0 <= wide j < 256) -> acc_wf acc ->
    exists acc', for_n 32 (fun j => conv_body c b1 b2 narrow wide k i j) acc = Ok acc' /\ acc_wf acc' /\
      forall r q, 0 <= r < 8 -> 0 <= q < 8 ->
      acc' r q = (acc r q + sum 32 (fun j => ind (hit r q i j) (bterm wide k i j))) mod 2 ^ 32.
  Proof.
    intros Hk Hi Hw Ha.
    destruct (for_n_inv (S := Z -> Z -> Z)
      (fun n a => acc_wf a /\ forall r q, 0 <= r < 8 -> 0 <= q < 8 ->
         a r q = (acc r q + sum (Z.to_nat n) (fun j => ind (hit r q i j) (bterm wide k i j))) mod 2 ^ 32)
      (fun j => conv_body c b1 b2 narrow wide k i j) 32 acc) as (acc' & E & H1 & H2).
    - split; [exact Ha|]. intros r q Hr Hq. cbn [Z.to_nat sum]. rewrite Z.add_0_r, Z.mod_small; auto.
    - intros j a Hj (H1 & H2). rewrite body_ok by (assumption || lia). eexists. split; [reflexivity|].
      assert (G : forall r q, 0 <= r < 8 -> 0 <= q < 8 ->
        upd2 a (idx_i i j) (idx_j i j) ((a (idx_i i j) (idx_j i j) + bterm wide k i j) mod 2 ^ 32) r q =
        (acc r q + sum (Z.to_nat (j + 1)) (fun j => ind (hit r q i j) (bterm wide k i j))) mod 2 ^ 32).
      { intros r q Hr Hq. rewrite upd2_val.
        replace (Z.to_nat (j + 1)) with (S (Z.to_nat j)) by lia. cbn [sum].
        rewrite Z2Nat.id by lia. unfold ind at 2. fold (hit r q i j).
        destruct (hit r q i j) eqn:E.
        - unfold hit in E. apply andb_prop in E as [E1 E2]. apply Z.eqb_eq in E1, E2.
          rewrite <- E1, <- E2, H2 by assumption. rewrite Zplus_mod_idemp_l. f_equal. lia.
        - rewrite H2 by assumption. f_equal. lia. }
      split; [|exact G]. intros r q Hr Hq. rewrite G by assumption. apply Z.mod_pos_bound. lia.
    - exists acc'. auto.
  Qed.

  Lemma iloop wide k acc : 0 <= k < 8 ->
    (forall j, 0 <= j < 32 -> 0 <= wide j < 256) -> acc_wf acc ->
    exists acc', for_n 8 (fun i => for_n 32 (fun j => conv_body c b1 b2 narrow wide k i j)) acc = Ok acc' /\
      acc_wf acc' /\
      forall r q, 0 <= r < 8 -> 0 <= q < 8 ->
      acc' r q = (acc r q + sum 4 (fun b => bterm wide k (row_of r q) (4 * word_of r q + b))) mod 2 ^ 32.
  Proof.
    intros Hk Hw Ha.
    destruct (for_n_inv (S := Z -> Z -> Z)
      (fun n a => acc_wf a /\ forall r q, 0 <= r < 8 -> 0 <= q < 8 ->
         a r q = (acc r q + sum (Z.to_nat n) (fun i => sum 32 (fun j => ind (hit r q i j) (bterm wide k i j)))) mod 2 ^ 32)
      (fun i => for_n 32 (fun j => conv_body c b1 b2 narrow wide k i j)) 8 acc) as (acc' & E & H1 & H2).
    - split; [exact Ha|]. intros r q Hr Hq. cbn [Z.to_nat sum]. rewrite Z.add_0_r, Z.mod_small; auto.
    - intros i a Hi (H1 & H2). destruct (jloop wide k i a) as (a' & -> & K1 & K2); auto; try lia.
      eexists. split; [reflexivity|]. split; [exact K1|]. intros r q Hr Hq.
      rewrite K2, H2 by assumption. rewrite Zplus_mod_idemp_l. f_equal.
      replace (Z.to_nat (i + 1)) with (S (Z.to_nat i)) by lia.
      change (sum (S (Z.to_nat i)) ?f) with (sum (Z.to_nat i) f + f (Z.of_nat (Z.to_nat i))).
      cbv beta. rewrite Z2Nat.id by lia. lia.
    - exists acc'. split; [exact E|]. split; [exact H1|]. intros r q Hr Hq. rewrite H2 by assumption.
      f_equal. f_equal. change (Z.to_nat (Z.of_nat 8)) with 8%nat.
      assert (0 <= row_of r q < 8) by (unfold row_of; lia).
      assert (0 <= word_of r q < 8) by (unfold word_of, swap12; destruct (Z.eqb_spec (r mod 4) 1), (Z.eqb_spec (r mod 4) 2); lia).
      rewrite (sum_ext 8 _ (fun i => if i =? row_of r q
         then sum 4 (fun b => bterm wide k i (4 * word_of r q + b)) else 0)).
      { now rewrite (sum_delta 8 (fun i => sum 4 (fun b => bterm wide k i (4 * word_of r q + b)))) by lia. }
      intros i Hi. rewrite sum32.
      rewrite (sum_ext 8 _ (fun w => if w =? word_of r q
         then if i =? row_of r q then sum 4 (fun b => bterm wide k i (4 * w + b)) else 0 else 0)).
      { now rewrite (sum_delta 8 (fun w => if i =? row_of r q then sum 4 (fun b => bterm wide k i (4 * w + b)) else 0)) by lia. }
      intros w Hw'.
      destruct (w =? word_of r q) eqn:Ew, (i =? row_of r q) eqn:Ei;
        try (apply sum_0; intros b Hb; unfold ind, hit; rewrite hit_iff by lia; now rewrite Ew, Ei).
      apply sum_ext. intros b Hb. unfold ind, hit. rewrite hit_iff by lia. now rewrite Ew, Ei.
  Qed.
End Conv.

Lemma narrow_loop vs1 (rf : vregs) : 8 <= g_n vs1 ->
  exists nw, for_n 8 (fun i (nw : Z -> vbytes) => r <- get_reg vs1 rf i ;; Ok (upd nw i r)) (fun _ _ => 0) = Ok nw /\
    forall i, 0 <= i < 8 -> nw i = rf (g_base vs1 + i).
Proof.
  intros Hg.
  destruct (for_n_inv (S := Z -> vbytes) (fun n nw => forall i, 0 <= i < n -> nw i = rf (g_base vs1 + i))
    (fun i (nw : Z -> vbytes) => r <- get_reg vs1 rf i ;; Ok (upd nw i r)) 8 (fun _ _ => 0)) as (nw & E & H).
  - intros; lia.
  - intros i s Hi H. unfold get_reg. replace ((0 <=? i) && (i <? g_n vs1)) with true by lia. cbn [bind].
    eexists. split; [reflexivity|]. intros j Hj. unfold upd. destruct (Z.eqb_spec j i) as [->|]; [reflexivity|].
    apply H. lia.
  - exists nw. split; [exact E|exact H].
Qed.

Lemma conv_fields w : vconv_cmd_of (wrap U32 w) =
  VCmd (fld w 0 2) (fld w 2 5) (fld w 7 5) (fld w 12 9) (fld w 21 1 =? 1) (fld w 22 9) (fld w 31 1 =? 1).
Proof. unfold vconv_cmd_of. rewrite !bfield_fld by lia. reflexivity. Qed.

Lemma conv_illegal vs1 vs3 w pc s : ~ conv_legal w ->
  exec_vconv vs1 vs3 w pc s = Ok (CS (c_v s) (c_acc s) (c_dw s) (c_traps s ++ [(2, pc)])).
Proof.
  intros H. unfold exec_vconv. rewrite conv_fields. cbn [vc_mode vc_start vc_stop].
  unfold conv_legal in H. fold (illegal pc s).
  destruct (Z.eqb_spec (fld w 0 2) 0); cbn [negb]; [|reflexivity].
  destruct (fld w 7 5 <? fld w 2 5) eqn:E1; [reflexivity|].
  destruct ((8 <=? fld w 2 5) || (8 <=? fld w 7 5)) eqn:E2; [reflexivity|]. lia.
Qed.

Lemma conv_exact vs1 vs3 w pc s : wf (c_v s) -> acc_wf (c_acc s) -> conv_legal w ->
  8 <= g_n vs1 -> conv_len w <= g_n vs3 ->
  exists acc', exec_vconv vs1 vs3 w pc s = Ok (CS (c_v s) acc' (c_dw s) (c_traps s)) /\ acc_wf acc' /\
    forall r c, 0 <= r < 8 -> 0 <= c < 8 ->
    acc' r c = (c_acc s r c + conv_sum w (c_v s) (g_base vs1) (g_base vs3) r c) mod 2 ^ 32.
Proof.
  intros Hwf Ha (L1 & L2 & L3) Hg1 Hg3. unfold exec_vconv. rewrite conv_fields.
  cbn [vc_mode vc_start vc_stop vc_sbias1 vc_sbias2].
  rewrite L1. cbn [Z.eqb negb].
  destruct (fld w 7 5 <? fld w 2 5) eqn:E1; [lia|]. clear E1.
  destruct ((8 <=? fld w 2 5) || (8 <=? fld w 7 5)) eqn:E2; [lia|]. clear E2.
  destruct (narrow_loop vs1 (c_v s) Hg1) as (nw & -> & Hnw). cbn [bind].
  pose proof (fld_range w 12 9 ltac:(lia)) as R1. pose proof (fld_range w 22 9 ltac:(lia)) as R2.
  pose proof (fld_range w 2 5 ltac:(lia)) as R3.
  rewrite !sext9_ok by assumption. cbn [bind].
  pose proof (s9_range _ R1) as B1. pose proof (s9_range _ R2) as B2.
  set (c := VCmd _ _ _ _ _ _ _).
  assert (Hn : forall i j, 0 <= i < 8 -> 0 <= j < 32 -> 0 <= nw i j < 256).
  { intros i j Hi Hj. rewrite Hnw by lia. now apply Hwf. }
  assert (Hlen : fld w 7 5 - fld w 2 5 + 1 = conv_len w) by reflexivity. rewrite Hlen.
  assert (1 <= conv_len w <= 8) by (unfold conv_len; lia).
  destruct (for_n_inv (S := Z -> Z -> Z)
    (fun n a => acc_wf a /\ forall r q, 0 <= r < 8 -> 0 <= q < 8 ->
       a r q = (c_acc s r q + sum (Z.to_nat n) (fun m => sum 4 (fun b =>
          conv_term w (c_v s) (g_base vs1) (g_base vs3) r q m b))) mod 2 ^ 32)
    (fun m acc => wide <- get_reg vs3 (c_v s) m ;;
             for_n 8 (fun i => for_n 32 (fun j =>
               conv_body c (s9 (fld w 12 9)) (s9 (fld w 22 9)) nw wide (fld w 2 5 + m) i j)) acc)
    (Z.to_nat (conv_len w)) (c_acc s)) as (acc' & E & H1 & H2).
  - split; [exact Ha|]. intros r q Hr Hq. cbn [Z.to_nat sum]. rewrite Z.add_0_r, Z.mod_small; auto.
  - intros m a Hm (H1 & H2). unfold get_reg.
    replace ((0 <=? m) && (m <? g_n vs3)) with true by lia. cbn [bind].
    destruct (iloop c (s9 (fld w 12 9)) (s9 (fld w 22 9)) nw B1 B2 Hn (c_v s (g_base vs3 + m)) (fld w 2 5 + m) a)
      as (a' & -> & K1 & K2); [unfold conv_len in *; lia|intros; now apply Hwf|exact H1|].
    eexists. split; [reflexivity|]. split; [exact K1|]. intros r q Hr Hq.
    rewrite K2, H2 by assumption. rewrite Zplus_mod_idemp_l. f_equal.
    replace (Z.to_nat (m + 1)) with (S (Z.to_nat m)) by lia.
    change (sum (S (Z.to_nat m)) ?f) with (sum (Z.to_nat m) f + f (Z.of_nat (Z.to_nat m))).
    cbv beta. rewrite Z2Nat.id by lia. rewrite Z.add_assoc. f_equal.
    apply sum_ext. intros b Hb. unfold bterm, conv_term. cbn [vc_sdata1 vc_sdata2 c].
    rewrite Hnw by (unfold row_of; lia).
    replace ((4 * word_of r q + b) mod 4) with b by lia. reflexivity.
  - rewrite E. cbn [bind]. exists acc'. split; [reflexivity|]. split; [exact H1|].
    intros r q Hr Hq. rewrite H2 by assumption. rewrite Z2Nat.id by lia. reflexivity.
Qed.

(** Every (row, word) pair feeds exactly one cell. *)
Lemma pair_of_cell i w : 0 <= i < 8 -> 0 <= w < 8 ->
  exists r c, 0 <= r < 8 /\ 0 <= c < 8 /\ row_of r c = i /\ word_of r c = w /\
  forall r' c', 0 <= r' < 8 -> 0 <= c' < 8 -> row_of r' c' = i -> word_of r' c' = w -> r' = r /\ c' = c.
Proof.
  intros Hi Hw. exists (4 * (i / 4) + swap12 (w mod 4)), (2 * (i mod 4) + w / 4).
  unfold row_of, word_of, swap12.
  destruct (Z.eqb_spec (w mod 4) 1), (Z.eqb_spec (w mod 4) 2); try lia;
  (split; [lia|]; split; [lia|]; split; [lia|]; split;
   [ match goal with |- (if ?a =? 1 then _ else _) + _ = _ => destruct (Z.eqb_spec a 1), (Z.eqb_spec a 2); lia end
   | intros r' c' Hr Hc; destruct (Z.eqb_spec (r' mod 4) 1), (Z.eqb_spec (r' mod 4) 2); lia]).
Qed.
