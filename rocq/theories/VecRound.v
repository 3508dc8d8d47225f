(** * Instruction sequences that restore their inputs *)
From Verif Require Import CInt Lane LaneSpec VecModel VecSpec LaneProofs LaneProofs2 LaneProofs3
  LaneProofs4 LaneCor VecProofs VecEl VecFam VecPerm VecFrame.
From Coq Require Import ZifyBool ZifyNat.
Import ListNotations.
Ltac Zify.zify_post_hook ::= Z.div_mod_to_equations.

Lemma glanes_regs T rf rf' vd vs n : small T -> wf rf -> wf rf' ->
  (forall J, 0 <= J < n * nlanes T -> glane T rf' vd J = glane T rf vs J) ->
  forall k j, 0 <= k < n -> 0 <= j < 32 -> rf' (vd + k) j = rf (vs + k) j.
Proof.
  intros HT Hw Hw' H k j Hk Hj. pose proof (elts_pos T HT) as Hp.
  apply (lanes_bytes T); [assumption|intros; now apply Hw'|intros; now apply Hw| |assumption].
  intros i Hi. specialize (H (k * nlanes T + i)). unfold glane in H.
  rewrite nlanes_elts in * by assumption.
  rewrite Z.div_add_l, Z.div_small, Z.add_0_r in H by lia.
  replace ((k * elts T + i) mod elts T) with i in H
    by (rewrite Z.add_comm, Z.mod_add by lia; symmetry; apply Z.mod_small; lia).
  apply H. nia.
Qed.
Lemma glane_shift T rf b m J : small T -> glane T rf (b + m) J = glane T rf b (m * nlanes T + J).
Proof.
  intros HT. pose proof (elts_pos T HT). unfold glane. rewrite nlanes_elts by assumption.
  rewrite Z.div_add_l by lia. rewrite <- Z.add_assoc.
  replace ((m * elts T + J) mod elts T) with (J mod elts T); [reflexivity|].
  rewrite Z.add_comm, Z.mod_add by lia. reflexivity.
Qed.

Theorem evnodd_zip T strip vd vs1 vs2 ve junk junk' rf :
  let N := nops strip in
  small T -> wf rf ->
  apart N vd (2 * N) vs1 N -> apart N vd (2 * N) vs2 N ->
  apart N ve (2 * N) vd N -> apart N ve (2 * N) (vd + N) N ->
  exists rf1 rf2,
    exec (VPerm PEvnodd T) false strip
      {| o_s0 := SVec vs1 N; o_s1 := SVec vs2 N; o_vd := vd; o_nd := 2 * N |} junk rf = Ok rf1 /\
    exec (VPerm PZip T) false strip
      {| o_s0 := SVec vd N; o_s1 := SVec (vd + N) N; o_vd := ve; o_nd := 2 * N |} junk' rf1 = Ok rf2 /\
    forall k j, 0 <= k < N -> 0 <= j < 32 ->
      rf2 (ve + k) j = rf (vs1 + k) j /\ rf2 (ve + N + k) j = rf (vs2 + k) j.
Proof.
  intros N HT Hw A1 A2 A3 A4.
  assert (HN : N = 1 \/ N = 4) by (unfold N, nops; destruct strip; auto).
  destruct (perm_exec PEvnodd T false strip vd (2 * N) vs1 N (SVec vs2 N) junk rf HT Hw I)
    as (rf1 & E1 & W1 & _ & L1); try (cbn [perm_regs]; fold N; (assumption || lia)).
  { cbn [second_apart perm_regs]. fold N. split; [reflexivity|]. split; [lia|assumption]. }
  destruct (perm_exec PZip T false strip ve (2 * N) vd N (SVec (vd + N) N) junk' rf1 HT W1 I)
    as (rf2 & E2 & W2 & _ & L2); try (cbn [perm_regs]; fold N; (assumption || lia)).
  { cbn [second_apart perm_regs]. fold N. split; [reflexivity|]. split; [lia|assumption]. }
  fold N in E1, E2, L1, L2. cbn [perm_regs] in L1, L2.
  exists rf1, rf2. split; [exact E1|]. split; [exact E2|].
  pose proof (elts_cases T HT) as HL. rewrite <- nlanes_elts in HL by assumption.
  set (L := nlanes T) in *.
  assert (Hall : forall J, 0 <= J < 2 * N * L ->
     glane T rf2 ve J = cat2 T rf (SVec vs1 N) (SVec vs2 N) (N * L) J).
  { intros J HJ. rewrite L2 by assumption. cbn [perm_lane gsrc].
    pose proof (Zmod_even J) as Hev. destruct (Z.even J).
    - rewrite L1 by nia. cbn [perm_lane]. fold L.
      assert (J / 2 <? N * L = true) as -> by lia. f_equal. lia.
    - rewrite glane_shift by assumption. fold L. rewrite L1 by lia. cbn [perm_lane]. fold L.
      assert (N * L + J / 2 <? N * L = false) as -> by lia. f_equal. lia. }
  intros k j Hk Hj. split.
  - apply (glanes_regs T rf rf2 ve vs1 N); try assumption.
    intros J HJ. fold L in HJ. rewrite Hall by nia. unfold cat2.
    assert (J <? N * L = true) as -> by lia. reflexivity.
  - apply (glanes_regs T rf rf2 (ve + N) vs2 N); try assumption.
    intros J HJ. fold L in HJ. rewrite glane_shift by assumption. fold L. rewrite Hall by nia. unfold cat2.
    assert (N * L + J <? N * L = false) as -> by lia. cbn [gsrc]. f_equal. ring.
Qed.

Theorem zip_evnodd T strip vd vs1 vs2 ve junk junk' rf :
  let N := nops strip in
  small T -> wf rf ->
  apart N vd (2 * N) vs1 N -> apart N vd (2 * N) vs2 N ->
  apart N ve (2 * N) vd N -> apart N ve (2 * N) (vd + N) N ->
  exists rf1 rf2,
    exec (VPerm PZip T) false strip
      {| o_s0 := SVec vs1 N; o_s1 := SVec vs2 N; o_vd := vd; o_nd := 2 * N |} junk rf = Ok rf1 /\
    exec (VPerm PEvnodd T) false strip
      {| o_s0 := SVec vd N; o_s1 := SVec (vd + N) N; o_vd := ve; o_nd := 2 * N |} junk' rf1 = Ok rf2 /\
    forall k j, 0 <= k < N -> 0 <= j < 32 ->
      rf2 (ve + k) j = rf (vs1 + k) j /\ rf2 (ve + N + k) j = rf (vs2 + k) j.
Proof.
  intros N HT Hw A1 A2 A3 A4.
  assert (HN : N = 1 \/ N = 4) by (unfold N, nops; destruct strip; auto).
  destruct (perm_exec PZip T false strip vd (2 * N) vs1 N (SVec vs2 N) junk rf HT Hw I)
    as (rf1 & E1 & W1 & _ & L1); try (cbn [perm_regs]; fold N; (assumption || lia)).
  { cbn [second_apart perm_regs]. fold N. split; [reflexivity|]. split; [lia|assumption]. }
  destruct (perm_exec PEvnodd T false strip ve (2 * N) vd N (SVec (vd + N) N) junk' rf1 HT W1 I)
    as (rf2 & E2 & W2 & _ & L2); try (cbn [perm_regs]; fold N; (assumption || lia)).
  { cbn [second_apart perm_regs]. fold N. split; [reflexivity|]. split; [lia|assumption]. }
  fold N in E1, E2, L1, L2. cbn [perm_regs] in L1, L2.
  exists rf1, rf2. split; [exact E1|]. split; [exact E2|].
  pose proof (elts_cases T HT) as HL. rewrite <- nlanes_elts in HL by assumption.
  set (L := nlanes T) in *.
  assert (Hcat : forall J, 0 <= J < 2 * N * L ->
     cat2 T rf1 (SVec vd N) (SVec (vd + N) N) (N * L) J =
     if Z.even J then glane T rf vs1 (J / 2) else glane T rf vs2 (J / 2)).
  { intros J HJ. unfold cat2. cbn [gsrc]. rewrite glane_shift by assumption. fold L.
    replace (N * L + (J - N * L)) with J by ring.
    destruct (J <? N * L); rewrite L1 by assumption; reflexivity. }
  intros k j Hk Hj. split.
  - apply (glanes_regs T rf rf2 ve vs1 N); try assumption.
    intros J HJ. fold L in HJ. rewrite L2 by nia. cbn [perm_lane]. fold L.
    assert (J <? N * L = true) as -> by lia. rewrite Hcat by nia.
    assert (Z.even (2 * J) = true) as -> by (rewrite Z.even_mul; reflexivity). f_equal. lia.
  - apply (glanes_regs T rf rf2 (ve + N) vs2 N); try assumption.
    intros J HJ. fold L in HJ. rewrite glane_shift by assumption. fold L. rewrite L2 by nia.
    cbn [perm_lane]. fold L.
    assert (N * L + J <? N * L = false) as -> by lia.
    replace (2 * (N * L + J - N * L) + 1) with (2 * J + 1) by ring. rewrite Hcat by nia.
    assert (Z.even (2 * J + 1) = false) as -> by (rewrite Z.even_add, Z.even_mul; reflexivity).
    f_equal. lia.
Qed.

(** ** Widen by adding zero, narrow by shifting by zero *)
Lemma trunc0 T : trunc T 0 = 0.
Proof. destruct T; reflexivity. Qed.
Lemma clamp_id T x : in_range T x = true -> clamp (bits T) (is_signed T) x = x.
Proof.
  intros H. change (clamp (bits T) (is_signed T) x) with (clampT T x). rewrite clampT_eq.
  unfold in_range in H. lia.
Qed.
Lemma wide_narrow W n : wide_pair W n -> narrow_pair n W /\ ratio n W = 2.
Proof.
  unfold wide_pair, narrow_pair, ratio. cbn [In]. intros H.
  repeat destruct H as [H|H]; try contradiction; injection H as <- <-; cbn [In]; split; auto 10.
Qed.

(** A narrowing by zero from a register file whose wide lanes are lanes of [rf]. *)
Lemma narrow0 r n W strip vd ve junk rf0 rf vs :
  let N := nops strip in let f := ratio n W in
  narrow_pair n W -> wf rf -> wf rf0 ->
  (forall m, 0 <= m < f -> no_hazard N ve (vd + m * N)) ->
  (forall k i, 0 <= k < N -> 0 <= i < nlanes n ->
     lane W (rf (vd + narrow_reg f i * N + k)) (i / f) = lane n (rf0 (vs + k)) i) ->
  exists rf',
    exec (VNarrow r n W) true strip
      {| o_s0 := SVec vd (f * N); o_s1 := SScal 0; o_vd := ve; o_nd := N |} junk rf = Ok rf' /\
    forall k j, 0 <= k < N -> 0 <= j < 32 -> rf' (ve + k) j = rf0 (vs + k) j.
Proof.
  intros N f HP Hw Hw0 Hh HL.
  destruct (narrow_exec r n W true strip ve N vd (f * N) (SScal 0) junk rf HP Hw)
    as (rf' & E & W' & _ & L'); fold N f; try lia; try assumption; try reflexivity.
  exists rf'. split; [exact E|]. intros k j Hk Hj.
  destruct (narrow_small _ _ HP) as [HSn _].
  apply (lanes_bytes n); [assumption|intros; now apply W'|intros; now apply Hw0| |assumption].
  intros i Hi. rewrite L' by assumption. cbn [arg2]. rewrite trunc0. fold N f.
  rewrite Z.mod_0_l by (destruct W; discriminate). change (0 <? 0) with false.
  rewrite Bool.andb_false_r. rewrite Z.add_0_r, Z.pow_0_r, Z.div_1_r.
  rewrite HL by assumption. apply clamp_id. apply lane_range.
Qed.

Theorem widen_narrow r W n strip vd vs ve junk junk' rf :
  let N := nops strip in
  wide_pair W n -> wf rf ->
  no_hazard N vd vs -> no_hazard N (vd + N) vs ->
  no_hazard N ve vd -> no_hazard N ve (vd + N) ->
  exists rf1 rf2,
    exec (VWiden WAdd W n) true strip
      {| o_s0 := SVec vs N; o_s1 := SScal 0; o_vd := vd; o_nd := 2 * N |} junk rf = Ok rf1 /\
    exec (VNarrow r n W) true strip
      {| o_s0 := SVec vd (2 * N); o_s1 := SScal 0; o_vd := ve; o_nd := N |} junk' rf1 = Ok rf2 /\
    forall k j, 0 <= k < N -> 0 <= j < 32 -> rf2 (ve + k) j = rf (vs + k) j.
Proof.
  intros N HW Hwf H1 H2 H3 H4.
  assert (HN : N = 1 \/ N = 4) by (unfold N, nops; destruct strip; auto).
  destruct (wide_narrow _ _ HW) as [HP Hr]. destruct (wide_small _ _ HW) as [HSd HSs].
  destruct (wide_sz _ _ HW) as (_ & Hel & _).
  destruct (widen_exec WAdd W n true strip vd (2 * N) vs N (SScal 0) junk rf HW Hwf)
    as (rf1 & E1 & W1 & _ & L1); fold N; try lia; try assumption; try reflexivity.
  fold N in E1, L1.
  destruct (narrow0 r n W strip vd ve junk' rf rf1 vs HP W1 Hwf) as (rf2 & E2 & L2).
  - fold N. rewrite Hr. intros m Hm. assert (Hm2 : m = 0 \/ m = 1) by lia.
    destruct Hm2 as [-> | ->]; rewrite ?Z.mul_0_l, ?Z.mul_1_l, ?Z.add_0_r; assumption.
  - fold N. rewrite Hr. intros k i Hk Hi. rewrite nlanes_elts in Hi by assumption.
    assert (Hd : narrow_reg 2 i = i mod 2 /\ (i mod 2 = 0 \/ i mod 2 = 1)).
    { unfold narrow_reg. assert (H : i mod 2 = 0 \/ i mod 2 = 1) by lia.
      destruct H as [E|E]; rewrite E; auto. }
    destruct Hd as [-> Hd].
    pose proof (L1 k (i mod 2) (i / 2) Hk Hd) as L. rewrite nlanes_elts in L by assumption.
    specialize (L ltac:(lia)). cbn [w_spec arg2] in L. rewrite trunc0, Z.add_0_r in L. rewrite L.
    f_equal. lia.
  - exists rf1, rf2. rewrite Hr in E2. auto.
Qed.

(** Twice: all the narrow lanes spread over four wide registers per step. *)
Theorem widen2_narrow4 r W2 W1 n strip vd vs we ve junk1 junk2 junk3 junk4 rf :
  let N := nops strip in
  In (W2, W1, n) [(I32, I16, I8); (U32, U16, U8)] -> wf rf ->
  no_hazard N vd vs -> no_hazard N (vd + N) vs -> disjoint we (4 * N) vd (2 * N) ->
  (forall m, 0 <= m < 4 -> no_hazard N ve (we + m * N)) ->
  exists rf1 rf2 rf3 rf4,
    exec (VWiden WAdd W1 n) true strip
      {| o_s0 := SVec vs N; o_s1 := SScal 0; o_vd := vd; o_nd := 2 * N |} junk1 rf = Ok rf1 /\
    exec (VWiden WAdd W2 W1) true strip
      {| o_s0 := SVec vd N; o_s1 := SScal 0; o_vd := we; o_nd := 2 * N |} junk2 rf1 = Ok rf2 /\
    exec (VWiden WAdd W2 W1) true strip
      {| o_s0 := SVec (vd + N) N; o_s1 := SScal 0; o_vd := we + 2 * N; o_nd := 2 * N |} junk3 rf2
      = Ok rf3 /\
    exec (VNarrow r n W2) true strip
      {| o_s0 := SVec we (4 * N); o_s1 := SScal 0; o_vd := ve; o_nd := N |} junk4 rf3 = Ok rf4 /\
    forall k j, 0 <= k < N -> 0 <= j < 32 -> rf4 (ve + k) j = rf (vs + k) j.
Proof.
  intros N HW Hwf H1 H2 H3 H4.
  assert (HN : N = 1 \/ N = 4) by (unfold N, nops; destruct strip; auto).
  assert (HWa : wide_pair W1 n /\ wide_pair W2 W1 /\ narrow_pair n W2 /\ ratio n W2 = 4).
  { unfold wide_pair, narrow_pair, ratio. cbn [In] in *.
    destruct HW as [H|[H|[]]]; injection H as <- <- <-; repeat split; auto 10. }
  destruct HWa as (HWn & HW2 & HP & Hr).
  destruct (wide_small _ _ HWn) as [HS1 HSn]. destruct (wide_small _ _ HW2) as [HS2 _].
  destruct (wide_sz _ _ HWn) as (_ & Hel1 & _). destruct (wide_sz _ _ HW2) as (_ & Hel2 & _).
  destruct (widen_exec WAdd W1 n true strip vd (2 * N) vs N (SScal 0) junk1 rf HWn Hwf)
    as (rf1 & E1 & V1 & F1 & L1); fold N; try lia; try assumption; try reflexivity.
  fold N in E1, L1, F1. unfold disjoint in H3.
  destruct (widen_exec WAdd W2 W1 true strip we (2 * N) vd N (SScal 0) junk2 rf1 HW2 V1)
    as (rf2 & E2 & V2 & F2 & L2); fold N; try (unfold no_hazard); try lia; try assumption; try reflexivity.
  fold N in E2, L2, F2.
  destruct (widen_exec WAdd W2 W1 true strip (we + 2 * N) (2 * N) (vd + N) N (SScal 0) junk3 rf2 HW2 V2)
    as (rf3 & E3 & V3 & F3 & L3); fold N; try (unfold no_hazard); try lia; try assumption; try reflexivity.
  fold N in E3, L3, F3.
  destruct (narrow0 r n W2 strip we ve junk4 rf rf3 vs HP V3 Hwf) as (rf4 & E4 & L4).
  - fold N. rewrite Hr. exact H4.
  - fold N. rewrite Hr. intros k i Hk Hi.
    rewrite nlanes_elts in L1, L2, L3, Hi by assumption.
    (* lane i of vs went to lane i/2 of vd + (i mod 2)*N, then to lane i/4 of
       we + 2*(i mod 2)*N + ((i/2) mod 2)*N *)
    set (d1 := i mod 2). set (d2 := (i / 2) mod 2).
    assert (Hnr : narrow_reg 4 i = 2 * d1 + d2 /\ (d1 = 0 \/ d1 = 1) /\ (d2 = 0 \/ d2 = 1)).
    { unfold narrow_reg, d1, d2.
      assert (Hc : i mod 4 = 0 \/ i mod 4 = 1 \/ i mod 4 = 2 \/ i mod 4 = 3) by lia.
      destruct Hc as [E|[E|[E|E]]]; rewrite E; cbn [Z.eqb Pos.eqb]; lia. }
    destruct Hnr as (-> & Hd1 & Hd2).
    pose proof (L1 k d1 (i / 2) Hk Hd1 ltac:(lia)) as La. cbn [w_spec arg2] in La.
    rewrite trunc0, Z.add_0_r in La.
    replace (2 * (i / 2) + d1) with i in La by (unfold d1; lia).
    rewrite <- La.
    destruct Hd1 as [Z1|Z1]; rewrite Z1.
    + replace (we + (2 * 0 + d2) * N + k) with (we + d2 * N + k) by ring.
      pose proof (L2 k d2 (i / 4) Hk Hd2 ltac:(lia)) as Lb. cbn [w_spec arg2] in Lb.
      rewrite trunc0, Z.add_0_r in Lb.
      replace (2 * (i / 4) + d2) with (i / 2) in Lb by (unfold d2; lia).
      replace (vd + 0 * N + k) with (vd + k) by ring. rewrite <- Lb.
      rewrite !lane_lane_get. apply lane_get_ext. intros. apply F3.
      destruct Hd2 as [-> | ->]; lia.
    + replace (we + (2 * 1 + d2) * N + k) with (we + 2 * N + d2 * N + k) by ring.
      pose proof (L3 k d2 (i / 4) Hk Hd2 ltac:(lia)) as Lb. cbn [w_spec arg2] in Lb.
      rewrite trunc0, Z.add_0_r in Lb.
      replace (2 * (i / 4) + d2) with (i / 2) in Lb by (unfold d2; lia).
      rewrite Lb. replace (vd + 1 * N + k) with (vd + N + k) by ring.
      rewrite !lane_lane_get. apply lane_get_ext. intros. apply F2. lia.
  - exists rf1, rf2, rf3, rf4. rewrite Hr in E4. auto 10.
Qed.
