(** * Widening, accumulating, pairwise, narrowing, unary and permuting
      vector instructions *)
From Verif Require Import CInt Lane LaneSpec VecModel VecSpec LaneProofs LaneProofs2 LaneProofs3
  LaneProofs4 LaneCor VecProofs VecEl.
From Coq Require Import ZifyBool ZifyNat.
Import ListNotations.
Ltac Zify.zify_post_hook ::= Z.div_mod_to_equations.

Lemma exec_binary_lanes s o scalar strip junk (rf : vregs) (res : Z -> Z -> Z -> Z) :
  let N := nops strip in let Td := v_td s in let dpo := dest_per_op s in
  small Td -> dpo * N <= o_nd o -> wf rf ->
  (forall op (rf2 : vregs), 0 <= op < N ->
     (forall r, (forall op' d, 0 <= op' < op -> 0 <= d < dpo -> r <> o_vd o + (op' + d * N)) ->
        forall j, rf2 r j = rf r j) ->
     op_evals s o scalar N op rf2 (res op)) ->
  (forall op e d, 0 <= op < N -> 0 <= e < elts Td -> 0 <= d < dpo ->
     in_range Td (res op e d) = true) ->
  exists rf', exec_binary s o scalar strip junk rf = Ok rf' /\ wf rf' /\
    only_written (o_vd o) (dpo * N) rf rf' /\
    (forall op d e, 0 <= op < N -> 0 <= d < dpo -> 0 <= e < elts Td ->
       lane Td (rf' (o_vd o + (op + d * N))) e = res op e d).
Proof.
  intros N Td dpo HT Hnd Hwf Hev Hr.
  destruct (exec_binary_ok s o scalar strip junk rf res HT Hnd Hev) as (rf' & He & Hf & Hb).
  exists rf'. split; [exact He|].
  assert (HN : N = 1 \/ N = 4) by (unfold N, nops; destruct strip; auto).
  split; [|split; [exact Hf|]].
  - eapply wf_after; [exact Hwf|exact Hf|]. intros r j Hrr Hj.
    rewrite (result_bytes s rf' (o_vd o) N res); try assumption. apply byte_range.
  - intros op d e Ho Hd Hee. apply result_lane; try assumption. now apply Hr.
Qed.

Lemma dpo12 s : dest_per_op s = 1 \/ dest_per_op s = 2.
Proof. unfold dest_per_op. match goal with |- context [if ?c then _ else _] => destruct c end; auto. Qed.

(** ** Widening *)
Lemma wide_small Td Ts : wide_pair Td Ts -> small Td /\ small Ts.
Proof.
  unfold wide_pair, small. cbn [In]. intros H.
  repeat destruct H as [H|H]; try contradiction; injection H as <- <-; intuition.
Qed.
Lemma wide_sz Td Ts : wide_pair Td Ts ->
  sizeof Td = 2 * sizeof Ts /\ elts Ts = 2 * elts Td /\ is_signed Td = is_signed Ts.
Proof.
  unfold wide_pair. cbn [In]. intros H.
  repeat destruct H as [H|H]; try contradiction; injection H as <- <-; repeat split.
Qed.
Lemma w_lane o Td Ts a b : wide_pair Td Ts -> in_range Ts a = true -> in_range Ts b = true ->
  exists v, w_op o Td Ts a b = Ok v /\ in_range Td v = true /\ w_spec o Td Ts a b v.
Proof.
  intros HW Ra Rb.
  destruct (c12 Td Ts a b HW (R' _ _ Ra) (R' _ _ Rb)) as (Ea & Em & _ & Es & (v & Ev & Mv) & _).
  destruct o; cbn [w_op w_spec].
  - exists (a + b). split; [exact Ea|]. split; [|reflexivity].
    unfold wide_pair in HW. wtypes HW; clear Ea Em Es Ev Mv; rng.
  - exists v. split; [exact Ev|]. split; [exact (mod_range _ _ _ Mv)|]. split; [exact Mv|].
    intros Hs. destruct (Es Hs) as [E _]. rewrite Ev in E. now injection E.
  - exists (a * b). split; [exact Em|]. split; [|reflexivity].
    unfold wide_pair in HW. wtypes HW; prod a b; clear Ea Em Es Ev Mv; rng.
Qed.

Lemma wide_dpo Td Ts s : wide_pair Td Ts -> v_td s = Td -> v_ts2 s = Ts -> v_half s = false ->
  dest_per_op s = 2.
Proof.
  intros HW E1 E2 E3. unfold dest_per_op. rewrite E1, E2, E3.
  destruct (wide_sz _ _ HW) as (E & _). rewrite E.
  assert (sizeof Ts <? 2 * sizeof Ts = true) as -> by (pose proof (sizeof_pos Ts); lia).
  reflexivity.
Qed.

Lemma get2_wide Td Ts s2 scalar N vd rf rf2 op e d : wide_pair Td Ts ->
  second_wide s2 scalar N vd -> 0 <= op < N -> 0 <= e < elts Td -> d = 0 \/ d = 1 ->
  (forall r, ~ (vd <= r < vd + op) -> ~ (vd + N <= r < vd + N + op) -> forall j, rf2 r j = rf r j) ->
  get_src Ts s2 rf2 (if scalar then 0 else op * elts Ts + e * sizeof Td / sizeof Ts + d) =
  Ok (arg2 Ts rf s2 op (2 * e + d)).
Proof.
  intros HW Hs2 Hop He Hd Hag. destruct (wide_small _ _ HW) as [HSd HSs].
  destruct (wide_sz _ _ HW) as (Hsz & Hel & _).
  destruct s2 as [b2 n2|x]; cbn [second_wide arg2] in *.
  - destruct Hs2 as (-> & Hn2 & Hh1 & Hh2).
    replace (op * elts Ts + e * sizeof Td / sizeof Ts + d) with (op * elts Ts + (2 * e + d)).
    + apply get_vec; try assumption; [lia|lia|]. apply Hag; unfold no_hazard in *; lia.
    + rewrite Hsz, Z.mul_assoc, Z.div_mul by (destruct Ts; discriminate). lia.
  - rewrite Hs2. apply get_scal.
Qed.

Theorem widen_exec o Td Ts scalar strip vd nd vs1 n1 s2 junk rf :
  let N := nops strip in
  wide_pair Td Ts -> wf rf -> 2 * N <= nd -> N <= n1 ->
  no_hazard N vd vs1 -> no_hazard N (vd + N) vs1 -> second_wide s2 scalar N vd ->
  exists rf',
    exec (VWiden o Td Ts) scalar strip
      {| o_s0 := SVec vs1 n1; o_s1 := s2; o_vd := vd; o_nd := nd |} junk rf = Ok rf' /\
    wf rf' /\ only_written vd (2 * N) rf rf' /\
    forall k d i, 0 <= k < N -> d = 0 \/ d = 1 -> 0 <= i < nlanes Td ->
      w_spec o Td Ts (lane Ts (rf (vs1 + k)) (2 * i + d)) (arg2 Ts rf s2 k (2 * i + d))
             (lane Td (rf' (vd + d * N + k)) i).
Proof.
  intros N HW Hwf Hnd Hn1 Hh1 Hh2 Hs2. destruct (wide_small _ _ HW) as [HSd HSs].
  destruct (wide_sz _ _ HW) as (Hsz & Hel & _).
  rewrite nlanes_elts by assumption.
  assert (HN : N = 1 \/ N = 4) by (unfold N, nops; destruct strip; auto).
  assert (Hdpo : dest_per_op (sem_widen o Td Ts) = 2) by (now apply (wide_dpo Td Ts)).
  set (res := fun k e d => val (w_op o Td Ts (lane Ts (rf (vs1 + k)) (2 * e + d))
                                     (arg2 Ts rf s2 k (2 * e + d)))).
  assert (Hres : forall k e d,
     w_op o Td Ts (lane Ts (rf (vs1 + k)) (2 * e + d)) (arg2 Ts rf s2 k (2 * e + d)) = Ok (res k e d) /\
     in_range Td (res k e d) = true /\
     w_spec o Td Ts (lane Ts (rf (vs1 + k)) (2 * e + d)) (arg2 Ts rf s2 k (2 * e + d)) (res k e d)).
  { intros k e d. unfold res.
    destruct (w_lane o Td Ts (lane Ts (rf (vs1 + k)) (2 * e + d)) (arg2 Ts rf s2 k (2 * e + d)) HW)
      as (v & -> & H1 & H2); [apply lane_range|apply arg2_range|]. cbn [val]. auto. }
  set (opr := {| o_s0 := SVec vs1 n1; o_s1 := s2; o_vd := vd; o_nd := nd |}).
  cbn [exec].
  destruct (exec_binary_lanes (sem_widen o Td Ts) opr scalar strip junk rf res) as (rf' & He & Hw & Hf & Hb).
  - exact HSd.
  - rewrite Hdpo. exact Hnd.
  - exact Hwf.
  - fold N. rewrite Hdpo. intros op rf2 Hop Hag e d He Hd.
    rewrite Hdpo in Hd. cbn [sem_widen v_td v_get1 v_get2 v_ts1 v_ts2 v_rdest v_op] in *.
    cbn [opr o_vd] in Hag.
    assert (Hag' : forall r, ~ (vd <= r < vd + op) -> ~ (vd + N <= r < vd + N + op) ->
      forall j, rf2 r j = rf r j).
    { intros r H1 H2. apply Hag. intros op' d' H3 H4.
      assert (H5 : d' = 0 \/ d' = 1) by lia. destruct H5 as [-> | ->]; lia. }
    exists (lane Ts (rf (vs1 + op)) (2 * e + d)), (arg2 Ts rf s2 op (2 * e + d)). split; [|split].
    + cbn [common_get1 fst snd src_no opr o_s0 Z.eqb].
      assert ((sizeof Td =? sizeof Ts) && (sizeof Ts =? 2 * sizeof Ts) = false) as ->
        by (pose proof (sizeof_pos Ts); lia).
      replace (op * elts Ts + e * sizeof Td / sizeof Ts + d) with (op * elts Ts + (2 * e + d))
        by (rewrite Hsz, Z.mul_assoc, Z.div_mul by (destruct Ts; discriminate); lia).
      apply get_vec; try assumption; [lia|lia|]. unfold no_hazard in *. apply Hag'; lia.
    + cbn [common_get2 fst snd src_no opr o_s1 Z.eqb].
      apply (get2_wide Td Ts s2 scalar N vd); try assumption. lia.
    + intros dv _. apply Hres.
  - intros. apply Hres.
  - exists rf'. rewrite Hdpo in *. fold N in Hf, Hb. cbn [opr o_vd sem_widen v_td] in *.
    split; [exact He|]. split; [exact Hw|]. split; [exact Hf|].
    intros k d i Hk Hd Hi. replace (vd + d * N + k) with (vd + (k + d * N)) by ring.
    rewrite Hb by (lia || assumption). apply Hres.
Qed.

(** ** vacc: the first operand is a pair of wide groups *)
Theorem acc_exec Td Ts scalar strip vd nd vs1 n1 s2 junk rf :
  let N := nops strip in
  wide_pair Td Ts -> wf rf -> 2 * N <= nd -> 2 * N <= n1 ->
  (forall d d', d = 0 \/ d = 1 -> d' = 0 \/ d' = 1 -> no_hazard N (vd + d * N) (vs1 + d' * N)) ->
  second_wide s2 scalar N vd ->
  exists rf',
    exec (VAcc Td Ts) scalar strip
      {| o_s0 := SVec vs1 n1; o_s1 := s2; o_vd := vd; o_nd := nd |} junk rf = Ok rf' /\
    wf rf' /\ only_written vd (2 * N) rf rf' /\
    forall k d i, 0 <= k < N -> d = 0 \/ d = 1 -> 0 <= i < nlanes Td ->
      is_mod (bits Td) (is_signed Td)
        (lane Td (rf (vs1 + d * N + k)) i + arg2 Ts rf s2 k (2 * i + d))
        (lane Td (rf' (vd + d * N + k)) i).
Proof.
  intros N HW Hwf Hnd Hn1 Hh1 Hs2. destruct (wide_small _ _ HW) as [HSd HSs].
  destruct (wide_sz _ _ HW) as (Hsz & Hel & _).
  rewrite nlanes_elts by assumption.
  assert (HN : N = 1 \/ N = 4) by (unfold N, nops; destruct strip; auto).
  assert (Hdpo : dest_per_op (sem_acc Td Ts) = 2) by (now apply (wide_dpo Td Ts)).
  set (res := fun k e d => val (l_vacc Td Ts (lane Td (rf (vs1 + d * N + k)) e)
                                     (arg2 Ts rf s2 k (2 * e + d)))).
  assert (Hres : forall k e d,
     l_vacc Td Ts (lane Td (rf (vs1 + d * N + k)) e) (arg2 Ts rf s2 k (2 * e + d)) = Ok (res k e d) /\
     is_mod (bits Td) (is_signed Td)
       (lane Td (rf (vs1 + d * N + k)) e + arg2 Ts rf s2 k (2 * e + d)) (res k e d)).
  { intros k e d. unfold res. set (b := arg2 Ts rf s2 k (2 * e + d)).
    assert (Rb : in_range Ts b = true) by apply arg2_range.
    destruct (c12 Td Ts b b HW (R' _ _ Rb) (R' _ _ Rb)) as (_ & _ & _ & _ & _ & _ & H).
    destruct (H (lane Td (rf (vs1 + d * N + k)) e)) as (v & -> & Hv); [apply R', lane_range|].
    cbn [val]. auto. }
  set (opr := {| o_s0 := SVec vs1 n1; o_s1 := s2; o_vd := vd; o_nd := nd |}).
  cbn [exec].
  destruct (exec_binary_lanes (sem_acc Td Ts) opr scalar strip junk rf res) as (rf' & He & Hw & Hf & Hb).
  - exact HSd.
  - rewrite Hdpo. exact Hnd.
  - exact Hwf.
  - fold N. rewrite Hdpo. intros op rf2 Hop Hag e d He Hd.
    rewrite Hdpo in Hd. cbn [sem_acc v_td v_get1 v_get2 v_ts1 v_ts2 v_rdest v_op] in *.
    cbn [opr o_vd] in Hag.
    assert (Hag' : forall r, ~ (vd <= r < vd + op) -> ~ (vd + N <= r < vd + N + op) ->
      forall j, rf2 r j = rf r j).
    { intros r H1 H2. apply Hag. intros op' d' H3 H4.
      assert (H5 : d' = 0 \/ d' = 1) by lia. destruct H5 as [-> | ->]; lia. }
    exists (lane Td (rf (vs1 + d * N + op)) e), (arg2 Ts rf s2 op (2 * e + d)). split; [|split].
    + cbn [common_get1 fst snd src_no opr o_s0 Z.eqb].
      assert ((sizeof Td =? sizeof Td) && (sizeof Td =? 2 * sizeof Ts) = true) as -> by lia.
      replace (op * elts Td + e * sizeof Td / sizeof Td + N * elts Td * d)
        with ((d * N + op) * elts Td + e)
        by (rewrite Z.div_mul by (destruct Td; discriminate); ring).
      rewrite <- Z.add_assoc. apply get_vec; try assumption; [nia|].
      pose proof (Hh1 0 d ltac:(auto) ltac:(lia)) as H0.
      pose proof (Hh1 1 d ltac:(auto) ltac:(lia)) as H1. unfold no_hazard in *. apply Hag'; lia.
    + cbn [common_get2 fst snd src_no opr o_s1 Z.eqb].
      apply (get2_wide Td Ts s2 scalar N vd); try assumption. lia.
    + intros dv _. apply Hres.
  - intros op e d _ _ _. destruct (Hres op e d) as (_ & H). exact (mod_range _ _ _ H).
  - exists rf'. rewrite Hdpo in *. fold N in Hf, Hb. cbn [opr o_vd sem_acc v_td] in *.
    split; [exact He|]. split; [exact Hw|]. split; [exact Hf|].
    intros k d i Hk Hd Hi. replace (vd + d * N + k) with (vd + (k + d * N)) by ring.
    rewrite Hb by (lia || assumption). apply Hres.
Qed.

(** ** Pairwise *)
Theorem pair_exec sub Td Ts scalar strip vd nd vs1 n1 s2 junk rf :
  let N := nops strip in
  wide_pair Td Ts -> wf rf -> N <= nd -> N <= n1 -> no_hazard N vd vs1 ->
  exists rf',
    exec (VPair sub Td Ts) scalar strip
      {| o_s0 := SVec vs1 n1; o_s1 := s2; o_vd := vd; o_nd := nd |} junk rf = Ok rf' /\
    wf rf' /\ only_written vd N rf rf' /\
    forall k i, 0 <= k < N -> 0 <= i < nlanes Td ->
      w_spec (if sub then WSub else WAdd) Td Ts
             (lane Ts (rf (vs1 + k)) (2 * i)) (lane Ts (rf (vs1 + k)) (2 * i + 1))
             (lane Td (rf' (vd + k)) i).
Proof.
  intros N HW Hwf Hnd Hn1 Hh1. destruct (wide_small _ _ HW) as [HSd HSs].
  destruct (wide_sz _ _ HW) as (Hsz & Hel & _).
  rewrite nlanes_elts by assumption.
  assert (HN : N = 1 \/ N = 4) by (unfold N, nops; destruct strip; auto).
  assert (Hdpo : dest_per_op (sem_pair sub Td Ts) = 1).
  { unfold dest_per_op. cbn. now rewrite Bool.andb_false_r. }
  set (o := if sub then WSub else WAdd).
  set (pop := fun a b => if sub then l_vpsub Td Ts a b else l_vpadd Td Ts a b).
  assert (Hpop : forall a b, in_range Ts a = true -> in_range Ts b = true ->
     exists v, pop a b = Ok v /\ in_range Td v = true /\ w_spec o Td Ts a b v).
  { intros a b Ra Rb.
    destruct (c12 Td Ts a b HW (R' _ _ Ra) (R' _ _ Rb)) as (Ea & _ & Ep & Es & _ & (v & Ev & Mv) & _).
    unfold pop, o. destruct sub; cbn [w_spec].
    - exists v. split; [exact Ev|]. split; [exact (mod_range _ _ _ Mv)|]. split; [exact Mv|].
      intros Hs. destruct (Es Hs) as [_ E]. rewrite Ev in E. now injection E.
    - exists (a + b). split; [exact Ep|]. split; [|reflexivity].
      destruct (w_lane WAdd Td Ts a b HW Ra Rb) as (w & _ & Hw & Hv). cbn [w_spec] in Hv. now rewrite <- Hv. }
  set (res := fun k e (d : Z) => val (pop (lane Ts (rf (vs1 + k)) (2 * e)) (lane Ts (rf (vs1 + k)) (2 * e + 1)))).
  assert (Hres : forall k e d,
     pop (lane Ts (rf (vs1 + k)) (2 * e)) (lane Ts (rf (vs1 + k)) (2 * e + 1)) = Ok (res k e d) /\
     in_range Td (res k e d) = true /\
     w_spec o Td Ts (lane Ts (rf (vs1 + k)) (2 * e)) (lane Ts (rf (vs1 + k)) (2 * e + 1)) (res k e d)).
  { intros k e d. unfold res.
    destruct (Hpop (lane Ts (rf (vs1 + k)) (2 * e)) (lane Ts (rf (vs1 + k)) (2 * e + 1)))
      as (v & -> & H1 & H2); [apply lane_range|apply lane_range|]. cbn [val]. auto. }
  set (opr := {| o_s0 := SVec vs1 n1; o_s1 := s2; o_vd := vd; o_nd := nd |}).
  cbn [exec].
  destruct (exec_binary_lanes (sem_pair sub Td Ts) opr false strip junk rf res) as (rf' & He & Hw & Hf & Hb).
  - exact HSd.
  - rewrite Hdpo. fold N. cbn [opr o_nd]. lia.
  - exact Hwf.
  - fold N. rewrite Hdpo. intros op rf2 Hop Hag e d He Hd.
    rewrite Hdpo in Hd. cbn [sem_pair v_td v_get1 v_get2 v_ts1 v_ts2 v_rdest v_op] in *.
    cbn [opr o_vd] in Hag.
    assert (Hag' : forall r, ~ (vd <= r < vd + op) -> forall j, rf2 r j = rf r j).
    { intros r H1. apply Hag. intros op' d' H3 H4. assert (d' = 0) by lia. subst d'. lia. }
    exists (lane Ts (rf (vs1 + op)) (2 * e)), (lane Ts (rf (vs1 + op)) (2 * e + 1)). split; [|split].
    + cbn [packed_get1 fst snd src_no opr o_s0 Z.eqb].
      replace (op * elts Ts + e * sizeof Td / sizeof Ts) with (op * elts Ts + (2 * e))
        by (rewrite Hsz, Z.mul_assoc, Z.div_mul by (destruct Ts; discriminate); lia).
      apply get_vec; try assumption; [lia|lia|]. unfold no_hazard in *. apply Hag'; lia.
    + cbn [packed_get2 fst snd src_no opr o_s0 Z.eqb].
      replace (op * elts Ts + e * sizeof Td / sizeof Ts + 1) with (op * elts Ts + (2 * e + 1))
        by (rewrite Hsz, Z.mul_assoc, Z.div_mul by (destruct Ts; discriminate); lia).
      apply get_vec; try assumption; [lia|lia|]. unfold no_hazard in *. apply Hag'; lia.
    + intros dv _. apply Hres.
  - intros. apply Hres.
  - exists rf'. rewrite Hdpo in *. rewrite Z.mul_1_l in Hf. fold N in Hf, Hb. cbn [opr o_vd sem_pair v_td] in *.
    split; [exact He|]. split; [exact Hw|]. split; [exact Hf|].
    intros k i Hk Hi. replace (vd + k) with (vd + (k + 0 * N)) by ring.
    rewrite Hb by (lia || assumption). apply Hres.
Qed.

(** ** Narrowing *)
Lemma narrow_small Td Ts : narrow_pair Td Ts -> small Td /\ small Ts.
Proof.
  unfold narrow_pair, small. cbn [In]. intros H.
  repeat destruct H as [H|H]; try contradiction; injection H as <- <-; intuition.
Qed.
Lemma narrow_sz Td Ts : narrow_pair Td Ts ->
  (ratio Td Ts = 2 \/ ratio Td Ts = 4) /\ sizeof Ts = ratio Td Ts * sizeof Td /\
  elts Td = ratio Td Ts * elts Ts.
Proof.
  unfold narrow_pair. cbn [In]. intros H.
  repeat destruct H as [H|H]; try contradiction; injection H as <- <-; repeat split; auto.
Qed.
Lemma narrow_reg_eq f e : f = 2 \/ f = 4 -> 0 <= e ->
  (if f =? 2 then if negb (Z.land e 1 =? 0) then 1 else 0 else interleave4 (Z.land e 3)) = narrow_reg f e.
Proof.
  intros Hf He. change 1 with (Z.ones 1) at 1. change 3 with (Z.ones 2) at 1.
  rewrite !Z.land_ones by lia. change (2 ^ 1) with 2. change (2 ^ 2) with 4. unfold narrow_reg.
  destruct Hf as [-> | ->].
  - assert (H : 0 <= e mod 2 < 2) by (apply Z.mod_pos_bound; lia).
    assert (H' : e mod 2 = 0 \/ e mod 2 = 1) by lia.
    destruct H' as [-> | ->]; reflexivity.
  - assert (H : 0 <= e mod 4 < 4) by (apply Z.mod_pos_bound; lia).
    assert (H' : e mod 4 = 0 \/ e mod 4 = 1 \/ e mod 4 = 2 \/ e mod 4 = 3) by lia.
    destruct H' as [-> | [-> | [-> | ->]]]; reflexivity.
Qed.
Lemma narrow_reg_range f e : f = 2 \/ f = 4 -> 0 <= narrow_reg f e < f.
Proof.
  intros Hf. unfold narrow_reg. destruct Hf as [-> | ->].
  - assert (H : 0 <= e mod 2 < 2) by (apply Z.mod_pos_bound; lia).
    assert (H' : e mod 2 = 0 \/ e mod 2 = 1) by lia.
    destruct H' as [-> | ->]; cbn; lia.
  - assert (H : 0 <= e mod 4 < 4) by (apply Z.mod_pos_bound; lia).
    assert (H' : e mod 4 = 0 \/ e mod 4 = 1 \/ e mod 4 = 2 \/ e mod 4 = 3) by lia.
    destruct H' as [-> | [-> | [-> | ->]]]; cbn; lia.
Qed.

Theorem narrow_exec r Td Ts scalar strip vd nd vs1 n1 s2 junk rf :
  let N := nops strip in let f := ratio Td Ts in
  narrow_pair Td Ts -> wf rf -> N <= nd -> f * N <= n1 ->
  (forall m, 0 <= m < f -> no_hazard N vd (vs1 + m * N)) -> second_ok s2 scalar N vd ->
  exists rf',
    exec (VNarrow r Td Ts) scalar strip
      {| o_s0 := SVec vs1 n1; o_s1 := s2; o_vd := vd; o_nd := nd |} junk rf = Ok rf' /\
    wf rf' /\ only_written vd N rf rf' /\
    forall k i, 0 <= k < N -> 0 <= i < nlanes Td ->
      let s := arg2 Td rf s2 k i mod bits Ts in
      lane Td (rf' (vd + k)) i =
      clamp (bits Td) (is_signed Td)
        ((lane Ts (rf (vs1 + narrow_reg f i * N + k)) (i / f)
          + (if r && (0 <? s) then 2 ^ (s - 1) else 0)) / 2 ^ s).
Proof.
  intros N f HW Hwf Hnd Hn1 Hh1 Hs2. destruct (narrow_small _ _ HW) as [HSd HSs].
  destruct (narrow_sz _ _ HW) as (Hf2 & Hsz & Hel). fold f in Hf2, Hsz, Hel.
  rewrite nlanes_elts by assumption.
  assert (HN : N = 1 \/ N = 4) by (unfold N, nops; destruct strip; auto).
  assert (Hdpo : dest_per_op (sem_narrow r Td Ts) = 1).
  { unfold dest_per_op. cbn. now rewrite Z.ltb_irrefl. }
  set (wl := fun k i => lane Ts (rf (vs1 + narrow_reg f i * N + k)) (i / f)).
  set (sp := fun k i => let s := arg2 Td rf s2 k i mod bits Ts in
      clamp (bits Td) (is_signed Td) ((wl k i + (if r && (0 <? s) then 2 ^ (s - 1) else 0)) / 2 ^ s)).
  set (res := fun k e (d : Z) => sp k e).
  set (opr := {| o_s0 := SVec vs1 n1; o_s1 := s2; o_vd := vd; o_nd := nd |}).
  cbn [exec].
  destruct (exec_binary_lanes (sem_narrow r Td Ts) opr scalar strip junk rf res) as (rf' & He & Hw & Hf & Hb).
  - exact HSd.
  - rewrite Hdpo. fold N. cbn [opr o_nd]. lia.
  - exact Hwf.
  - fold N. rewrite Hdpo. intros op rf2 Hop Hag e d He Hd.
    rewrite Hdpo in Hd. cbn [sem_narrow v_td v_get1 v_get2 v_ts1 v_ts2 v_rdest v_op] in *.
    cbn [opr o_vd] in Hag.
    assert (Hag' : forall r, ~ (vd <= r < vd + op) -> forall j, rf2 r j = rf r j).
    { intros q H1. apply Hag. intros op' d' H3 H4. assert (d' = 0) by lia. subst d'. lia. }
    exists (wl op e), (arg2 Td rf s2 op e). split; [|split].
    + cbn [srans_get1 fst snd src_no opr o_s0 Z.eqb].
      pose proof (narrow_reg_range f e Hf2) as Hnr.
      assert (Hie : 0 <= e / f < elts Ts).
      { destruct Hf2 as [E|E]; rewrite E in Hel |- *; lia. }
      match goal with |- get_src _ _ _ ?i = _ =>
        replace i with ((narrow_reg f e * N + op) * elts Ts + e / f) end.
      * unfold wl. rewrite <- Z.add_assoc. apply get_vec; try assumption; [nia|].
        specialize (Hh1 (narrow_reg f e) Hnr). unfold no_hazard in *. apply Hag'; lia.
      * rewrite <- (narrow_reg_eq f e Hf2) by lia.
        replace (e * sizeof Td / sizeof Ts) with (e / f)
          by (rewrite Hsz, Z.mul_comm, (Z.mul_comm f), Z.div_mul_cancel_l;
              [reflexivity|destruct Hf2; lia|destruct Td; discriminate]).
        replace (sizeof Ts / sizeof Td) with f
          by (rewrite Hsz, Z.div_mul; [reflexivity|destruct Td; discriminate]).
        destruct (f =? 2); [destruct (negb (Z.land e 1 =? 0))|]; ring.
    + cbn [common_get2 fst snd src_no opr o_s1 Z.eqb].
      rewrite Z.div_mul by (destruct Td; discriminate).
      assert (d = 0) by lia. subst d. rewrite Z.add_0_r.
      destruct s2 as [b2 n2|x]; cbn [second_ok arg2] in *.
      * destruct Hs2 as (-> & Hn2 & Hh2).
        apply get_vec; try assumption; [lia|]. apply Hag'. unfold no_hazard in Hh2. lia.
      * rewrite Hs2. apply get_scal.
    + intros dv _. unfold res, sp. apply c08; [exact HW|apply R', lane_range|apply R', arg2_range].
  - intros. apply clamp_range.
  - exists rf'. rewrite Hdpo in *. rewrite Z.mul_1_l in Hf. fold N in Hf, Hb. cbn [opr o_vd sem_narrow v_td] in *.
    split; [exact He|]. split; [exact Hw|]. split; [exact Hf|].
    intros k i Hk Hi. replace (vd + k) with (vd + (k + 0 * N)) by ring.
    rewrite Hb by (lia || assumption). reflexivity.
Qed.

(** ** Unary *)
Lemma exec_unary_ok T op_f o strip junk (rf : vregs) (res : Z -> Z -> Z) vs1 n1 vd nd s2 :
  let N := nops strip in
  o = {| o_s0 := SVec vs1 n1; o_s1 := s2; o_vd := vd; o_nd := nd |} ->
  small T -> N <= nd -> N <= n1 -> no_hazard N vd vs1 ->
  (forall k e, op_f (lane T (rf (vs1 + k)) e) = Ok (res k e)) ->
  exists rf', exec_unary {| u_td := T; u_ts := T; u_op := op_f |} o strip junk rf = Ok rf' /\
    only_written vd N rf rf' /\
    (forall k e j, 0 <= k < N -> 0 <= e < elts T -> 0 <= j < sizeof T ->
       rf' (vd + k) (e * sizeof T + j) = byte (res k e) j).
Proof.
  intros N -> HT Hnd Hn1 Hh Hev. unfold exec_unary. change (num_ops strip) with N.
  assert (HN : N = 1 \/ N = 4) by (unfold N, nops; destruct strip; auto).
  pose proof (sizeof_pos T) as Hsz.
  destruct (for_n_inv (S := vregs) (fun op rf2 =>
      (forall r, ~ (vd <= r < vd + op) -> forall j, rf2 r j = rf r j) /\
      (forall k e j, 0 <= k < op -> 0 <= e < elts T -> 0 <= j < sizeof T ->
         rf2 (vd + k) (e * sizeof T + j) = byte (res k e) j))
    (uexec_op {| u_td := T; u_ts := T; u_op := op_f |}
       {| o_s0 := SVec vs1 n1; o_s1 := s2; o_vd := vd; o_nd := nd |} N junk) (Z.to_nat N) rf)
    as (rf' & -> & Hf & Hr).
  - split; [reflexivity|intros; lia].
  - intros op rf2 Hop [Hf Hr]. unfold uexec_op. cbn [o_nd u_td u_ts u_op o_vd].
    assert (op <? nd = true) as -> by lia.
    destruct (for_n_inv (S := vbytes) (fun e b =>
        forall e' j, 0 <= e' < e -> 0 <= j < sizeof T -> b (e' * sizeof T + j) = byte (res op e') j)
      (fun e => uelem_step {| u_td := T; u_ts := T; u_op := op_f |}
         {| o_s0 := SVec vs1 n1; o_s1 := s2; o_vd := vd; o_nd := nd |} N op rf2 e)
      (Z.to_nat (elts T)) (junk op)) as (b & -> & Hb).
    + intros; lia.
    + intros e b He Hb. unfold uelem_step. cbn [u_td u_ts u_op common_get1 fst snd src_no o_s0 Z.eqb].
      assert ((sizeof T =? sizeof T) && (sizeof T =? 2 * sizeof T) = false) as -> by lia.
      rewrite Z.div_mul by lia. rewrite Z.add_0_r.
      rewrite (get_vec T vs1 n1 rf2 rf op e); try assumption; try lia.
      2:{ apply Hf. unfold no_hazard in Hh. lia. }
      cbn [bind]. rewrite Hev. cbn [bind]. eexists. split; [reflexivity|].
      intros e' j He' Hj. destruct (Z.eq_dec e' e) as [->|Hne].
      * now apply lane_put_in.
      * rewrite lane_put_out by nia. apply Hb; lia.
    + cbn [bind]. pose proof (elts_pos T HT). rewrite Z2Nat.id in Hb by lia.
      eexists. split; [reflexivity|]. split.
      * intros r Hrr j. unfold upd. assert (r =? vd + op = false) as -> by lia. apply Hf. lia.
      * intros k e j Hk He Hj. unfold upd. destruct (Z.eq_dec k op) as [->|Hne].
        -- rewrite Z.eqb_refl. now apply Hb.
        -- assert (vd + k =? vd + op = false) as -> by lia. apply Hr; lia.
  - exists rf'. split; [reflexivity|]. rewrite Z2Nat.id in * by lia. split; [exact Hf|exact Hr].
Qed.

Lemma un_small o T : un_legal o T -> small T.
Proof. unfold un_legal, small. destruct o; cbn [In]; intuition. Qed.
Lemma UN_small T : In T [U8; U16; U32] -> small T.
Proof. unfold small. cbn [In]. intuition. Qed.
Lemma small_count T k : small T -> 0 <= k <= bits T -> in_range T k = true.
Proof. intros H Hk. smalls H; cbn [bits] in Hk; unfold in_range, tmin, tmax; cbn; lia. Qed.
Lemma un_lane o T a : un_legal o T -> in_range T a = true ->
  exists v, un_op o T a = Ok v /\ in_range T v = true /\ un_spec o T a v.
Proof.
  intros HL Ra. pose proof (R' _ _ Ra) as Fa. destruct o; cbn [un_legal un_op un_spec] in *.
  - subst T. destruct (c11_not a Fa) as (_ & v & E & F & B). exists v.
    split; [exact E|]. split; [now apply R|]. split; assumption.
  - destruct (c11 T a a HL Fa Fa) as (_ & _ & _ & _ & (k & E & L) & _). exists k.
    split; [exact E|]. split; [|exact L]. apply small_count; [exact (UN_small _ HL)|apply L].
  - destruct (c11 T a a HL Fa Fa) as (_ & _ & _ & (k & E & L) & _ & _). exists k.
    split; [exact E|]. split; [|exact L]. apply small_count; [exact (UN_small _ HL)|apply L].
  - destruct (c11 T a a HL Fa Fa) as (_ & _ & _ & _ & _ & E). eexists.
    split; [exact E|]. split; [|reflexivity].
    assert (H : 0 <= ones (bits T) a <= bits T).
    { unfold ones. pose proof (filter_len (Z.testbit a) (map Z.of_nat (seq 0 (Z.to_nat (bits T))))) as H.
      rewrite map_length, seq_length in H. pose proof (bits_sizeof T). pose proof (sizeof_pos T). lia. }
    apply small_count; [exact (UN_small _ HL)|exact H].
  - subst T. destruct (c11_not a Fa) as (E & _). exists a. auto.
Qed.

Theorem un_exec o T scalar strip vd nd vs1 n1 s2 junk rf :
  let N := nops strip in
  un_legal o T -> wf rf -> N <= nd -> N <= n1 -> no_hazard N vd vs1 ->
  exists rf',
    exec (VUn o T) scalar strip
      {| o_s0 := SVec vs1 n1; o_s1 := s2; o_vd := vd; o_nd := nd |} junk rf = Ok rf' /\
    wf rf' /\ only_written vd N rf rf' /\
    forall k i, 0 <= k < N -> 0 <= i < nlanes T ->
      un_spec o T (lane T (rf (vs1 + k)) i) (lane T (rf' (vd + k)) i).
Proof.
  intros N HL Hwf Hnd Hn1 Hh. pose proof (un_small o T HL) as HT.
  rewrite nlanes_elts by assumption.
  set (res := fun k e => val (un_op o T (lane T (rf (vs1 + k)) e))).
  assert (Hres : forall k e, un_op o T (lane T (rf (vs1 + k)) e) = Ok (res k e) /\
     in_range T (res k e) = true /\ un_spec o T (lane T (rf (vs1 + k)) e) (res k e)).
  { intros k e. unfold res.
    destruct (un_lane o T (lane T (rf (vs1 + k)) e) HL (lane_range _ _ _)) as (v & -> & H).
    cbn [val]. auto. }
  destruct (exec_unary_ok T (un_op o T) _ strip junk rf res vs1 n1 vd nd s2 eq_refl)
    as (rf' & He & Hf & Hb); try assumption.
  { intros. apply Hres. }
  exists rf'. split; [exact He|]. split; [|split; [exact Hf|]].
  - eapply wf_after; [exact Hwf|exact Hf|]. intros r j Hr Hj.
    pose proof (elts_sizeof T HT) as Hz. pose proof (sizeof_pos T).
    replace r with (vd + (r - vd)) by lia.
    assert (Hj2 : j = j / sizeof T * sizeof T + j mod sizeof T) by (rewrite Z.mod_eq by lia; ring).
    rewrite Hj2. rewrite Hb.
    + apply byte_range.
    + fold N. lia.
    + split; [apply Z.div_pos; lia|]. apply Z.div_lt_upper_bound; lia.
    + apply Z.mod_pos_bound. lia.
  - intros k i Hk Hi. rewrite (lane_lane_get T (rf' (vd + k))).
    rewrite (lane_get_bytes T _ i (res k i)) by (intros; now apply Hb).
    rewrite wrap_id by apply Hres. apply Hres.
Qed.
