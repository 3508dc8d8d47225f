(** * Element-wise vector instructions *)
From Verif Require Import CInt Lane LaneSpec VecModel VecSpec LaneProofs LaneProofs2 LaneProofs3
  LaneProofs4 LaneCor VecProofs.
From Coq Require Import ZifyBool ZifyNat.
Import ListNotations.
Ltac Zify.zify_post_hook ::= Z.div_mod_to_equations.

Definition val (x : outcome Z) : Z := match x with Ok v => v | _ => 0 end.

Lemma legal_small o T : el_legal o T = true -> small T.
Proof. unfold small. destruct o, T; cbn; intros H; try discriminate; auto 10. Qed.
Lemma dst_ty_eq o T : el_legal o T = true -> dst_ty o T = el_td o T.
Proof. destruct o, T; (reflexivity || discriminate). Qed.
Lemma legal_td_small o T : el_legal o T = true -> small (el_td o T).
Proof. unfold small. destruct o, T; cbn; intros H; try discriminate; auto 10. Qed.
Lemma td_size o T : sizeof (el_td o T) = sizeof T.
Proof. destruct o, T; reflexivity. Qed.

Definition SG T := In T [I8; I16; I32].
Definition UN T := In T [U8; U16; U32].
Definition AN T := In T [I8; I16; I32] \/ In T [U8; U16; U32].
Lemma SG_intro T : match T with I8 | I16 | I32 => true | _ => false end = true -> SG T.
Proof. unfold SG. destruct T; cbn; intros; try discriminate; auto 10. Qed.
Lemma UN_intro T : match T with U8 | U16 | U32 => true | _ => false end = true -> UN T.
Proof. unfold UN. destruct T; cbn; intros; try discriminate; auto 10. Qed.
Lemma AN_intro T : (match T with I8 | I16 | I32 => true | _ => false end ||
  match T with U8 | U16 | U32 => true | _ => false end) = true -> AN T.
Proof. unfold AN. destruct T; cbn; intros; try discriminate; auto 10. Qed.

Lemma F_R T v : fits (bits T) (is_signed T) v -> in_range T v = true. Proof. apply R. Qed.
Lemma mod_range T x v : is_mod (bits T) (is_signed T) x v -> in_range T v = true.
Proof. intros [H _]. now apply R. Qed.
Lemma clamp_range T x : in_range T (clamp (bits T) (is_signed T) x) = true.
Proof.
  change (clamp (bits T) (is_signed T) x) with (clampT T x). rewrite clampT_eq.
  unfold in_range. destruct T; unfold tmin, tmax; cbn; lia.
Qed.
Lemma bool_range T (P : Prop) (x : outcome Z) : small T ->
  (P /\ x = Ok 1) \/ (~ P /\ x = Ok 0) ->
  exists v, x = Ok v /\ in_range T v = true /\ ((P /\ v = 1) \/ (~ P /\ v = 0)).
Proof.
  intros HT [[H ->]|[H ->]]; eexists; (split; [reflexivity|]); (split; [smalls HT; reflexivity|]); auto.
Qed.

(** One lane. *)
Lemma el_lane o T d a b : el_legal o T = true ->
  in_range T d = true -> in_range T a = true -> in_range T b = true ->
  lane_pre o T a b ->
  exists v, el_op o T d a b = Ok v /\ in_range (el_td o T) v = true /\ lane_spec o T d a b v.
Proof.
  intros HL Rd Ra Rb HP. pose proof (legal_small o T HL) as HS.
  assert (Fd := R' T d Rd). assert (Fa := R' T a Ra). assert (Fb := R' T b Rb).
  destruct o; cbn [el_legal] in HL; cbn [el_op el_td lane_spec] in *.
  all: try (apply SG_intro in HL). all: try (apply UN_intro in HL). all: try (apply AN_intro in HL).
  - destruct (c01 T d a b HL Fd Fa Fb) as ((v & E & M) & _).
    exists v. split; [exact E|split; [exact (mod_range _ _ _ M)|exact M]].
  - destruct (c01 T d a b HL Fd Fa Fb) as (_ & (v & E & M) & _).
    exists v. split; [exact E|split; [exact (mod_range _ _ _ M)|exact M]].
  - destruct (c01 T d a b HL Fd Fa Fb) as (_ & _ & (v & E & M) & _).
    exists v. split; [exact E|split; [exact (mod_range _ _ _ M)|exact M]].
  - apply bool_range; [assumption|]. apply (c03 T a b (or_introl HL) Fa Fb); assumption.
  - apply bool_range; [assumption|]. apply (c03 T a b (or_introl HL) Fa Fb); assumption.
  - apply bool_range; [assumption|]. apply (c03 T a b HL Fa Fb).
  - apply bool_range; [assumption|]. apply (c03 T a b HL Fa Fb).
  - apply bool_range; [assumption|]. apply (c03 T a b HL Fa Fb).
  - apply bool_range; [assumption|]. apply (c03 T a b HL Fa Fb).
  - destruct (c03 T a b HL Fa Fb) as (_ & _ & _ & _ & _ & _ & _ & E & F).
    eexists. split; [exact E|]. split; [|reflexivity]. apply R.
    replace (bits (make_unsigned T)) with (bits T) by (destruct T; reflexivity).
    replace (is_signed (make_unsigned T)) with false by (smalls HS; reflexivity). exact F.
  - destruct (c03 T a b HL Fa Fb) as (_ & _ & _ & _ & _ & E & _).
    eexists. split; [exact E|]. split; [|reflexivity].
    destruct (Z.max_spec a b) as [[_ ->]|[_ ->]]; assumption.
  - destruct (c03 T a b HL Fa Fb) as (_ & _ & _ & _ & _ & _ & E & _).
    eexists. split; [exact E|]. split; [|reflexivity].
    destruct (Z.min_spec a b) as [[_ ->]|[_ ->]]; assumption.
  - destruct (c01 T d a b HL Fd Fa Fb) as (_ & _ & _ & (v & E & M) & _).
    exists v. split; [exact E|split; [exact (mod_range _ _ _ M)|exact M]].
  - eexists. split; [apply (c02 T a b Fa Fb); assumption|]. split; [apply clamp_range|reflexivity].
  - eexists. split; [apply (c02 T a b Fa Fb); assumption|]. split; [apply clamp_range|reflexivity].
  - eexists. split; [apply (c02 T a b Fa Fb); assumption|]. split; [apply clamp_range|reflexivity].
  - eexists. split; [apply (c02 T a b Fa Fb); assumption|]. split; [apply clamp_range|reflexivity].
  - destruct (c04 T round a b HL Fa Fb) as (E & F & _).
    eexists. split; [exact E|]. split; [now apply R|reflexivity].
  - destruct (c04 T round a b HL Fa Fb) as (_ & _ & v & E & M).
    exists v. split; [exact E|split; [exact (mod_range _ _ _ M)|exact M]].
  - destruct (c11 T a b HL Fa Fb) as ((v & E & F & B) & _).
    exists v. split; [exact E|]. split; [now apply R|now split].
  - destruct (c11 T a b HL Fa Fb) as (_ & (v & E & F & B) & _).
    exists v. split; [exact E|]. split; [now apply R|now split].
  - destruct (c11 T a b HL Fa Fb) as (_ & _ & (v & E & F & B) & _).
    exists v. split; [exact E|]. split; [now apply R|now split].
  - destruct (c10 T a b HL Fa Fb) as ((v & E & F & B & _) & _).
    exists v. split; [exact E|]. split; [now apply R|now split].
  - destruct (c10 T a b HL Fa Fb) as (_ & (v & E & F & B & _)).
    exists v. split; [exact E|]. split; [now apply R|now split].
  - destruct (c09 T a b Fa Fb) as (H & _). destruct (H HL) as (v & E & M).
    exists v. replace (is_signed T) with false by (smalls HS; auto; cbn in HL; intuition discriminate).
    split; [exact E|]. split; [|exact M].
    apply (mod_range T (a * 2 ^ (b mod bits T)) v).
    replace (is_signed T) with false by (smalls HS; auto; cbn in HL; intuition discriminate).
    exact M.
  - eexists. split; [now apply (proj2 (proj2 (c09 T a b Fa Fb)))|]. split; [|reflexivity].
    apply div_pow_range; [assumption|]. apply Z.mod_pos_bound. destruct T; reflexivity.
  - eexists. split; [now apply (proj1 (proj2 (c09 T a b Fa Fb)))|]. split; [|reflexivity].
    apply div_pow_range; [assumption|]. apply Z.mod_pos_bound. destruct T; reflexivity.
  - (* bidirectional shift *)
    set (s := wrap (make_signed T) b).
    assert (Hs : is_mod (bits T) true b s).
    { pose proof (wrap_is_mod (make_signed T) b) as H.
      replace (bits (make_signed T)) with (bits T) in H by (destruct T; reflexivity).
      replace (is_signed (make_signed T)) with true in H by (destruct T; reflexivity).
      exact H. }
    eexists. split.
    + apply (c07 T round a b s HL Fa Fb Hs). intros (H1 & H2 & H3). apply HP.
      rewrite <- H3. auto.
    + split; [apply clamp_range|]. intros s' Hs'.
      rewrite (is_mod_unique (bits T) true b s' s); [reflexivity|destruct T; reflexivity|assumption..].
  - destruct (c01 T d a b HL Fd Fa Fb) as (_ & _ & _ & _ & (v & E & M) & _).
    exists v. split; [exact E|split; [exact (mod_range _ _ _ M)|exact M]].
  - eexists. split; [apply (c02 T a b Fa Fb); assumption|]. split; [apply clamp_range|reflexivity].
  - destruct (c05 T round a b HL Fa Fb) as (E & F).
    eexists. split; [exact E|]. split; [now apply R|reflexivity].
  - (* vdmulh *)
    unfold SG in HL.
    pose proof (vdmulh_ok T round round_neg a b HL Ra Rb) as E.
    assert (Hmn : tmin T = - 2 ^ (bits T - 1)) by (types HL; reflexivity).
    assert (Hmx : tmax T = 2 ^ (bits T - 1) - 1) by (types HL; reflexivity).
    eexists. split; [exact E|].
    assert (Hc : (a = - 2 ^ (bits T - 1) /\ b = - 2 ^ (bits T - 1)) \/
                 ~ (a = - 2 ^ (bits T - 1) /\ b = - 2 ^ (bits T - 1))) by lia.
    destruct Hc as [Hc|Hc].
    + assert ((a =? tmin T) && (b =? tmin T) = true) as -> by lia.
      split; [types HL; reflexivity|]. left. intuition.
    + assert ((a =? tmin T) && (b =? tmin T) = false) as -> by lia.
      rewrite (andb_comm (a * b <? 0)). unfold fdiv2.
      split; [|right; split; [assumption|reflexivity]].
      types HL; prod a b;
      match goal with H : in_range ?t a = true |- _ =>
        let h := eval cbv in (half t) in
        pose proof (prod_not_min h a b ltac:(lia) ltac:(rng) ltac:(rng)) as Hq;
        let hh := eval cbv in (h * h - h) in change (h * h - h) with hh in Hq end;
      cbn [bits] in *; zconst; revert Hc; zconst; intros Hc; destruct round, round_neg; cbn [andb];
      try (destruct (a * b <? 0) eqn:?); rng.
  - destruct (c01 T d a b HL Fd Fa Fb) as (_ & _ & _ & _ & _ & (v & E & M) & _).
    exists v. split; [exact E|split; [exact (mod_range _ _ _ M)|exact M]].
  - destruct (c01 T d a b HL Fd Fa Fb) as (_ & _ & _ & _ & _ & _ & (v & E & M)).
    exists v. split; [exact E|split; [exact (mod_range _ _ _ M)|exact M]].
  - eexists. split; [now apply vsel_ok|]. split; [|reflexivity].
    destruct (Z.odd a); assumption.
Qed.

(** Reading a lane through get_src from a register file that agrees on the
    register read. *)
Lemma get_vec T b n rf2 rf k e : small T -> 0 <= k < n -> 0 <= e < elts T ->
  (forall j, rf2 (b + k) j = rf (b + k) j) ->
  get_src T (SVec b n) rf2 (k * elts T + e) = Ok (lane T (rf (b + k)) e).
Proof.
  intros HT Hk He H. pose proof (elts_pos T HT) as Hp. unfold get_src.
  assert (Hd : (k * elts T + e) / elts T = k)
    by (rewrite Z.div_add_l by lia; rewrite Z.div_small by lia; lia).
  assert (Hm : (k * elts T + e) mod elts T = e).
  { rewrite Z.add_comm, Z.mod_add by lia. apply Z.mod_small. lia. }
  rewrite Hd, Hm.
  assert ((0 <=? k * elts T + e) && (k <? n) = true) as -> by nia.
  rewrite lane_lane_get. f_equal. apply lane_get_ext. intros. apply H.
Qed.
(** Same with a flat index. *)
Lemma get_vec_flat T b n rf2 rf idx : small T -> 0 <= idx < n * elts T ->
  (forall j, rf2 (b + idx / elts T) j = rf (b + idx / elts T) j) ->
  get_src T (SVec b n) rf2 idx = Ok (glane T rf b idx).
Proof.
  intros HT Hi H. pose proof (elts_pos T HT) as Hp. unfold glane. rewrite nlanes_elts by assumption.
  rewrite (Z.div_mod idx (elts T)) at 1 by lia. rewrite (Z.mul_comm (elts T)).
  apply get_vec; try assumption.
  - split; [apply Z.div_pos; lia|]. apply Z.div_lt_upper_bound; lia.
  - apply Z.mod_pos_bound. lia.
Qed.
Lemma get_scal T x rf : get_src T (SScal x) rf 0 = Ok (trunc T x).
Proof. cbn. now rewrite trunc_wrap. Qed.

Lemma lane_range T r i : in_range T (lane T r i) = true.
Proof. rewrite lane_lane_get. apply lane_get_range. Qed.
Lemma trunc_range T x : in_range T (trunc T x) = true.
Proof. rewrite trunc_wrap. apply wrap_range. Qed.
Lemma arg2_range T rf s k i : in_range T (arg2 T rf s k i) = true.
Proof. destruct s; [apply lane_range|apply trunc_range]. Qed.

Lemma el_op_irrel o T d d' a b : el_rdest o = false -> el_op o T d a b = el_op o T d' a b.
Proof. destruct o; cbn; intros; try discriminate; reflexivity. Qed.

Lemma wf_after vd n rf rf' : wf rf -> only_written vd n rf rf' ->
  (forall r j, vd <= r < vd + n -> 0 <= j < 32 -> 0 <= rf' r j < 256) -> wf rf'.
Proof.
  intros Hw Ho Hb r j Hj.
  destruct (Z_le_gt_dec vd r), (Z_lt_ge_dec r (vd + n)); try (rewrite Ho by lia; now apply Hw).
  now apply Hb.
Qed.

Lemma el_dpo o T : el_legal o T = true -> dest_per_op (sem_el o T) = 1.
Proof.
  intros H. unfold dest_per_op. cbn [sem_el v_ts2 v_td v_half v_wdst]. rewrite td_size.
  now rewrite Z.ltb_irrefl.
Qed.

Lemma el_exec_b o T scalar strip vd nd vs1 n1 s2 junk rf :
  let N := nops strip in
  el_legal o T = true -> wf rf ->
  N <= nd -> N <= n1 -> no_hazard N vd vs1 -> second_ok s2 scalar N vd ->
  (forall k i, 0 <= k < N -> 0 <= i < nlanes T ->
     lane_pre o T (lane T (rf (vs1 + k)) i) (arg2 T rf s2 k i)) ->
  exists rf',
    exec (VEl o T) scalar strip
      {| o_s0 := SVec vs1 n1; o_s1 := s2; o_vd := vd; o_nd := nd |} junk rf = Ok rf' /\
    wf rf' /\ only_written vd N rf rf' /\
    forall k i, 0 <= k < N -> 0 <= i < nlanes T ->
      lane_spec o T (lane T (rf (vd + k)) i) (lane T (rf (vs1 + k)) i) (arg2 T rf s2 k i)
                (lane (dst_ty o T) (rf' (vd + k)) i) /\
      forall j, 0 <= j < sizeof T ->
        rf' (vd + k) (i * sizeof T + j) =
        byte (val (el_op o T (lane T (rf (vd + k)) i) (lane T (rf (vs1 + k)) i)
                         (arg2 T rf s2 k i))) j.
Proof.
  intros N HL Hwf Hnd Hn1 Hh1 Hs2 Hpre.
  pose proof (legal_small o T HL) as HS. pose proof (legal_td_small o T HL) as HSd.
  assert (Helt : elts (el_td o T) = elts T) by (unfold elts; now rewrite td_size).
  rewrite nlanes_elts in * by assumption. rewrite dst_ty_eq by assumption.
  assert (HN : N = 1 \/ N = 4) by (unfold N, nops; destruct strip; auto).
  set (opr := {| o_s0 := SVec vs1 n1; o_s1 := s2; o_vd := vd; o_nd := nd |}).
  cbn [exec].
  set (res := fun k e (d : Z) => val (el_op o T (lane T (rf (vd + k)) e) (lane T (rf (vs1 + k)) e)
                                 (arg2 T rf s2 k e))).
  assert (Hres : forall k e, 0 <= k < N -> 0 <= e < elts T ->
     el_op o T (lane T (rf (vd + k)) e) (lane T (rf (vs1 + k)) e) (arg2 T rf s2 k e) =
     Ok (res k e 0) /\ in_range (el_td o T) (res k e 0) = true /\
     lane_spec o T (lane T (rf (vd + k)) e) (lane T (rf (vs1 + k)) e) (arg2 T rf s2 k e) (res k e 0)).
  { intros k e Hk He. unfold res.
    destruct (el_lane o T (lane T (rf (vd + k)) e) (lane T (rf (vs1 + k)) e) (arg2 T rf s2 k e) HL)
      as (v & Hv & Hr & Hsp);
      [apply lane_range|apply lane_range|apply arg2_range|now apply Hpre|].
    rewrite Hv. cbn [val]. auto. }
  pose proof (el_dpo o T HL) as Hdpo.
  destruct (exec_binary_ok (sem_el o T) opr scalar strip junk rf res) as (rf' & He & Hf & Hb).
  - exact HSd.
  - rewrite Hdpo. fold N. cbn [opr o_nd]. lia.
  - fold N. intros op rf2 Hop Hag. rewrite Hdpo in *.
    assert (Hag' : forall r, ~ (vd <= r < vd + op) -> forall j, rf2 r j = rf r j).
    { intros r Hr. apply Hag. cbn [opr o_vd]. intros; lia. }
    intros e d He Hd. cbn [sem_el v_td v_get1 v_get2 v_ts1 v_ts2 v_rdest v_op] in *.
    rewrite Hdpo in Hd. assert (d = 0) by lia. subst d. rewrite Helt in He.
    exists (lane T (rf (vs1 + op)) e), (arg2 T rf s2 op e). split; [|split].
    + cbn [common_get1 fst snd src_no opr o_s0 Z.eqb].
      rewrite td_size.
      assert ((sizeof T =? sizeof T) && (sizeof T =? 2 * sizeof T) = false) as ->
        by (destruct T; reflexivity).
      rewrite Z.div_mul by (destruct T; discriminate). rewrite Z.add_0_r.
      apply get_vec; try assumption; [lia|]. apply Hag'. unfold no_hazard in Hh1. lia.
    + cbn [common_get2 fst snd src_no opr o_s1 Z.eqb]. rewrite td_size.
      rewrite Z.div_mul by (destruct T; discriminate). rewrite Z.add_0_r.
      destruct s2 as [b2 n2|x]; cbn [second_ok arg2] in *.
      * destruct Hs2 as (-> & Hn2 & Hh2).
        apply get_vec; try assumption; [lia|]. apply Hag'. unfold no_hazard in Hh2. lia.
      * rewrite Hs2. apply get_scal.
    + intros dv Hdv. destruct (Hres op e ltac:(lia) He) as (E & _).
      destruct (el_rdest o) eqn:Erd.
      * rewrite Hdv by reflexivity. cbn [opr o_vd]. rewrite Z.mul_0_l, Z.add_0_r.
        assert (Htd : el_td o T = T) by (destruct o; cbn in Erd |- *; (discriminate || reflexivity)).
        rewrite Htd.
        replace (lane_get T (rf2 (vd + op)) e) with (lane T (rf (vd + op)) e); [exact E|].
        rewrite lane_lane_get. apply lane_get_ext. intros. symmetry. apply Hag'. lia.
      * rewrite (el_op_irrel _ _ dv (lane T (rf (vd + op)) e)) by assumption. exact E.
  - exists rf'. rewrite Hdpo in *. rewrite Z.mul_1_l in Hf. fold N in Hf, Hb.
    cbn [opr o_vd sem_el v_td] in *.
    split; [exact He|]. split; [|split; [exact Hf|]].
    + eapply wf_after; [exact Hwf|exact Hf|]. intros r j Hr Hj.
      rewrite (result_bytes (sem_el o T) rf' vd N res); try assumption.
      * apply byte_range.
      * rewrite Hdpo. exact Hb.
      * rewrite Hdpo. lia.
    + intros k i Hk Hi. destruct (Hres k i Hk Hi) as (_ & Hr & Hsp). split.
      2:{ intros j Hj. pose proof (Hb k 0 i j Hk ltac:(lia)) as Hx.
          rewrite Helt, td_size, Z.mul_0_l, Z.add_0_r in Hx. now apply Hx. }
      pose proof (result_lane (sem_el o T) rf' vd N res k 0 i) as HL'.
      cbn [sem_el v_td] in HL'. rewrite Hdpo, Z.mul_0_l, Z.add_0_r, Helt in HL'.
      rewrite HL'; try assumption; try lia. rewrite Helt in Hb. exact Hb.
Qed.

Theorem el_exec o T scalar strip vd nd vs1 n1 s2 junk rf :
  let N := nops strip in
  el_legal o T = true -> wf rf ->
  N <= nd -> N <= n1 -> no_hazard N vd vs1 -> second_ok s2 scalar N vd ->
  (forall k i, 0 <= k < N -> 0 <= i < nlanes T ->
     lane_pre o T (lane T (rf (vs1 + k)) i) (arg2 T rf s2 k i)) ->
  exists rf',
    exec (VEl o T) scalar strip
      {| o_s0 := SVec vs1 n1; o_s1 := s2; o_vd := vd; o_nd := nd |} junk rf = Ok rf' /\
    wf rf' /\ only_written vd N rf rf' /\
    forall k i, 0 <= k < N -> 0 <= i < nlanes T ->
      lane_spec o T (lane T (rf (vd + k)) i) (lane T (rf (vs1 + k)) i) (arg2 T rf s2 k i)
                (lane (dst_ty o T) (rf' (vd + k)) i).
Proof.
  intros N HL Hwf Hnd Hn1 Hh1 Hs2 Hpre.
  destruct (el_exec_b o T scalar strip vd nd vs1 n1 s2 junk rf HL Hwf Hnd Hn1 Hh1 Hs2 Hpre)
    as (rf' & H1 & H2 & H3 & H4).
  exists rf'. repeat (split; [assumption|]). intros k i Hk Hi. now apply H4.
Qed.

(** Strip mining: register k of the result is what the single-register
    instruction computes from the initial contents. *)
Lemma el_strip o T scalar vd nd vs1 n1 s2 junk junk' rf :
  el_legal o T = true -> wf rf ->
  4 <= nd -> 4 <= n1 -> no_hazard 4 vd vs1 -> second_ok s2 scalar 4 vd ->
  (forall k i, 0 <= k < 4 -> 0 <= i < nlanes T ->
     lane_pre o T (lane T (rf (vs1 + k)) i) (arg2 T rf s2 k i)) ->
  exists rf',
    exec (VEl o T) scalar true
      {| o_s0 := SVec vs1 n1; o_s1 := s2; o_vd := vd; o_nd := nd |} junk rf = Ok rf' /\
    forall k, 0 <= k < 4 -> exists rfk,
      exec (VEl o T) scalar false
        {| o_s0 := SVec (vs1 + k) 1; o_s1 := shift_src s2 k; o_vd := vd + k; o_nd := 1 |} junk' rf
        = Ok rfk /\
      forall j, 0 <= j < 32 -> rf' (vd + k) j = rfk (vd + k) j.
Proof.
  intros HL Hwf Hnd Hn1 Hh1 Hs2 Hpre.
  destruct (el_exec_b o T scalar true vd nd vs1 n1 s2 junk rf HL Hwf Hnd Hn1 Hh1 Hs2 Hpre)
    as (rf' & H1 & H2 & H3 & H4).
  exists rf'. split; [exact H1|]. intros k Hk.
  assert (Ha : forall i, arg2 T rf (shift_src s2 k) 0 i = arg2 T rf s2 k i).
  { intros i. destruct s2; cbn [shift_src arg2]; [now rewrite Z.add_0_r|reflexivity]. }
  destruct (el_exec_b o T scalar false (vd + k) 1 (vs1 + k) 1 (shift_src s2 k) junk' rf HL Hwf)
    as (rfk & K1 & K2 & K3 & K4); try (cbn [nops]; lia).
  - unfold no_hazard. cbn [nops]. lia.
  - destruct s2; cbn [shift_src second_ok] in *; [|assumption].
    destruct Hs2 as (-> & _). split; [reflexivity|].
    unfold no_hazard. cbn [nops]. lia.
  - cbn [nops]. intros k' i Hk' Hi. assert (k' = 0) by lia. subst k'. rewrite Z.add_0_r, Ha.
    now apply Hpre.
  - exists rfk. split; [exact K1|]. intros j Hj.
    pose proof (legal_small o T HL) as HS.
    pose proof (elts_sizeof T HS) as He. pose proof (sizeof_pos T) as Hz.
    assert (Hj2 : j = j / sizeof T * sizeof T + j mod sizeof T) by (rewrite Z.mod_eq by lia; ring).
    rewrite Hj2. cbn [nops] in *. rewrite nlanes_elts in * by assumption.
    assert (Hi : 0 <= j / sizeof T < elts T)
      by (split; [apply Z.div_pos; lia|apply Z.div_lt_upper_bound; lia]).
    assert (Hm : 0 <= j mod sizeof T < sizeof T) by (apply Z.mod_pos_bound; lia).
    destruct (H4 k (j / sizeof T) Hk Hi) as (_ & Hx). rewrite Hx by assumption.
    destruct (K4 0 (j / sizeof T) ltac:(lia) Hi) as (_ & Hy).
    specialize (Hy (j mod sizeof T) Hm). rewrite Z.add_0_r in Hy. rewrite Hy.
    rewrite Z.add_0_r, Ha. reflexivity.
Qed.
