(** * Lane operations: bidirectional shift, reverse, rotate, counting *)
From Verif Require Import CInt Lane LaneSpec LaneProofs LaneProofs2.
From Coq Require Import ZifyBool ZifyNat.
Ltac Zify.zify_post_hook ::= Z.div_mod_to_equations.

(** ** C07 *)
(** Shift amount as a signed number. *)
Definition shift_of (T : ity) (b : Z) : Z := wrap (make_signed T) b.

Lemma mul_wrap_l t u x y : bits t <= bits u -> wrap t (wrap u x * y) = wrap t (x * y).
Proof.
  intros H. destruct (wrap_cong u x) as [k Hk]. rewrite Hk.
  apply (wrap_eqm t _ _ (k * 2 ^ (bits u - bits t) * y)).
  rewrite !modulus_pow.
  replace (2 ^ bits u) with (2 ^ (bits u - bits t) * 2 ^ bits t).
  - ring.
  - rewrite <- Z.pow_add_r; [f_equal; lia|lia|destruct t; cbn; lia].
Qed.

(** [1ll << (s-1)] and [1ull << (s-1)] for 1 <= s <= 32. *)
Lemma one_shl (ty : ity) s : ty = I64 \/ ty = U64 -> 0 <= s <= 31 ->
  c_shl (CV ty 1) (CV I32 s) = Ok (CV ty (2 ^ s)).
Proof.
  intros Ht Hs. pose proof (pow2_bounds _ _ Hs) as HP.
  change (2 ^ 31) with 2147483648 in HP.
  destruct Ht as [-> | ->]; unfold c_shl; cbn [cty cval promote bits is_signed].
  - rewrite (wrap_id I64 1) by reflexivity. rewrite Z.mul_1_l.
    assert (E : (s <? 0) || (64 <=? s) = false) by lia. rewrite E.
    assert (E2 : (1 <? 0) || (modulus I64 <=? 2 ^ s) = false) by (cbn [modulus]; lia).
    rewrite E2. now rewrite wrap_id by rng.
  - rewrite (wrap_id U64 1) by reflexivity. rewrite Z.mul_1_l.
    assert (E : (s <? 0) || (64 <=? s) = false) by lia. rewrite E.
    now rewrite wrap_id by rng.
Qed.

(** Left shift of a lane value in the unsigned wide type is exact. *)
Lemma wide_shl T a s : In T all6 -> in_range T a = true -> 0 <= s <= bits T ->
  exists v, c_shl (CV (wide (make_unsigned T)) (wrap (wide (make_unsigned T)) a))
                  (CV (make_unsigned T) s) = Ok v /\
            wrap (wide T) (cval v) = a * 2 ^ s.
Proof.
  intros HT Ha Hs. pose proof (pow2_bounds _ _ Hs) as HP.
  assert (Hr : in_range (wide T) (a * 2 ^ s) = true).
  { types HT; cbn [bits wide] in *; zconst; unfold in_range, tmin, tmax in *;
    cbn [is_signed half modulus] in *;
    match type of HP with _ <= _ <= ?x =>
      let v := eval cbv in x in change x with v in HP end;
    set (P := 2 ^ s) in *; clearbody P; nia. }
  unfold c_shl. cbn [cty cval].
  assert (E : (s <? 0) || (bits (promote (wide (make_unsigned T))) <=? s) = false)
    by (types HT; cbn [make_unsigned wide promote bits] in *; lia).
  rewrite E. clear E.
  types HT; cbn [make_unsigned wide promote is_signed bits] in *.
  all: try (eexists; split; [reflexivity|]; cbn [cval];
    rewrite wrap_wrap by (cbn; lia); rewrite mul_wrap_l by (cbn; lia);
    rewrite mul_wrap_l by (cbn; lia); rewrite wrap_id; [reflexivity|assumption]).
  all: rewrite (wrap_id I32 (wrap U16 a))
    by (pose proof (wrap_range U16 a); rng).
  all: assert (E : (wrap U16 a <? 0) || (modulus I32 <=? wrap U16 a * 2 ^ s) = false)
    by (pose proof (wrap_range U16 a) as Hw; change (2 ^ 8) with 256 in HP;
        unfold in_range, tmin, tmax in Hw; cbn [is_signed half modulus] in *;
        set (w := wrap U16 a) in *; clearbody w;
        set (P := 2 ^ s) in *; clearbody P; nia).
  all: rewrite E; eexists; split; [reflexivity|]; cbn [cval];
    rewrite wrap_wrap by (cbn; lia); rewrite mul_wrap_l by (cbn; lia);
    rewrite wrap_id; [reflexivity|assumption].
Qed.

(** Sum with the rounding constant, then right shift, in the wide type. *)
Lemma wide_shr T a s (R : cv) r : In T all6 -> in_range T a = true -> 1 <= s <= bits T ->
  (if is_signed T then s < bits T else True) ->
  cval R = r -> 0 <= r <= 2 ^ (s - 1) -> In (cty R) [wide T; I32] ->
  (v <- c_add (cast (wide T) (CV T a)) (cast (uac (wide T) I32) R) ;;
   v <- c_shr v (CV I32 s) ;; Ok (cast (wide T) v)) =
  Ok (CV (wide T) ((a + r) / 2 ^ s)).
Proof.
  intros HT Ha Hs Hs2 HRv HR HRt.
  destruct R as [tr vr]. cbn [cval cty] in *. subst vr.
  assert (Hb : 0 <= r <= 2 ^ (bits T - 1)).
  { split; [lia|]. etransitivity; [apply HR|]. apply Z.pow_le_mono_r; lia. }
  pose proof (rshift_range (tmin T) (tmax T)) as _.
  assert (HA : exists t, c_add (cast (wide T) (CV T a)) (cast (uac (wide T) I32) (CV tr r))
               = Ok (CV t (a + r)) /\ wrap (promote t) (a + r) = a + r
                 /\ bits T < bits (promote t) /\ in_range (wide T) (a + r) = true).
  { clear HR Hs Hs2. types HT; cbn [wide uac promote bits] in *;
    match type of Hb with _ <= _ <= ?x =>
      let v := eval cbv in x in change x with v in Hb end;
    unfold cast, c_add, arith, arith_result;
    cbn [cty cval uac promote is_signed]; repeat wsimp1.
    all: try (assert (Hi : in_range I32 (a + r) = true) by rng; rewrite Hi).
    all: try (assert (Hi : in_range I64 (a + r) = true) by rng; rewrite Hi).
    all: eexists; split; [reflexivity|]; cbn [promote bits]; repeat split; try lia;
      try (apply wrap_id); rng. }
  destruct HA as (t & -> & Ht & Htb & Hw). cbn [bind].
  unfold c_shr. cbn [cty cval]. rewrite Ht.
  assert (E : (s <? 0) || (bits (promote t) <=? s) = false) by lia.
  rewrite E. cbn [bind]. unfold cast. cbn [cval]. do 2 f_equal.
  apply wrap_id. apply div_pow_range; [assumption|lia].
Qed.

Lemma cond_eq (c : bool) {A} (x y z : A) : (c = true -> x = z) -> (c = false -> y = z) ->
  (if c then x else y) = z.
Proof. destruct c; auto. Qed.

(** Comparison of two values that both fit the common type. *)
Lemma c_cmp_fit f x y : wrap (uac (cty x) (cty y)) (cval x) = cval x ->
  wrap (uac (cty x) (cty y)) (cval y) = cval y -> c_cmp f x y = f (cval x) (cval y).
Proof. intros H1 H2. unfold c_cmp. now rewrite H1, H2. Qed.

Lemma div_round_zero x s : 1 <= s -> - 2 ^ (s - 1) <= x < 2 ^ (s - 1) ->
  (x + 2 ^ (s - 1)) / 2 ^ s = 0.
Proof. intros Hs Hx. apply Z.div_small. rewrite (pow2_double s) by lia. lia. Qed.

Lemma vshift_signed_ok T r a b : In T signed3 ->
  in_range T a = true -> in_range T b = true ->
  a = 0 \/ b <> - 2 ^ 31 ->
  l_vshift T r a b = Ok (clampT T (shift_exact r a b)).
Proof.
  intros HT Ha Hb Hmin. rewrite clampT_eq.
  assert (Hn : 8 <= bits T <= 32) by (types HT; cbn; lia).
  assert (Hsz : sizeof T * 8 = bits T) by (types HT; reflexivity).
  assert (Hsg : is_signed T = true) by (types HT; reflexivity).
  assert (Hmm : tmin T = - 2 ^ (bits T - 1) /\ tmax T = 2 ^ (bits T - 1) - 1)
    by (types HT; split; reflexivity).
  assert (HT6 : In T all6) by (types HT; cbn; auto 8).
  assert (Hb32 : in_range I32 b = true) by (types HT; rng).
  assert (Ha32 : in_range I32 a = true) by (types HT; rng).
  assert (HuT : uac T I32 = I32) by (types HT; reflexivity).
  assert (Ha' : tmin T <= a <= tmax T) by (unfold in_range in Ha; lia).
  unfold l_vshift. cbv zeta. rewrite Hsg, Hsz.
  assert (HC : cast I32 (CV T b) = CV I32 b)
    by (unfold cast; cbn [cval]; now rewrite wrap_id).
  rewrite HC. clear HC.
  unfold c_true at 1. cbn [cval]. rewrite negb_involutive.
  destruct (a =? 0) eqn:Ea0.
  { assert (a = 0) by lia. subst a. unfold ret, cast, lit. cbn [cval].
    rewrite wrap_id by (types HT; reflexivity). f_equal.
    unfold shift_exact, fdiv2. destruct (0 <? b) eqn:Eb.
    - destruct r.
      + rewrite div_round_zero; [lia|lia|].
        pose proof (Z.pow_pos_nonneg 2 (b - 1)). lia.
      + rewrite Z.add_0_l, Z.div_0_l; [lia|]. pose proof (Z.pow_pos_nonneg 2 b). lia.
    - rewrite Z.mul_0_l. lia. }
  assert (Hbm : b <> - 2 ^ 31) by (destruct Hmin; [lia|assumption]).
  change (2 ^ 31) with 2147483648 in Hbm.
  (* comparisons *)
  assert (C1 : c_lt (CV T a) (lit 0) = (a <? 0)).
  { unfold c_lt. rewrite c_cmp_fit; cbn [cty cval lit]; [reflexivity| |];
    rewrite HuT; apply wrap_id; [assumption|reflexivity]. }
  assert (C2 : c_gt (CV T a) (lit 0) = (0 <? a)).
  { unfold c_gt. rewrite c_cmp_fit; cbn [cty cval lit]; [reflexivity| |];
    rewrite HuT; apply wrap_id; [assumption|reflexivity]. }
  assert (C3 : c_ge (CV I32 b) (lit (bits T)) = (bits T <=? b)).
  { unfold c_ge. rewrite c_cmp_fit; cbn [cty cval lit uac promote]; [reflexivity| |];
    apply wrap_id; [assumption|rng]. }
  assert (C4 : c_gt (CV I32 b) (lit 0) = (0 <? b)).
  { unfold c_gt. rewrite c_cmp_fit; cbn [cty cval lit uac promote]; [reflexivity| |];
    apply wrap_id; [assumption|reflexivity]. }
  assert (C5 : c_neg (lit (bits T)) = Ok (CV I32 (- bits T))).
  { unfold c_neg, arith_result, lit. cbn [cty cval promote is_signed].
    rewrite wrap_id by rng.
    assert (E : in_range I32 (- bits T) = true) by rng. now rewrite E. }
  assert (C6 : c_le (CV I32 b) (CV I32 (- bits T)) = (b <=? - bits T)).
  { unfold c_le. rewrite c_cmp_fit; cbn [cty cval uac promote]; [reflexivity| |];
    apply wrap_id; [assumption|rng]. }
  rewrite C1, C2, C3, C4.
  (* value of [shift] *)
  set (sh := if (a <? 0) && (bits T <=? b) then (if r then 0 else -1)
             else if (0 <? a) && (bits T <=? b) then 0
             else if 0 <? b then (a + (if r then 2 ^ (b - 1) else 0)) / 2 ^ b
             else a * 2 ^ (Z.min (- b) (bits T))).
  match goal with |- bind ?e _ = _ => assert (HSH : e = Ok (CV (wide T) sh)) end.
  { unfold sh. destruct ((a <? 0) && (bits T <=? b)) eqn:B1.
    { destruct r; types HT; reflexivity. }
    destruct ((0 <? a) && (bits T <=? b)) eqn:B2.
    { types HT; reflexivity. }
    destruct (0 <? b) eqn:B3.
    - assert (Hbr : 1 <= b <= bits T - 1) by lia.
      match goal with |- bind ?e _ = _ =>
        assert (HRND : exists R, e = Ok R /\ cval R = (if r then 2 ^ (b - 1) else 0)
           /\ In (cty R) [wide T; I32]) end.
      { destruct r.
        - assert (Hc : c_sub (CV I32 b) (lit 1) = Ok (CV I32 (b - 1))).
          { unfold c_sub, arith, arith_result, lit. cbn [cty cval uac promote is_signed].
            rewrite (wrap_id I32 b), (wrap_id I32 1) by (assumption || reflexivity).
            assert (E : in_range I32 (b - 1) = true) by rng. now rewrite E. }
          rewrite Hc. cbn [bind]. unfold llit. rewrite one_shl by (auto; lia).
          cbn [bind]. eexists. split; [reflexivity|]. unfold cast. cbn [cval cty].
          split; [|cbn; auto].
          apply wrap_id.
          assert (Hp : 1 <= 2 ^ (b - 1) <= 2 ^ (bits T - 2)) by (apply pow2_bounds; lia).
          types HT; cbn [bits wide] in *;
          match type of Hp with _ <= _ <= ?x =>
            let v := eval cbv in x in change x with v in Hp end; rng.
        - eexists. split; [reflexivity|]. cbn; auto. }
      destruct HRND as (R & -> & HRv & HRt). cbn [bind].
      apply wide_shr; try assumption; try lia.
      + rewrite Hsg. lia.
      + destruct r; pose proof (Z.pow_pos_nonneg 2 (b - 1)); lia.
    - assert (Hneg : c_neg (CV I32 b) = Ok (CV I32 (- b))).
      { unfold c_neg, arith_result. cbn [cty cval promote is_signed].
        rewrite wrap_id by assumption.
        assert (E : in_range I32 (- b) = true) by rng. now rewrite E. }
      rewrite Hneg. cbn [bind].
      assert (C7 : c_le (CV I32 (- b)) (lit (bits T)) = (- b <=? bits T)).
      { unfold c_le. rewrite c_cmp_fit; cbn [cty cval lit uac promote]; [reflexivity| |];
        apply wrap_id; rng. }
      rewrite C7.
      match goal with |- bind ?e _ = _ =>
        assert (HU : e = Ok (CV (make_unsigned T) (Z.min (- b) (bits T)))) end.
      { unfold lit. destruct (- b <=? bits T) eqn:Eb; cbn [bind]; unfold cast; cbn [cval];
        do 2 f_equal; [rewrite Z.min_l by lia|rewrite Z.min_r by lia];
        apply wrap_id; types HT; cbn [make_unsigned bits] in *; rng. }
      rewrite HU. cbn [bind]. set (m := Z.min (- b) (bits T)).
      assert (Hm : 0 <= m <= bits T) by lia.
      assert (K1 : c_le (CV (make_unsigned T) m) (lit (bits T)) = true).
      { unfold c_le. rewrite c_cmp_fit; cbn [cty cval lit]; [lia| |];
        apply wrap_id; types HT; cbn [make_unsigned uac promote bits] in *; rng. }
      assert (K2 : c_ge (CV (make_unsigned T) m) (lit 0) = true).
      { unfold c_ge. rewrite c_cmp_fit; cbn [cty cval lit]; [lia| |];
        apply wrap_id; types HT; cbn [make_unsigned uac promote bits] in *; rng. }
      rewrite K1, K2. cbn [check bind].
      destruct (wide_shl T a m HT6 Ha Hm) as (v & Hv & Hvv).
      unfold cast at 1. cbn [cval]. rewrite Hv. cbn [bind]. unfold cast. now rewrite Hvv. }
  rewrite HSH. clear HSH. cbn [bind]. rewrite C5. cbn [bind]. rewrite C6.
  (* bounds of sh *)
  assert (Hshr : in_range (wide T) sh = true).
  { unfold sh. destruct ((a <? 0) && (bits T <=? b)) eqn:B1.
    { destruct r; types HT; reflexivity. }
    destruct ((0 <? a) && (bits T <=? b)) eqn:B2.
    { types HT; reflexivity. }
    destruct (0 <? b) eqn:B3.
    - apply div_pow_range; [|lia].
      assert (Hp : 0 <= (if r then 2 ^ (b - 1) else 0) <= 2 ^ (bits T - 2)).
      { destruct r; [|pose proof (Z.pow_pos_nonneg 2 (bits T - 2)); lia].
        pose proof (pow2_bounds (b - 1) (bits T - 2)). lia. }
      set (R := if r then 2 ^ (b - 1) else 0) in *. clearbody R.
      clear sh. types HT; cbn [bits wide] in *;
      match type of Hp with _ <= _ <= ?x =>
            let v := eval cbv in x in change x with v in Hp end; rng.
    - set (m := Z.min (- b) (bits T)). assert (Hm : 0 <= m <= bits T) by lia.
      destruct (wide_shl T a m HT6 Ha Hm) as (v & Hv & Hvv).
      rewrite <- Hvv. apply wrap_range. }
  assert (C8 : c_lt (CV (wide T) sh) (lim_min T) = (sh <? tmin T)).
  { unfold c_lt, lim_min. rewrite c_cmp_fit; cbn [cty cval]; [reflexivity| |];
    apply wrap_id; clear -HT Hshr; types HT; cbn [wide uac promote] in *;
    try reflexivity; rng. }
  assert (C9 : c_gt (CV (wide T) sh) (lim_max T) = (tmax T <? sh)).
  { unfold c_gt, lim_max. rewrite c_cmp_fit; cbn [cty cval]; [reflexivity| |];
    apply wrap_id; clear -HT Hshr; types HT; cbn [wide uac promote] in *;
    try reflexivity; rng. }
  rewrite C8, C9.
  unfold ret, cast, lim_min, lim_max. cbn [cval].
  rewrite (wrap_id T (tmin T)) by (types HT; reflexivity).
  rewrite (wrap_id T (tmax T)) by (types HT; reflexivity).
  (* relate sh to the exact shift *)
  destruct Hmm as [Hlo Hhi].
  assert (HP0 : 0 < 2 ^ (bits T - 1)) by (apply Z.pow_pos_nonneg; lia).
  assert (Hex : b <= - bits T \/ sh = shift_exact r a b).
  { unfold sh, shift_exact, fdiv2.
    destruct ((a <? 0) && (bits T <=? b)) eqn:B1.
    - right. assert (0 <? b = true) as -> by lia.
      assert (2 ^ (bits T - 1) <= 2 ^ (b - 1)) by (apply Z.pow_le_mono_r; lia).
      destruct r.
      + symmetry. apply div_round_zero; lia.
      + rewrite Z.add_0_r. rewrite (pow2_double b) by lia.
        apply Z.div_unique with (r := a + 2 * 2 ^ (b - 1)); lia.
    - destruct ((0 <? a) && (bits T <=? b)) eqn:B2.
      + right. assert (0 <? b = true) as -> by lia.
        assert (2 ^ (bits T - 1) <= 2 ^ (b - 1)) by (apply Z.pow_le_mono_r; lia).
        destruct r.
        * symmetry. apply div_round_zero; lia.
        * rewrite Z.add_0_r, Z.div_small; [reflexivity|].
          rewrite (pow2_double b) by lia. lia.
      + destruct (0 <? b) eqn:B3; [right; reflexivity|].
        destruct (Z.le_gt_cases b (- bits T)); [left; assumption|right].
        now rewrite Z.min_l by lia. }
  destruct (Z.le_gt_cases b (- bits T)) as [Hlow|Hlow].
  - assert (Hbig : shift_exact r a b = a * 2 ^ (- b)).
    { unfold shift_exact. assert (0 <? b = false) as -> by lia. reflexivity. }
    rewrite Hbig. assert (Hp : 2 ^ bits T <= 2 ^ (- b)) by (apply Z.pow_le_mono_r; lia).
    rewrite (pow2_double (bits T)) in Hp by lia.
    assert (b <=? - bits T = true) as -> by lia. cbn [orb]. rewrite !andb_true_r.
    set (P := 2 ^ (- b)) in *. clearbody P. clear Hshr C8 C9 Hex. clearbody sh.
    destruct (a <? 0) eqn:E1; [|assert (0 <? a = true) as -> by lia]; f_equal.
    + assert (a * P <= - P) by nia. lia.
    + assert (P <= a * P) by nia. lia.
  - destruct Hex as [Hex|Hex]; [lia|]. rewrite <- Hex.
    assert (b <=? - bits T = false) as -> by lia. cbn [orb].
    assert (Hsgn : (a < 0 -> sh <= 0) /\ (0 < a -> 0 <= sh)).
    { rewrite Hex. unfold shift_exact, fdiv2.
      pose proof (Z.pow_pos_nonneg 2 (- b) ltac:(lia)).
      destruct (0 <? b) eqn:B3.
      - assert (0 < 2 ^ (b - 1)) by (apply Z.pow_pos_nonneg; lia).
        rewrite (pow2_double b) by lia. set (P := 2 ^ (b - 1)) in *.
        split; intros.
        + assert ((a + (if r then P else 0)) / (2 * P) < 1); [|lia].
          apply Z.div_lt_upper_bound; destruct r; lia.
        + apply Z.div_le_lower_bound; destruct r; lia.
      - split; intros; nia. }
    clear Hex C8 C9. clearbody sh.
    destruct (a <? 0) eqn:E1; cbn [andb].
    + destruct (sh <? tmin T) eqn:E2; [f_equal; lia|].
      assert (0 <? a = false) as -> by lia. cbn [andb].
      rewrite wrap_id; [f_equal; lia|]. unfold in_range. lia.
    + assert (0 <? a = true) as -> by lia. cbn [andb].
      destruct (tmax T <? sh) eqn:E2; [f_equal; lia|].
      rewrite wrap_id; [f_equal; lia|]. unfold in_range. lia.
Qed.

Lemma vshift_unsigned_ok T r a b : In T unsigned3 ->
  in_range T a = true -> in_range T b = true ->
  a = 0 \/ shift_of T b <> - 2 ^ 31 ->
  l_vshift T r a b = Ok (clampT T (shift_exact r a (shift_of T b))).
Proof.
  intros HT Ha Hb Hmin. rewrite clampT_eq. unfold shift_of in *.
  assert (Hn : 8 <= bits T <= 32) by (types HT; cbn; lia).
  assert (Hsz : sizeof T * 8 = bits T) by (types HT; reflexivity).
  assert (Hsg : is_signed T = false) by (types HT; reflexivity).
  assert (Hmm : tmin T = 0 /\ tmax T = 2 ^ bits T - 1)
    by (types HT; split; reflexivity).
  assert (HT6 : In T all6) by (types HT; cbn; auto 8).
  assert (Hmu : make_unsigned T = T) by (types HT; reflexivity).
  assert (Ha' : tmin T <= a <= tmax T) by (unfold in_range in Ha; lia).
  unfold l_vshift. cbv zeta. rewrite Hsg, Hsz, Hmu.
  assert (HC : cast I32 (cast (make_signed T) (CV T b)) = CV I32 (wrap (make_signed T) b)).
  { unfold cast; cbn [cval]. rewrite (wrap_id I32); [reflexivity|].
    pose proof (wrap_range (make_signed T) b). types HT; cbn [make_signed] in *; rng. }
  rewrite HC. clear HC.
  assert (Hb32 : in_range I32 (wrap (make_signed T) b) = true).
  { pose proof (wrap_range (make_signed T) b). types HT; cbn [make_signed] in *; rng. }
  set (s := wrap (make_signed T) b) in *. clearbody s. clear b Hb.
  unfold c_true at 1. cbn [cval]. rewrite negb_involutive.
  destruct (a =? 0) eqn:Ea0.
  { assert (a = 0) by lia. subst a. unfold ret, cast, lit. cbn [cval].
    rewrite wrap_id by (types HT; reflexivity). f_equal.
    unfold shift_exact, fdiv2. destruct (0 <? s) eqn:Eb.
    - destruct r.
      + rewrite div_round_zero; [lia|lia|].
        pose proof (Z.pow_pos_nonneg 2 (s - 1)). lia.
      + rewrite Z.add_0_l, Z.div_0_l; [lia|]. pose proof (Z.pow_pos_nonneg 2 s). lia.
    - rewrite Z.mul_0_l. lia. }
  assert (Hbm : s <> - 2 ^ 31) by (destruct Hmin; [lia|assumption]).
  change (2 ^ 31) with 2147483648 in Hbm.
  assert (C3 : c_gt (CV I32 s) (lit (bits T)) = (bits T <? s)).
  { unfold c_gt. rewrite c_cmp_fit; cbn [cty cval lit uac promote]; [reflexivity| |];
    apply wrap_id; [assumption|rng]. }
  assert (C4 : c_gt (CV I32 s) (lit 0) = (0 <? s)).
  { unfold c_gt. rewrite c_cmp_fit; cbn [cty cval lit uac promote]; [reflexivity| |];
    apply wrap_id; [assumption|reflexivity]. }
  assert (C5 : c_neg (lit (bits T)) = Ok (CV I32 (- bits T))).
  { unfold c_neg, arith_result, lit. cbn [cty cval promote is_signed].
    rewrite wrap_id by rng.
    assert (E : in_range I32 (- bits T) = true) by rng. now rewrite E. }
  assert (C6 : c_lt (CV I32 s) (CV I32 (- bits T)) = (s <? - bits T)).
  { unfold c_lt. rewrite c_cmp_fit; cbn [cty cval uac promote]; [reflexivity| |];
    apply wrap_id; [assumption|rng]. }
  rewrite C3, C4.
  set (sh := if bits T <? s then 0
             else if 0 <? s then (a + (if r then 2 ^ (s - 1) else 0)) / 2 ^ s
             else a * 2 ^ (Z.min (- s) (bits T))).
  match goal with |- bind ?e _ = _ => assert (HSH : e = Ok (CV (wide T) sh)) end.
  { unfold sh. destruct (bits T <? s) eqn:B1.
    { types HT; reflexivity. }
    destruct (0 <? s) eqn:B3.
    - assert (Hbr : 1 <= s <= bits T) by lia.
      match goal with |- bind ?e _ = _ =>
        assert (HRND : exists R, e = Ok R /\ cval R = (if r then 2 ^ (s - 1) else 0)
           /\ In (cty R) [wide T; I32]) end.
      { destruct r.
        - assert (Hc : c_sub (CV I32 s) (lit 1) = Ok (CV I32 (s - 1))).
          { unfold c_sub, arith, arith_result, lit. cbn [cty cval uac promote is_signed].
            rewrite (wrap_id I32 s), (wrap_id I32 1) by (assumption || reflexivity).
            assert (E : in_range I32 (s - 1) = true) by rng. now rewrite E. }
          rewrite Hc. cbn [bind]. unfold ullit. rewrite one_shl by (auto; lia).
          cbn [bind]. eexists. split; [reflexivity|]. unfold cast. cbn [cval cty].
          split; [|cbn; auto].
          apply wrap_id.
          assert (Hp : 1 <= 2 ^ (s - 1) <= 2 ^ (bits T - 1)) by (apply pow2_bounds; lia).
          types HT; cbn [bits wide] in *;
          match type of Hp with _ <= _ <= ?x =>
            let v := eval cbv in x in change x with v in Hp end; rng.
        - eexists. split; [reflexivity|]. cbn; auto. }
      destruct HRND as (R & -> & HRv & HRt). cbn [bind].
      apply wide_shr; try assumption; try lia.
      + rewrite Hsg. exact I.
      + destruct r; pose proof (Z.pow_pos_nonneg 2 (s - 1)); lia.
    - assert (Hneg : c_neg (CV I32 s) = Ok (CV I32 (- s))).
      { unfold c_neg, arith_result. cbn [cty cval promote is_signed].
        rewrite wrap_id by assumption.
        assert (E : in_range I32 (- s) = true) by rng. now rewrite E. }
      rewrite Hneg. cbn [bind].
      assert (C7 : c_le (CV I32 (- s)) (lit (bits T)) = (- s <=? bits T)).
      { unfold c_le. rewrite c_cmp_fit; cbn [cty cval lit uac promote]; [reflexivity| |];
        apply wrap_id; rng. }
      rewrite C7.
      match goal with |- bind ?e _ = _ =>
        assert (HU : e = Ok (CV T (Z.min (- s) (bits T)))) end.
      { unfold lit. destruct (- s <=? bits T) eqn:Eb; cbn [bind]; unfold cast; cbn [cval];
        do 2 f_equal; [rewrite Z.min_l by lia|rewrite Z.min_r by lia];
        apply wrap_id; types HT; cbn [make_unsigned bits] in *; rng. }
      rewrite HU. cbn [bind]. set (m := Z.min (- s) (bits T)).
      assert (Hm : 0 <= m <= bits T) by lia.
      destruct (wide_shl T a m HT6 Ha Hm) as (v & Hv & Hvv). rewrite Hmu in Hv.
      unfold cast at 1. cbn [cval]. rewrite Hv. cbn [bind]. unfold cast. now rewrite Hvv. }
  rewrite HSH. clear HSH. cbn [bind]. rewrite C5. cbn [bind]. rewrite C6.
  assert (Hshr : in_range (wide T) sh = true).
  { unfold sh. destruct (bits T <? s) eqn:B1.
    { types HT; reflexivity. }
    destruct (0 <? s) eqn:B3.
    - apply div_pow_range; [|lia].
      assert (Hp : 0 <= (if r then 2 ^ (s - 1) else 0) <= 2 ^ (bits T - 1)).
      { destruct r; [|pose proof (Z.pow_pos_nonneg 2 (bits T - 1)); lia].
        pose proof (pow2_bounds (s - 1) (bits T - 1)). lia. }
      set (R := if r then 2 ^ (s - 1) else 0) in *. clearbody R.
      clear sh. types HT; cbn [bits wide] in *;
      match type of Hp with _ <= _ <= ?x =>
            let v := eval cbv in x in change x with v in Hp end; rng.
    - set (m := Z.min (- s) (bits T)). assert (Hm : 0 <= m <= bits T) by lia.
      destruct (wide_shl T a m HT6 Ha Hm) as (v & Hv & Hvv).
      rewrite <- Hvv. apply wrap_range. }
  assert (C9 : c_gt (CV (wide T) sh) (lim_max T) = (tmax T <? sh)).
  { unfold c_gt, lim_max. rewrite c_cmp_fit; cbn [cty cval]; [reflexivity| |];
    apply wrap_id; clear -HT Hshr; types HT; cbn [wide uac promote] in *;
    try reflexivity; rng. }
  rewrite C9. unfold c_true. cbn [cval]. rewrite Ea0. cbn [negb andb].
  unfold ret, cast, lim_max. cbn [cval].
  rewrite (wrap_id T (tmax T)) by (types HT; reflexivity).
  destruct Hmm as [Hlo Hhi].
  assert (HP0 : 0 < 2 ^ bits T) by (apply Z.pow_pos_nonneg; lia).
  assert (Hex : s < - bits T \/ sh = shift_exact r a s).
  { unfold sh, shift_exact, fdiv2.
    destruct (bits T <? s) eqn:B2.
    + right. assert (0 <? s = true) as -> by lia.
      assert (2 ^ bits T <= 2 ^ (s - 1)) by (apply Z.pow_le_mono_r; lia).
      destruct r.
      * symmetry. apply div_round_zero; lia.
      * rewrite Z.add_0_r, Z.div_small; [reflexivity|].
        rewrite (pow2_double s) by lia. lia.
    + destruct (0 <? s) eqn:B3; [right; reflexivity|].
      destruct (Z.lt_ge_cases s (- bits T)); [left; assumption|right].
      now rewrite Z.min_l by lia. }
  destruct (Z.lt_ge_cases s (- bits T)) as [Hlow|Hlow].
  - assert (Hbig : shift_exact r a s = a * 2 ^ (- s)).
    { unfold shift_exact. assert (0 <? s = false) as -> by lia. reflexivity. }
    rewrite Hbig. assert (Hp : 2 ^ bits T <= 2 ^ (- s)) by (apply Z.pow_le_mono_r; lia).
    assert (s <? - bits T = true) as -> by lia. cbn [orb]. f_equal.
    set (P := 2 ^ (- s)) in *. clearbody P.
    assert (P <= a * P) by nia. lia.
  - destruct Hex as [Hex|Hex]; [lia|]. rewrite <- Hex.
    assert (s <? - bits T = false) as -> by lia. cbn [orb].
    assert (Hpos : 0 <= sh).
    { assert (tmin (wide T) = 0) by (types HT; reflexivity).
      unfold in_range in Hshr. lia. }
    clear Hex C9. clearbody sh.
    destruct (tmax T <? sh) eqn:E2; [f_equal; lia|].
    rewrite wrap_id; [f_equal; lia|]. unfold in_range. lia.
Qed.

(** The one undefined case: a 32-bit lane shifted by -2^31. *)
Lemma vshift_min_ub T r a : In T [I32; U32] -> in_range T a = true -> a <> 0 ->
  forall b, in_range T b = true -> shift_of T b = - 2 ^ 31 ->
  l_vshift T r a b = UB SignedOverflow.
Proof.
  intros HT Ha Ha0 b Hb Hs. unfold shift_of in Hs.
  destruct HT as [<-|[<-|[]]]; cbn [make_signed] in Hs.
  - rewrite wrap_id in Hs by assumption. subst b.
    unfold l_vshift. c_unfold; c_cbn. repeat wsimp1.
    assert (a =? 0 = false) as -> by lia. cbn [negb].
    change (- 2 ^ 31) with (-2147483648).
    rewrite !andb_false_r. reflexivity.
  - unfold l_vshift. cbv zeta. cbn [is_signed make_signed].
    assert (HC : cast I32 (cast I32 (CV U32 b)) = CV I32 (- 2 ^ 31)).
    { unfold cast; cbn [cval]. now rewrite Hs. }
    rewrite HC. unfold c_true. cbn [cval]. assert (a =? 0 = false) as -> by lia.
    reflexivity.
Qed.
