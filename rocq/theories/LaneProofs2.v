(** * Lane operations: shifts, bit permutations, counting, widening *)
From Verif Require Import CInt Lane LaneSpec LaneProofs.
From Coq Require Import ZifyBool ZifyNat.
Ltac Zify.zify_post_hook ::= Z.div_mod_to_equations.

(** ** Widening lane operations (part of C12) *)
Definition widen_pairs : list (ity * ity) :=
  [(I16, I8); (I32, I16); (U16, U8); (U32, U16)].
Ltac wtypes HT :=
  cbn [In widen_pairs] in HT;
  repeat match type of HT with _ \/ _ => destruct HT as [HT|HT] end;
  try contradiction; injection HT as <- <-.
Lemma vaddw_ok Td Ts a b : In (Td, Ts) widen_pairs ->
  in_range Ts a = true -> in_range Ts b = true ->
  l_vaddw Td Ts a b = Ok (a + b).
Proof. intros HT Ha Hb. unfold l_vaddw. wtypes HT; run; fin. Qed.
Lemma vsubw_ok Td Ts a b : In (Td, Ts) widen_pairs ->
  in_range Ts a = true -> in_range Ts b = true ->
  l_vsubw Td Ts a b = Ok (wrap Td (a - b)).
Proof. intros HT Ha Hb. unfold l_vsubw. wtypes HT; run; fin. Qed.
Lemma vpadd_ok Td Ts a b : In (Td, Ts) widen_pairs ->
  in_range Ts a = true -> in_range Ts b = true ->
  l_vpadd Td Ts a b = Ok (a + b).
Proof. intros HT Ha Hb. unfold l_vpadd. wtypes HT; run; fin. Qed.
Lemma vpsub_ok Td Ts a b : In (Td, Ts) widen_pairs ->
  in_range Ts a = true -> in_range Ts b = true ->
  l_vpsub Td Ts a b = Ok (wrap Td (a - b)).
Proof. intros HT Ha Hb. unfold l_vpsub. wtypes HT; run; fin. Qed.
Lemma vacc_ok Td Ts a b : In (Td, Ts) widen_pairs ->
  in_range Td a = true -> in_range Ts b = true ->
  l_vacc Td Ts a b = Ok (wrap Td (a + b)).
Proof. intros HT Ha Hb. unfold l_vacc. wtypes HT; run; fin. Qed.
Lemma vmulw_ok Td Ts a b : In (Td, Ts) widen_pairs ->
  in_range Ts a = true -> in_range Ts b = true ->
  l_vmulw Td Ts a b = Ok (a * b).
Proof. intros HT Ha Hb. unfold l_vmulw. wtypes HT; prod a b; run; fin. Qed.

(** ** Selection and moves *)
Lemma arg1_ok T a b : in_range T a = true -> l_arg1 T a b = Ok a.
Proof. intros Ha. unfold l_arg1. c_unfold. cbn [cval]. now rewrite wrap_id. Qed.
Lemma vmv_ok T a : in_range T a = true -> l_vmv T a = Ok a.
Proof. intros Ha. unfold l_vmv. c_unfold. cbn [cval]. now rewrite wrap_id. Qed.
Lemma land1_odd a : Z.land a 1 = if Z.odd a then 1 else 0.
Proof.
  change 1 with (Z.ones 1) at 1. rewrite Z.land_ones by lia.
  change (2 ^ 1) with 2. rewrite Zmod_odd. reflexivity.
Qed.
Lemma vsel_ok T d a b : In T signed3 -> in_range T d = true ->
  in_range T a = true -> in_range T b = true ->
  l_vsel T d a b = Ok (if Z.odd a then d else b).
Proof.
  intros HT Hd Ha Hb. unfold l_vsel. c_unfold. types HT; c_cbn.
  all: rewrite (wrap_id I32 a) by rng; rewrite (wrap_id I32 1) by reflexivity.
  all: rewrite land1_odd; destruct (Z.odd a); cbn [negb Z.eqb cval];
    rewrite wrap_id by assumption; reflexivity.
Qed.

(** ** Symbolic powers *)
Lemma pow2_bounds s n : 0 <= s <= n -> 1 <= 2 ^ s <= 2 ^ n.
Proof.
  intros. split.
  - pose proof (Z.pow_pos_nonneg 2 s). lia.
  - apply Z.pow_le_mono_r; lia.
Qed.
Lemma pow2_double s : 0 < s -> 2 ^ s = 2 * 2 ^ (s - 1).
Proof. intros. rewrite <- Z.pow_succ_r by lia. f_equal. lia. Qed.

(** ** C09 *)
Lemma land_mask_mod b n : 0 <= n -> Z.land b (2 ^ n - 1) = b mod 2 ^ n.
Proof.
  intros. replace (2 ^ n - 1) with (Z.ones n) by (rewrite Z.ones_equiv; lia).
  now apply Z.land_ones.
Qed.
(** [vs2 & (sizeof(T)*8-1)] as size_t. *)
Lemma shift_amount_ok T b : In T all6 -> in_range T b = true ->
  shift_amount T b = CV U64 (b mod bits T).
Proof.
  intros HT Hb. unfold shift_amount, cast, c_and, c_bit, ullit. cbn [cty cval].
  f_equal.
  assert (Hw : forall x m, In m [8; 16; 32] -> Z.land (wrap U64 x) (m - 1) = x mod m).
  { intros x m Hm.
    destruct (wrap_cong U64 x) as [k ->]. cbn [modulus].
    cbn in Hm. destruct Hm as [<-|[<-|[<-|[]]]].
    - change 8 with (2 ^ 3). rewrite land_mask_mod by lia. change (2 ^ 3) with 8. lia.
    - change 16 with (2 ^ 4). rewrite land_mask_mod by lia. change (2 ^ 4) with 16. lia.
    - change 32 with (2 ^ 5). rewrite land_mask_mod by lia. change (2 ^ 5) with 32. lia. }
  assert (E : uac T U64 = U64) by (types HT; reflexivity). rewrite E.
  assert (Hb8 : sizeof T * 8 = bits T) by (types HT; reflexivity). rewrite Hb8.
  rewrite (wrap_id U64 (bits T - 1)) by (types HT; reflexivity).
  rewrite Hw by (types HT; cbn; auto).
  apply wrap_id. types HT; cbn [bits]; rng.
Qed.
Lemma vsll_ok T a b : In T unsigned3 -> in_range T a = true -> in_range T b = true ->
  l_vsll T a b = Ok (wrap T (a * 2 ^ (b mod bits T))).
Proof.
  intros HT Ha Hb. unfold l_vsll.
  rewrite shift_amount_ok by (types HT; cbn; auto 8).
  assert (Hs : 0 <= b mod bits T <= bits T - 1) by (types HT; cbn [bits]; lia).
  pose proof (pow2_bounds _ _ Hs) as HP.
  set (s := b mod bits T) in *. clearbody s.
  unfold c_shl, ret. cbn [cty cval].
  types HT; cbn [promote bits is_signed] in *;
    rewrite (wrap_id _ a) by rng.
  - assert (E : (s <? 0) || (32 <=? s) = false) by lia. rewrite E; clear E.
    assert (E : (a <? 0) || (modulus I32 <=? a * 2 ^ s) = false).
    { change (2 ^ (8 - 1)) with 128 in *. set (P := 2 ^ s) in *. clearbody P.
      wrap_unfold. nia. }
    rewrite E; clear E. cbn [bind cast cval]. unfold cast; cbn [cval].
    now rewrite wrap_wrap by (cbn; lia).
  - assert (E : (s <? 0) || (32 <=? s) = false) by lia. rewrite E; clear E.
    assert (E : (a <? 0) || (modulus I32 <=? a * 2 ^ s) = false).
    { change (2 ^ (16 - 1)) with 32768 in *. set (P := 2 ^ s) in *. clearbody P.
      wrap_unfold. nia. }
    rewrite E; clear E. cbn [bind cast cval]. unfold cast; cbn [cval].
    now rewrite wrap_wrap by (cbn; lia).
  - assert (E : (s <? 0) || (32 <=? s) = false) by lia. rewrite E; clear E.
    cbn [bind]. unfold cast; cbn [cval]. now rewrite wrap_wrap by (cbn; lia).
Qed.
Lemma div_pow_range T a s : in_range T a = true -> 0 <= s -> in_range T (a / 2 ^ s) = true.
Proof.
  intros Ha Hs. pose proof (Z.pow_pos_nonneg 2 s ltac:(lia) Hs) as HP.
  set (P := 2 ^ s) in *. clearbody P.
  assert (tmin T <= 0 <= tmax T) by (destruct T; unfold tmin, tmax; cbn; lia).
  unfold in_range in *.
  assert (tmin T <= a / P <= tmax T); [|lia].
  assert (Ha' : tmin T <= a <= tmax T) by lia.
  set (u := tmin T) in *. set (v := tmax T) in *. clearbody u v.
  split.
  - apply Z.div_le_lower_bound; nia.
  - apply Z.div_le_upper_bound; nia.
Qed.
Lemma shr_ok T a b : In T all6 -> in_range T a = true -> in_range T b = true ->
  (s <- c_shr (CV T a) (shift_amount T b) ;; ret T s) = Ok (a / 2 ^ (b mod bits T)).
Proof.
  intros HT Ha Hb.
  rewrite shift_amount_ok by assumption.
  assert (Hs : 0 <= b mod bits T <= bits T - 1) by (types HT; cbn [bits]; lia).
  set (s := b mod bits T) in *. clearbody s.
  assert (Hp : wrap (promote T) a = a) by (apply wrap_id; types HT; cbn [promote]; rng).
  unfold c_shr. cbn [cty cval]. rewrite Hp.
  assert (E : (s <? 0) || (bits (promote T) <=? s) = false)
    by (types HT; cbn [promote bits] in *; lia).
  rewrite E. cbn [bind]. unfold ret, cast. cbn [cval].
  rewrite wrap_id; [reflexivity|]. apply div_pow_range; [assumption|lia].
Qed.
Lemma vsra_ok T a b : In T signed3 -> in_range T a = true -> in_range T b = true ->
  l_vsra T a b = Ok (a / 2 ^ (b mod bits T)).
Proof. intros HT Ha Hb. apply shr_ok; [types HT; cbn; auto 8|assumption..]. Qed.
Lemma vsrl_ok T a b : In T unsigned3 -> in_range T a = true -> in_range T b = true ->
  l_vsrl T a b = Ok (a / 2 ^ (b mod bits T)).
Proof. intros HT Ha Hb. apply shr_ok; [types HT; cbn; auto 8|assumption..]. Qed.

(** ** C08 *)
Definition narrow_pairs : list (ity * ity) :=
  [(I8, I16); (I16, I32); (U8, U16); (U16, U32); (I8, I32); (U8, U32)].
Ltac ntypes HT :=
  cbn [In narrow_pairs] in HT;
  repeat match type of HT with _ \/ _ => destruct HT as [HT|HT] end;
  try contradiction; injection HT as <- <-.

(** Rounded shift of a source value stays in range of the source type. *)
Lemma rshift_range (lo hi x s : Z) : 0 <= s -> lo <= 0 -> 0 <= hi ->
  lo <= x <= hi -> lo <= (x + (if 0 <? s then 2 ^ (s - 1) else 0)) / 2 ^ s <= hi + 1.
Proof.
  intros Hs Hl Hh Hx. pose proof (Z.pow_pos_nonneg 2 s ltac:(lia) Hs).
  destruct (0 <? s) eqn:E.
  - rewrite (pow2_double s) in * by lia.
    assert (0 < 2 ^ (s - 1)) by (apply Z.pow_pos_nonneg; lia).
    set (P := 2 ^ (s - 1)) in *. clearbody P.
    split; [apply Z.div_le_lower_bound|apply Z.div_le_upper_bound]; nia.
  - assert (s = 0) by lia. subst. rewrite Z.add_0_r. cbn. rewrite Z.div_1_r. lia.
Qed.

Lemma vsrans_ok Td Ts r a b : In (Td, Ts) narrow_pairs ->
  in_range Ts a = true -> in_range Td b = true ->
  l_vsrans Td Ts r a b =
  Ok (clampT Td (let s := b mod bits Ts in
                 fdiv2 (a + (if r && (0 <? s) then 2 ^ (s - 1) else 0)) s)).
Proof.
  intros HT Ha Hb. rewrite clampT_eq. unfold l_vsrans, fdiv2. cbv zeta.
  assert (Hs0 : 0 <= b mod bits Ts <= bits Ts - 1) by (ntypes HT; cbn [bits]; lia).
  assert (HV : cast Td (c_and (CV Td b) (lit (sizeof Ts * 8 - 1)))
               = CV Td (b mod bits Ts)).
  { unfold cast, c_and, c_bit, lit. cbn [cty cval]. f_equal.
    assert (H8 : sizeof Ts * 8 - 1 = 2 ^ (match Ts with I16 | U16 => 4 | _ => 5 end) - 1
                 /\ bits Ts = 2 ^ (match Ts with I16 | U16 => 4 | _ => 5 end))
      by (ntypes HT; split; reflexivity).
    destruct H8 as [H8 H8']. rewrite H8, H8'.
    rewrite (wrap_id (uac Td I32) b) by (ntypes HT; cbn [uac promote]; rng).
    rewrite (wrap_id (uac Td I32) (2 ^ _ - 1)) by (ntypes HT; reflexivity).
    rewrite land_mask_mod by (destruct Ts; lia).
    apply wrap_id. ntypes HT; zconst; rng. }
  rewrite HV. clear HV.
  set (s := b mod bits Ts) in *. clearbody s. clear b Hb.
  assert (HR : (if r && (0 <? s) then 2 ^ (s - 1) else 0) = 0 \/
               (if r && (0 <? s) then 2 ^ (s - 1) else 0) = if 0 <? s then 2 ^ (s - 1) else 0)
    by (destruct r, (0 <? s); auto).
  assert (HQ : tmin Ts <= (a + (if r && (0 <? s) then 2 ^ (s - 1) else 0)) / 2 ^ s <= tmax Ts + 1).
  { destruct HR as [-> | ->].
    - rewrite Z.add_0_r. pose proof (div_pow_range Ts a s Ha ltac:(lia)) as H.
      unfold in_range in H. lia.
    - apply rshift_range; [lia| | |unfold in_range in Ha; lia];
        ntypes HT; unfold tmin, tmax; cbn; lia. }
  (* rounding constant *)
  assert (HP : 0 < s -> 1 <= 2 ^ (s - 1) <= 2 ^ 30).
  { intros. apply pow2_bounds. ntypes HT; cbn [bits] in *; lia. }
  change (2 ^ 30) with 1073741824 in HP.
  assert (HRND : (if c_true (CV Td s) && r
          then e <- c_sub (CV Td s) (lit 1) ;; p <- c_shl (llit 1) e ;; Ok (cast (wide Ts) p)
          else Ok (lit 0)) =
          Ok (CV (if c_true (CV Td s) && r then wide Ts else I32)
                 (if r && (0 <? s) then 2 ^ (s - 1) else 0))).
  { unfold c_true. cbn [cval].
    assert (Es : negb (s =? 0) = (0 <? s)) by lia. rewrite Es.
    destruct r, (0 <? s) eqn:E0; cbn [andb]; try reflexivity.
    assert (Hc : c_sub (CV Td s) (lit 1) = Ok (CV I32 (s - 1))).
    { unfold c_sub, arith, arith_result, lit. cbn [cty cval].
      assert (Hu : uac Td I32 = I32) by (ntypes HT; reflexivity). rewrite Hu.
      cbn [is_signed]. rewrite (wrap_id I32 s), (wrap_id I32 1); [|reflexivity|].
      2:{ ntypes HT; cbn [bits] in *; rng. }
      assert (Hi : in_range I32 (s - 1) = true) by (ntypes HT; cbn [bits] in *; rng).
      now rewrite Hi. }
    rewrite Hc. cbn [bind].
    unfold c_shl, llit. cbn [cty cval promote bits is_signed].
    rewrite (wrap_id I64 1) by reflexivity. rewrite Z.mul_1_l.
    specialize (HP ltac:(lia)).
    assert (Hi : (s - 1 <? 0) || (64 <=? s - 1) = false) by (ntypes HT; cbn [bits] in *; lia).
    rewrite Hi.
    assert (Hj : (1 <? 0) || (modulus I64 <=? 2 ^ (s - 1)) = false)
      by (cbn [modulus]; lia).
    rewrite Hj. cbn [bind]. unfold cast. cbn [cval].
    rewrite (wrap_id I64 (2 ^ (s - 1))) by rng.
    rewrite wrap_id; [reflexivity|].
    ntypes HT; cbn [wide bits] in *; rng. }
  rewrite HRND. clear HRND. cbn [bind].
  set (R := if r && (0 <? s) then 2 ^ (s - 1) else 0) in *.
  assert (HRb : 0 <= R <= 1073741824).
  { unfold R. destruct r, (0 <? s) eqn:E0; cbn [andb]; try lia. }
  assert (HRb2 : bits Ts = 16 -> R <= 16384).
  { intros H16. unfold R. destruct r, (0 <? s) eqn:E0; cbn [andb]; try lia.
    assert (2 ^ (s - 1) <= 2 ^ 14) by (apply Z.pow_le_mono_r; lia).
    change (2 ^ 14) with 16384 in *. lia. }
  clearbody R.
  (* the sum *)
  assert (HS : exists t, c_add (cast (wide Ts) (CV Ts a))
                (cast (uac (wide Ts) I32)
                   (CV (if c_true (CV Td s) && r then wide Ts else I32) R))
               = Ok (CV t (a + R)) /\ wrap (promote t) (a + R) = a + R
                 /\ bits Ts < bits (promote t)).
  { ntypes HT; cbn [wide uac promote bits] in *;
    try specialize (HRb2 eq_refl); unfold cast, c_add, arith, arith_result;
    cbn [cty cval uac promote is_signed]; repeat wsimp1.
    all: try (assert (Hi : in_range I32 (a + R) = true) by rng; rewrite Hi).
    all: try (assert (Hi : in_range I64 (a + R) = true) by rng; rewrite Hi).
    all: eexists; split; [reflexivity|]; cbn [promote bits]; split; [|lia];
      apply wrap_id; rng. }
  destruct HS as (t & -> & Ht & Htb). cbn [bind].
  unfold c_shr at 1. cbn [cty cval]. rewrite Ht.
  assert (E : (s <? 0) || (bits (promote t) <=? s) = false) by lia.
  rewrite E. clear E. cbn [bind].
  set (Q := (a + R) / 2 ^ s) in *.
  assert (HQ0 : a = 0 -> Z.max (tmin Td) (Z.min (tmax Td) Q) = 0).
  { intros ->. unfold Q. rewrite Z.add_0_l.
    destruct HR as [->|HRe]; [rewrite Z.div_0_l by (pose proof (Z.pow_pos_nonneg 2 s); lia)|].
    - ntypes HT; reflexivity.
    - destruct (0 <? s) eqn:E0.
      + rewrite HRe, (pow2_double s) by lia.
        rewrite Z.div_small; [ntypes HT; reflexivity|].
        specialize (HP ltac:(lia)). lia.
      + rewrite HRe, Z.div_0_l by (pose proof (Z.pow_pos_nonneg 2 s); lia).
        ntypes HT; reflexivity. }
  clearbody Q. clear HR HP Ht Htb HRb HRb2.
  ntypes HT; run; repeat wsimp1;
  try (unfold tmin, tmax in HQ0; cbn [is_signed half modulus] in HQ0);
  first [ f_equal; rng | exfalso; rng ].
Qed.
