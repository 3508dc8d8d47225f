(** * Lane theorems in the form stated in PropLane.v *)
From Verif Require Import CInt Lane LaneSpec LaneProofs LaneProofs2 LaneProofs3 LaneProofs4.
From Coq Require Import ZifyBool.
Import ListNotations.
Ltac Zify.zify_post_hook ::= Z.div_mod_to_equations.

Lemma sgn_all T : In T signed3 -> In T all6.
Proof. cbn. intuition. Qed.
Lemma uns_all T : In T unsigned3 -> In T all6.
Proof. cbn. intuition. Qed.
Lemma any_all T : In T [I8; I16; I32] \/ In T [U8; U16; U32] -> In T all6.
Proof. cbn. intuition. Qed.
Lemma R T v : fits (bits T) (is_signed T) v -> in_range T v = true.
Proof. apply in_range_fits. Qed.
Lemma R' T v : in_range T v = true -> fits (bits T) (is_signed T) v.
Proof. apply in_range_fits. Qed.
Local Hint Resolve R R' sgn_all uns_all any_all : lane.
Local Hint Extern 1 (In _ signed3) => assumption : lane.
Local Hint Extern 1 (In _ unsigned3) => assumption : lane.

Lemma modres T o x : o = Ok (wrap T x) ->
  exists v, o = Ok v /\ is_mod (bits T) (is_signed T) x v.
Proof. intros ->. eexists. split; [reflexivity|apply wrap_is_mod]. Qed.

Lemma c01 T d a b : In T [I8; I16; I32] ->
  fits (bits T) (is_signed T) d -> fits (bits T) (is_signed T) a ->
  fits (bits T) (is_signed T) b ->
  let res o x := exists v, o = Ok v /\ is_mod (bits T) (is_signed T) x v in
  res (l_vadd T a b) (a + b) /\ res (l_vsub T a b) (a - b) /\
  res (l_vrsub T a b) (b - a) /\ res (l_vadd3 T d a b) (d + a + b) /\
  res (l_vmul T a b) (a * b) /\ res (l_vmacc T d a b) (d + a * b) /\
  res (l_vmadd T d a b) (a + d * b).
Proof.
  intros HT Hd Ha Hb res. subst res. cbv beta.
  apply R in Hd, Ha, Hb.
  repeat apply conj; apply modres;
  [apply vadd_ok|apply vsub_ok|apply vrsub_ok|apply vadd3_ok|apply vmul_ok|apply vmacc_ok
  |apply vmadd_ok]; assumption.
Qed.

Lemma c02 T a b :
  fits (bits T) (is_signed T) a -> fits (bits T) (is_signed T) b ->
  let res o x := o = Ok (clamp (bits T) (is_signed T) x) in
  (In T [I8; I16; I32] -> res (l_vadds T a b) (a + b)) /\
  (In T [U8; U16; U32] -> res (l_vaddsu T a b) (a + b)) /\
  (In T [I8; I16; I32] -> res (l_vsubs T a b) (a - b)) /\
  (In T [U8; U16; U32] -> res (l_vsubsu T a b) (a - b)) /\
  (In T [I8; I16; I32] \/ In T [U8; U16; U32] -> res (l_vmuls T a b) (a * b)).
Proof.
  intros Ha Hb res. subst res. cbv beta. apply R in Ha, Hb.
  repeat apply conj; intros HT;
  [apply vadds_ok|apply vaddsu_ok|apply vsubs_ok|apply vsubsu_ok|apply vmuls_ok];
  try assumption. now apply any_all.
Qed.

Lemma tv_intro (o : outcome Z) (P : Prop) (c : bool) :
  (c = true <-> P) -> o = Ok (b2z c) -> (P /\ o = Ok 1) \/ (~ P /\ o = Ok 0).
Proof.
  intros [H1 H2] ->. destruct c; [left|right]; (split; [|reflexivity]).
  - now apply H1.
  - intros HP. now specialize (H2 HP).
Qed.
Lemma c03 T a b : In T [I8; I16; I32] \/ In T [U8; U16; U32] ->
  fits (bits T) (is_signed T) a -> fits (bits T) (is_signed T) b ->
  let tv (o : outcome Z) (P : Prop) := (P /\ o = Ok 1) \/ (~ P /\ o = Ok 0) in
  (In T [I8; I16; I32] -> tv (l_veq T a b) (a = b) /\ tv (l_vne T a b) (a <> b)) /\
  tv (l_vlt T a b) (a < b) /\ tv (l_vle T a b) (a <= b) /\
  tv (l_vgt T a b) (a > b) /\ tv (l_vge T a b) (a >= b) /\
  l_vmax T a b = Ok (Z.max a b) /\ l_vmin T a b = Ok (Z.min a b) /\
  l_vabsd T a b = Ok (Z.abs (a - b)) /\ fits (bits T) false (Z.abs (a - b)).
Proof.
  intros HT Ha Hb tv. subst tv. cbv beta. apply any_all in HT. apply R in Ha, Hb.
  repeat apply conj.
  - intros HS. split; eapply tv_intro; try (now apply veq_ok); try (now apply vne_ok); lia.
  - eapply tv_intro; [|now apply vlt_ok]; lia.
  - eapply tv_intro; [|now apply vle_ok]; lia.
  - eapply tv_intro; [|now apply vgt_ok]; lia.
  - eapply tv_intro; [|now apply vge_ok]; lia.
  - now apply vmax_ok.
  - now apply vmin_ok.
  - now apply vabsd_ok.
  - types HT; unfold fits, lo; cbn [bits]; lia.
  - types HT; unfold fits, hi; cbn [bits]; zconst; rng.
Qed.

Lemma c04 T (r : bool) a b : In T [I8; I16; I32] \/ In T [U8; U16; U32] ->
  fits (bits T) (is_signed T) a -> fits (bits T) (is_signed T) b ->
  let rn := if r then 1 else 0 in
  l_vhadd T r a b = Ok ((a + b + rn) / 2) /\ fits (bits T) (is_signed T) ((a + b + rn) / 2) /\
  exists v, l_vhsub T r a b = Ok v /\
            is_mod (bits T) (is_signed T) ((a - b + rn) / 2) v.
Proof.
  intros HT Ha Hb rn. apply any_all in HT. apply R in Ha, Hb.
  split; [|split].
  - now apply vhadd_ok.
  - apply R'. subst rn. types HT; destruct r; rng.
  - apply modres. now apply vhsub_ok.
Qed.

Lemma c05 T (r : bool) a b : In T [I8; I16; I32] \/ In T [U8; U16; U32] ->
  fits (bits T) (is_signed T) a -> fits (bits T) (is_signed T) b ->
  let x := (a * b + (if r then 2 ^ (bits T - 1) else 0)) / 2 ^ bits T in
  l_vmulh T r a b = Ok x /\ fits (bits T) (is_signed T) x.
Proof.
  intros HT Ha Hb x. apply any_all in HT. apply R in Ha, Hb. split.
  - now apply vmulh_ok.
  - apply R'. subst x. types HT; prod a b; cbn [bits]; zconst; destruct r; rng.
Qed.

Lemma c06 T a b : In T [I8; I16; I32] ->
  fits (bits T) (is_signed T) a -> fits (bits T) (is_signed T) b ->
  let mn := - 2 ^ (bits T - 1) in
  let q r := (a * b + (if r : bool then 2 ^ (bits T - 2) else 0)) / 2 ^ (bits T - 1) in
  forall r,
  (a = mn /\ b = mn -> l_vdmulh T r false a b = Ok (2 ^ (bits T - 1) - 1)) /\
  (~ (a = mn /\ b = mn) -> l_vdmulh T r false a b = Ok (q r) /\
     fits (bits T) (is_signed T) (q r)).
Proof.
  intros HT Ha Hb mn q r. apply R in Ha, Hb.
  rewrite vdmulh_ok by assumption.
  assert (Htm : tmin T = mn) by (subst mn; types HT; reflexivity).
  rewrite Htm. subst q. cbv beta. unfold fdiv2. rewrite andb_false_r.
  split; intros H.
  - destruct H as [-> ->]. rewrite Z.eqb_refl. cbn [andb]. f_equal. types HT; reflexivity.
  - assert ((a =? mn) && (b =? mn) = false) as -> by lia. split; [reflexivity|].
    apply R'. subst mn.
    types HT; prod a b;
    match goal with H : in_range ?t a = true |- _ =>
      let h := eval cbv in (half t) in
      pose proof (prod_not_min h a b ltac:(lia) ltac:(rng) ltac:(rng)) as Hq;
      let hh := eval cbv in (h * h - h) in change (h * h - h) with hh in Hq end;
    cbn [bits] in *; zconst; revert H; zconst; intros H; destruct r; rng.
Qed.
Lemma c06_rn T a b : In T [I8; I16; I32] ->
  fits (bits T) (is_signed T) a -> fits (bits T) (is_signed T) b ->
  let mn := - 2 ^ (bits T - 1) in
  ~ (a = mn /\ b = mn) ->
  l_vdmulh T true true a b =
  Ok ((a * b + (if a * b <? 0 then - 2 ^ (bits T - 2) else 2 ^ (bits T - 2)))
      / 2 ^ (bits T - 1)).
Proof.
  intros HT Ha Hb mn H. apply R in Ha, Hb.
  rewrite vdmulh_ok by assumption.
  assert (Htm : tmin T = mn) by (subst mn; types HT; reflexivity).
  rewrite Htm. rewrite andb_true_r. unfold fdiv2.
  assert ((a =? mn) && (b =? mn) = false) as -> by lia. reflexivity.
Qed.
Lemma c06_refuted :
  exists T a b v, In T [I8; I16; I32] /\ fits (bits T) (is_signed T) a /\
    fits (bits T) (is_signed T) b /\
    ~ (a = - 2 ^ (bits T - 1) /\ b = - 2 ^ (bits T - 1)) /\
    l_vdmulh T true true a b = Ok v /\
    ~ (2 * Z.abs (v * 2 ^ (bits T - 1) - a * b) <= 2 ^ (bits T - 1)).
Proof.
  exists I8, 1, (-1), (-1). unfold fits. cbn. repeat split; auto; lia.
Qed.

Lemma c07 T (r : bool) a b s : In T [I8; I16; I32] \/ In T [U8; U16; U32] ->
  fits (bits T) (is_signed T) a -> fits (bits T) (is_signed T) b ->
  is_mod (bits T) true b s ->
  ~ (bits T = 32 /\ a <> 0 /\ s = - 2 ^ 31) ->
  l_vshift T r a b =
  Ok (clamp (bits T) (is_signed T)
        (if 0 <? s then (a + (if r then 2 ^ (s - 1) else 0)) / 2 ^ s else a * 2 ^ (- s))).
Proof.
  intros HT Ha Hb Hs Hx. apply R in Ha, Hb.
  assert (Hss : s = shift_of T b).
  { apply (is_mod_unique (bits T) true b); [destruct T; cbn; lia|assumption|].
    unfold shift_of. pose proof (wrap_is_mod (make_signed T) b) as H.
    replace (bits (make_signed T)) with (bits T) in H by (destruct T; reflexivity).
    replace (is_signed (make_signed T)) with true in H by (destruct T; reflexivity).
    assumption. }
  assert (Hr : in_range (make_signed T) s = true) by (rewrite Hss; apply wrap_range).
  assert (Hmin : a = 0 \/ s <> - 2 ^ 31).
  { destruct (Z.eq_dec a 0); [now left|]. right. intros ->.
    apply Hx. repeat split; auto.
    destruct HT as [HT|HT]; types HT; cbn [make_signed bits]; (reflexivity || (vm_compute in Hr; discriminate)). }
  destruct HT as [HT|HT].
  - assert (Hsb : s = b).
    { rewrite Hss. unfold shift_of. replace (make_signed T) with T by (types HT; reflexivity).
      now apply wrap_id. }
    rewrite Hsb in *. now apply vshift_signed_ok.
  - rewrite Hss in *. now apply vshift_unsigned_ok.
Qed.
Lemma c07_refuted T (r : bool) a b : T = I32 \/ T = U32 ->
  fits (bits T) (is_signed T) a -> fits (bits T) (is_signed T) b -> a <> 0 ->
  is_mod (bits T) true b (- 2 ^ 31) ->
  l_vshift T r a b = UB SignedOverflow.
Proof.
  intros HT Ha Hb H0 Hs. apply R in Ha, Hb. apply vshift_min_ub; try assumption.
  - destruct HT as [-> | ->]; cbn; auto.
  - unfold shift_of. apply (is_mod_unique (bits T) true b);
      [destruct HT as [-> | ->]; cbn; lia| |assumption].
    pose proof (wrap_is_mod (make_signed T) b) as H.
    destruct HT as [-> | ->]; exact H.
Qed.

Lemma c08 Td Ts (r : bool) a b :
  In (Td, Ts) [(I8, I16); (I16, I32); (U8, U16); (U16, U32); (I8, I32); (U8, U32)] ->
  fits (bits Ts) (is_signed Ts) a -> fits (bits Td) (is_signed Td) b ->
  let s := b mod bits Ts in
  l_vsrans Td Ts r a b =
  Ok (clamp (bits Td) (is_signed Td)
        ((a + (if r && (0 <? s) then 2 ^ (s - 1) else 0)) / 2 ^ s)).
Proof.
  intros HT Ha Hb s. apply R in Ha, Hb. now apply vsrans_ok.
Qed.

Lemma c09 T a b : fits (bits T) (is_signed T) a -> fits (bits T) (is_signed T) b ->
  let s := b mod bits T in
  (In T [U8; U16; U32] -> exists v, l_vsll T a b = Ok v /\ is_mod (bits T) false (a * 2 ^ s) v) /\
  (In T [U8; U16; U32] -> l_vsrl T a b = Ok (a / 2 ^ s)) /\
  (In T [I8; I16; I32] -> l_vsra T a b = Ok (a / 2 ^ s)).
Proof.
  intros Ha Hb s. apply R in Ha, Hb. repeat apply conj; intros HT.
  - replace false with (is_signed T) by (types HT; reflexivity).
    apply modres. now apply vsll_ok.
  - now apply vsrl_ok.
  - now apply vsra_ok.
Qed.

Lemma bits_ext T a b : In T unsigned3 -> in_range T a = true -> in_range T b = true ->
  (forall i, 0 <= i < bits T -> Z.testbit a i = Z.testbit b i) -> a = b.
Proof.
  intros HT Ha Hb H. apply unsigned_range in Ha, Hb; try assumption.
  apply Z.bits_inj'. intros i Hi. destruct (Z.lt_ge_cases i (bits T)).
  - apply H. lia.
  - rewrite !(unsigned_bits_high (bits T)) 
      by (try assumption; types HT; cbn [bits] in *; lia). reflexivity.
Qed.

Lemma c10 T a b : In T [U8; U16; U32] ->
  fits (bits T) (is_signed T) a -> fits (bits T) (is_signed T) b ->
  (exists v, l_vrev T a b = Ok v /\ fits (bits T) (is_signed T) v /\
     (forall i, 0 <= i < bits T ->
        Z.testbit v i = Z.testbit a (Z.lxor i (b mod bits T))) /\
     l_vrev T v b = Ok a) /\
  (exists v, l_vror T a b = Ok v /\ fits (bits T) (is_signed T) v /\
     (forall i, 0 <= i < bits T -> Z.testbit v i = Z.testbit a ((i + b) mod bits T)) /\
     (forall c s, fits (bits T) (is_signed T) c -> is_mod (bits T) false (b + c) s ->
        l_vror T v c = l_vror T a s)).
Proof.
  intros HT Ha Hb. apply R in Ha, Hb.
  assert (Hn : 0 < bits T) by (types HT; cbn; lia).
  split.
  - destruct (vrev_ok T a b HT Ha Hb) as (v & Hv & Hr & B).
    exists v. split; [assumption|]. split; [now apply R'|]. split; [assumption|].
    destruct (vrev_ok T v b HT Hr Hb) as (w & -> & Hrw & Bw). f_equal.
    apply (bits_ext T); try assumption. intros i Hi.
    assert (Hm : 0 <= b mod bits T < bits T) by (apply Z.mod_pos_bound; lia).
    assert (Hx : 0 <= Z.lxor i (b mod bits T) < bits T).
    { rewrite bits_log in *. apply lxor_bound; try assumption. types HT; cbn; lia. }
    rewrite Bw, B by assumption.
    now rewrite Z.lxor_assoc, Z.lxor_nilpotent, Z.lxor_0_r.
  - destruct (vror_ok T a b HT Ha Hb) as (v & Hv & Hr & B).
    exists v. split; [assumption|]. split; [now apply R'|]. split; [assumption|].
    intros c s Hc Hs. apply R in Hc.
    assert (Hrs : in_range T s = true).
    { apply R. destruct Hs as [Hf _]. replace (is_signed T) with false by (types HT; reflexivity).
      assumption. }
    destruct (vror_ok T v c HT Hr Hc) as (w & -> & Hrw & Bw).
    destruct (vror_ok T a s HT Ha Hrs) as (x & -> & Hrx & Bx). f_equal.
    apply (bits_ext T); try assumption. intros i Hi.
    rewrite Bw by assumption. rewrite B by (apply Z.mod_pos_bound; lia).
    rewrite Bx by assumption. f_equal.
    rewrite Z.add_mod_idemp_l by lia.
    destruct Hs as [_ Hs].
    assert (Hd : (s - (b + c)) mod bits T = 0).
    { apply Z.mod_divide in Hs; [|lia]. apply Z.mod_divide; [lia|].
      etransitivity; [|exact Hs].
      rewrite (bits_log T) at 1. exists (2 ^ (bits T - log_bits T)).
      rewrite <- Z.pow_add_r by (types HT; cbn; lia). f_equal. lia. }
    replace (i + s) with (i + c + b + (s - (b + c))) by ring.
    now rewrite (Z.add_mod (i + c + b) (s - (b + c))), Hd, Z.add_0_r, Z.mod_mod by lia.
Qed.

Lemma c11 T a b : In T [U8; U16; U32] ->
  fits (bits T) (is_signed T) a -> fits (bits T) (is_signed T) b ->
  let bitwise (o : outcome Z) (f : bool -> bool -> bool) :=
    exists v, o = Ok v /\ fits (bits T) (is_signed T) v /\
      forall i, 0 <= i < bits T -> Z.testbit v i = f (Z.testbit a i) (Z.testbit b i) in
  bitwise (l_vand T a b) andb /\ bitwise (l_vor T a b) orb /\ bitwise (l_vxor T a b) xorb /\
  (exists k, l_vclz T a = Ok k /\ leading false (bits T) a k) /\
  (exists k, l_vclb T a = Ok k /\ leading (Z.testbit a (bits T - 1)) (bits T) a k) /\
  l_vcpop T a = Ok (ones (bits T) a).
Proof.
  intros HT Ha Hb bw. subst bw. cbv beta. apply R in Ha, Hb.
  assert (Hok : forall (o : outcome Z) f v, o = Ok v -> in_range T v = true ->
     (forall i, Z.testbit v i = f (Z.testbit a i) (Z.testbit b i)) ->
     exists v, o = Ok v /\ fits (bits T) (is_signed T) v /\
      forall i, 0 <= i < bits T -> Z.testbit v i = f (Z.testbit a i) (Z.testbit b i)).
  { intros o f v -> Hr Hi. exists v. repeat split; try (now apply R'); auto. }
  repeat apply conj.
  - eapply Hok; [now apply vand_ok| |intros; apply Z.land_spec].
    apply bitop_range; try assumption.
    + intros. apply Z.land_nonneg. lia.
    + intros x y i _ Hx Hy. now rewrite Z.land_spec, Hx.
  - eapply Hok; [now apply vor_ok| |intros; apply Z.lor_spec].
    apply bitop_range; try assumption.
    + intros. apply Z.lor_nonneg. lia.
    + intros x y i _ Hx Hy. now rewrite Z.lor_spec, Hx, Hy.
  - eapply Hok; [now apply vxor_ok| |intros; apply Z.lxor_spec].
    apply bitop_range; try assumption.
    + intros. apply Z.lxor_nonneg. lia.
    + intros x y i _ Hx Hy. now rewrite Z.lxor_spec, Hx, Hy.
  - now apply vclz_ok.
  - now apply vclb_ok.
  - now apply vcpop_ok.
Qed.
Lemma c11_not a : fits (bits I32) (is_signed I32) a ->
  l_vmv I32 a = Ok a /\
  exists v, l_vnot I32 a = Ok v /\ fits (bits I32) (is_signed I32) v /\
    forall i, 0 <= i < 32 -> Z.testbit v i = negb (Z.testbit a i).
Proof.
  intros Ha. apply R in Ha. split; [now apply vmv_ok|].
  exists (Z.lnot a). split; [now apply vnot_ok|]. split.
  - apply R'. unfold Z.lnot. rng.
  - intros i Hi. apply Z.lnot_spec. lia.
Qed.

Lemma c12 Td Ts a b :
  In (Td, Ts) [(I16, I8); (I32, I16); (U16, U8); (U32, U16)] ->
  fits (bits Ts) (is_signed Ts) a -> fits (bits Ts) (is_signed Ts) b ->
  l_vaddw Td Ts a b = Ok (a + b) /\ l_vmulw Td Ts a b = Ok (a * b) /\
  l_vpadd Td Ts a b = Ok (a + b) /\
  (is_signed Ts = true -> l_vsubw Td Ts a b = Ok (a - b) /\ l_vpsub Td Ts a b = Ok (a - b)) /\
  (exists v, l_vsubw Td Ts a b = Ok v /\ is_mod (bits Td) (is_signed Td) (a - b) v) /\
  (exists v, l_vpsub Td Ts a b = Ok v /\ is_mod (bits Td) (is_signed Td) (a - b) v) /\
  (forall w, fits (bits Td) (is_signed Td) w ->
     exists v, l_vacc Td Ts w b = Ok v /\ is_mod (bits Td) (is_signed Td) (w + b) v).
Proof.
  intros HT Ha Hb. apply R in Ha, Hb.
  assert (Hsub : is_signed Ts = true -> wrap Td (a - b) = a - b).
  { intros Hs. apply wrap_id. wtypes HT; try discriminate; rng. }
  repeat apply conj.
  - now apply vaddw_ok.
  - now apply vmulw_ok.
  - now apply vpadd_ok.
  - intros Hs. rewrite <- (Hsub Hs). split; [now apply vsubw_ok|now apply vpsub_ok].
  - apply modres. now apply vsubw_ok.
  - apply modres. now apply vpsub_ok.
  - intros w Hw. apply R in Hw. apply modres. now apply vacc_ok.
Qed.
