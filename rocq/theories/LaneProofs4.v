(** * Lane operations: reverse, rotate, counting, bitwise *)
From Verif Require Import CInt Lane LaneSpec LaneProofs LaneProofs2.
From Coq Require Import ZifyBool ZifyNat.
Ltac Zify.zify_post_hook ::= Z.div_mod_to_equations.

Lemma unsigned_bits_high n r i : 0 <= r < 2 ^ n -> 0 <= n <= i -> Z.testbit r i = false.
Proof.
  intros Hr Hi. rewrite <- (Z.mod_small r (2 ^ n)) by assumption.
  apply Z.mod_pow2_bits_high. lia.
Qed.
Lemma unsigned_range T r : In T unsigned3 -> in_range T r = true -> 0 <= r < 2 ^ bits T.
Proof. intros HT H. types HT; cbn [bits]; zconst; rng. Qed.
Lemma range_unsigned T r : In T unsigned3 -> 0 <= r < 2 ^ bits T -> in_range T r = true.
Proof.
  intros HT H. types HT; cbn [bits] in H;
  match type of H with _ <= _ < ?x => let v := eval cbv in x in change x with v in H end; rng.
Qed.
(** Low bits survive conversion. *)
Lemma wrap_bits t v i : 0 <= i < bits t -> Z.testbit (wrap t v) i = Z.testbit v i.
Proof.
  intros Hi. destruct (wrap_cong t v) as [k ->].
  rewrite modulus_pow.
  rewrite <- (Z.mod_pow2_bits_low (v + k * 2 ^ bits t) (bits t)) by lia.
  rewrite Z.mod_add by (pose proof (Z.pow_pos_nonneg 2 (bits t)); lia).
  now rewrite Z.mod_pow2_bits_low by lia.
Qed.
(** Conversion to bool of a masked power of two is a bit test. *)
Lemma land_pow2_test x c : 0 <= c -> negb (Z.land x (2 ^ c) =? 0) = Z.testbit x c.
Proof.
  intros Hc. destruct (Z.testbit x c) eqn:E.
  - destruct (Z.land x (2 ^ c) =? 0) eqn:E2; [|reflexivity].
    apply Z.eqb_eq in E2. assert (H : Z.testbit (Z.land x (2 ^ c)) c = true).
    { rewrite Z.land_spec, E, Z.pow2_bits_true by lia. reflexivity. }
    rewrite E2, Z.bits_0 in H. discriminate.
  - assert (Z.land x (2 ^ c) = 0) as ->; [|reflexivity].
    apply Z.bits_inj_0. intros i. rewrite Z.land_spec, Z.pow2_bits_eqb by lia.
    destruct (Z.eqb_spec c i); [subst; now rewrite E|now rewrite andb_false_r].
Qed.

(** ** vrev *)
Lemma rev_stage_ok T c lo hi cnt r :
  In T unsigned3 -> In (c, lo, hi)
   [(1, 1431655765, 2863311530); (2, 858993459, 3435973836);
    (4, 252645135, 4042322160); (8, 16711935, 4278255360); (16, 65535, 4294901760)] ->
  c < bits T -> in_range T cnt = true -> in_range T r = true ->
  exists r', rev_stage T c lo hi (CV T cnt) (CV T r) = Ok (CV T r') /\
    in_range T r' = true /\
    forall i, 0 <= i < bits T ->
      Z.testbit r' i = Z.testbit r (Z.lxor i (Z.land cnt c)).
Proof.
  intros HT Hc Hcb Hcnt Hr. unfold rev_stage.
  assert (Hpow : exists k, 0 <= k < bits T /\ c = 2 ^ k).
  { cbn [In] in Hc.
    repeat match type of Hc with _ \/ _ => destruct Hc as [Hc|Hc] end;
      try contradiction; injection Hc as <- <- <-;
      [exists 0|exists 1|exists 2|exists 3|exists 4]; (split; [|reflexivity]);
      types HT; cbn [bits] in *; lia. }
  assert (Hlo : 0 <= lo < 2147483648 /\ 0 <= hi < 4294967296 /\ 0 < c <= 16)
    by (cbn [In] in Hc; repeat match type of Hc with _ \/ _ => destruct Hc as [Hc|Hc] end;
        try contradiction; injection Hc as <- <- <-; lia).
  assert (Htest : c_true (c_and (CV T cnt) (lit c)) = negb (Z.land cnt c =? 0)).
  { unfold c_true, c_and, c_bit, lit. cbn [cty cval].
    rewrite (wrap_id (uac T I32) cnt), (wrap_id (uac T I32) c); [reflexivity| |];
      types HT; cbn [uac promote bits] in *; rng. }
  rewrite Htest.
  destruct (Z.land cnt c =? 0) eqn:E0; cbn [negb].
  { exists r. split; [reflexivity|]. split; [assumption|].
    intros i Hi. apply Z.eqb_eq in E0. now rewrite E0, Z.lxor_0_r. }
  assert (Hcc : Z.land cnt c = c).
  { destruct Hpow as (k & Hk & ->).
    assert (Hb : Z.testbit cnt k = true)
      by (rewrite <- land_pow2_test by lia; now rewrite E0).
    apply Z.bits_inj'. intros i Hi. rewrite Z.land_spec, Z.pow2_bits_eqb by lia.
    destruct (Z.eqb_spec k i); [subst; now rewrite Hb|apply andb_false_r]. }
  rewrite Hcc. clear Htest E0 Hcc Hcnt cnt.
  pose proof (unsigned_range T r HT Hr) as Hur.
  (* evaluate the C expression *)
  assert (HL : 0 <= Z.land r lo < 2 ^ bits T).
  { assert (Hn : 0 <= Z.land r lo) by (apply Z.land_nonneg; lia).
    split; [assumption|].
    rewrite <- (Z.mod_small r (2 ^ bits T)) by assumption.
    rewrite <- Z.land_ones, <- Z.land_assoc, (Z.land_comm (Z.ones _)), Z.land_assoc, Z.land_ones
      by (types HT; cbn; lia).
    apply Z.mod_pos_bound. apply Z.pow_pos_nonneg; types HT; cbn; lia. }
  assert (HH : 0 <= Z.land r hi < 2 ^ bits T).
  { assert (Hn : 0 <= Z.land r hi) by (apply Z.land_nonneg; lia).
    split; [assumption|].
    rewrite <- (Z.mod_small r (2 ^ bits T)) by assumption.
    rewrite <- Z.land_ones, <- Z.land_assoc, (Z.land_comm (Z.ones _)), Z.land_assoc, Z.land_ones
      by (types HT; cbn; lia).
    apply Z.mod_pos_bound. apply Z.pow_pos_nonneg; types HT; cbn; lia. }
  set (L := Z.land r lo) in *. set (H := Z.land r hi) in *.
  assert (HX : exists tx x, c_shl (c_and (CV T r) (lit lo)) (lit c) = Ok (CV tx x) /\
               uac tx U32 = U32 /\ forall i, 0 <= i < 32 -> Z.testbit x i = Z.testbit (L * 2 ^ c) i).
  { unfold c_and, c_bit, lit. cbn [cty cval].
    rewrite (wrap_id (uac T I32) r), (wrap_id (uac T I32) lo);
      [|types HT; cbn [uac promote bits] in *; rng..].
    fold L. unfold c_shl. cbn [cty cval].
    assert (Hp : 1 <= 2 ^ c <= 2 ^ 16) by (apply pow2_bounds; lia).
    change (2 ^ 16) with 65536 in Hp.
    clear Hpow Hc. clearbody L H.
    types HT; cbn [uac promote bits is_signed] in *.
    - change (2 ^ 8) with 256 in *. rewrite (wrap_id I32 L) by rng.
      assert (E : (c <? 0) || (32 <=? c) = false) by lia. rewrite E.
      assert (E2 : (L <? 0) || (modulus I32 <=? L * 2 ^ c) = false).
      { cbn [modulus]. set (P := 2 ^ c) in *. clearbody P. nia. }
      rewrite E2. do 2 eexists. split; [reflexivity|]. split; [reflexivity|].
      intros i Hi. now rewrite wrap_bits.
    - change (2 ^ 16) with 65536 in *. rewrite (wrap_id I32 L) by rng.
      assert (E : (c <? 0) || (32 <=? c) = false) by lia. rewrite E.
      assert (E2 : (L <? 0) || (modulus I32 <=? L * 2 ^ c) = false).
      { cbn [modulus]. set (P := 2 ^ c) in *. clearbody P. nia. }
      rewrite E2. do 2 eexists. split; [reflexivity|]. split; [reflexivity|].
      intros i Hi. now rewrite wrap_bits.
    - change (2 ^ 32) with 4294967296 in *. rewrite (wrap_id U32 L) by rng.
      assert (E : (c <? 0) || (32 <=? c) = false) by lia. rewrite E.
      do 2 eexists. split; [reflexivity|]. split; [reflexivity|].
      intros i Hi. now rewrite wrap_bits. }
  destruct HX as (tx & x & -> & Htx & Hx). cbn [bind].
  assert (HY : c_shr (c_and (CV T r) (ulit hi)) (lit c) = Ok (CV U32 (H / 2 ^ c))).
  { unfold c_and, c_bit, ulit, lit. cbn [cty cval].
    assert (Hu : uac T U32 = U32) by (types HT; reflexivity). rewrite Hu.
    assert (Hr32 : in_range U32 r = true) by (types HT; rng).
    rewrite (wrap_id U32 r) by assumption. rewrite (wrap_id U32 hi) by rng.
    fold H. unfold c_shr. cbn [cty cval promote bits].
    assert (E : (c <? 0) || (32 <=? c) = false) by lia. rewrite E.
    rewrite (wrap_id U32 H); [reflexivity|].
    assert (2 ^ bits T <= 2 ^ 32) by (apply Z.pow_le_mono_r; types HT; cbn; lia).
    change (2 ^ 32) with 4294967296 in *. rng. }
  rewrite HY. cbn [bind]. unfold c_or, c_bit, cast. cbn [cty cval]. rewrite Htx.
  eexists. split; [reflexivity|]. split; [apply wrap_range|].
  intros i Hi.
  assert (Hb32 : bits T <= 32) by (types HT; cbn; lia).
  rewrite wrap_bits by assumption.
  rewrite Z.lor_spec, !wrap_bits by (cbn [bits]; lia).
  rewrite Hx by lia. rewrite <- Z.shiftl_mul_pow2, <- Z.shiftr_div_pow2 by lia.
  rewrite Z.shiftl_spec, Z.shiftr_spec by lia. subst L H. rewrite !Z.land_spec.
  assert (Hhigh : forall j, bits T <= j -> Z.testbit r j = false).
  { intros j Hj. apply (unsigned_bits_high (bits T)); [assumption|]. lia. }
  clear -HT Hc Hcb Hi Hhigh.
  assert (Hi32 : In i (map Z.of_nat (seq 0 32))).
  { apply in_map_iff. exists (Z.to_nat i). split; [lia|]. apply in_seq.
    types HT; cbn [bits] in *; lia. }
  cbn [map seq In] in Hi32.
  cbn [In] in Hc; repeat match type of Hc with _ \/ _ => destruct Hc as [Hc|Hc] end;
    try contradiction; injection Hc as <- <- <-.
  all: repeat match type of Hi32 with _ \/ _ => destruct Hi32 as [Hi32|Hi32] end;
    try contradiction; subst i.
  all: try (exfalso; types HT; cbn [bits] in *; lia).
  all: cbn - [Z.testbit bits];
    match goal with |- context [Z.testbit (Zpos ?m) ?k] => idtac | _ => idtac end.
  all: repeat match goal with
    | |- context [Z.testbit (Zpos ?m) ?k] =>
        let v := eval cbv in (Z.testbit (Zpos m) k) in
        change (Z.testbit (Zpos m) k) with v
    end.
  all: rewrite ?andb_true_r, ?andb_false_r, ?orb_false_r, ?orb_false_l; try reflexivity.
Qed.

Lemma lxor_bound m i j : 0 <= m -> 0 <= i < 2 ^ m -> 0 <= j < 2 ^ m ->
  0 <= Z.lxor i j < 2 ^ m.
Proof.
  intros Hm Hi Hj.
  assert (Z.lxor i j = Z.lxor i j mod 2 ^ m) as ->.
  { apply Z.bits_inj'. intros k Hk.
    destruct (Z.lt_ge_cases k m).
    - now rewrite Z.mod_pow2_bits_low by lia.
    - rewrite Z.mod_pow2_bits_high by lia. rewrite Z.lxor_spec.
      rewrite !(unsigned_bits_high m) by lia. reflexivity. }
  apply Z.mod_pos_bound. apply Z.pow_pos_nonneg; lia.
Qed.

Definition log_bits (T : ity) : Z := match T with I8 | U8 => 3 | I16 | U16 => 4 | I32 | U32 => 5 | _ => 6 end.
Lemma bits_log T : bits T = 2 ^ log_bits T.
Proof. destruct T; reflexivity. Qed.

Lemma vrev_ok T a b : In T unsigned3 -> in_range T a = true -> in_range T b = true ->
  exists v, l_vrev T a b = Ok v /\ in_range T v = true /\
    forall i, 0 <= i < bits T -> Z.testbit v i = Z.testbit a (Z.lxor i (b mod bits T)).
Proof.
  intros HT Ha Hb. unfold l_vrev. cbv zeta.
  assert (HC : cast T (c_and (CV T b) (lit 31)) = CV T (b mod 32)).
  { unfold cast, c_and, c_bit, lit. cbn [cty cval]. f_equal.
    rewrite (wrap_id (uac T I32) b), (wrap_id (uac T I32) 31);
      [|types HT; cbn [uac promote] in *; try reflexivity; rng..].
    change 31 with (2 ^ 5 - 1). rewrite land_mask_mod by lia. change (2 ^ 5) with 32.
    apply wrap_id. types HT; rng. }
  rewrite HC. clear HC.
  assert (Hc : 0 <= b mod 32 < 32) by lia.
  assert (Hmod : b mod bits T = (b mod 32) mod bits T) by (types HT; cbn [bits]; lia).
  rewrite Hmod. clear Hmod.
  set (cnt := b mod 32) in *. clearbody cnt. clear b Hb.
  assert (Hcnt : in_range T cnt = true) by (types HT; rng).
  assert (Hin : In cnt (map Z.of_nat (seq 0 32))).
  { apply in_map_iff. exists (Z.to_nat cnt). split; [lia|]. apply in_seq. lia. }
  assert (Hsmall : forall c, In c [1;2;4;8;16] -> c < bits T -> 0 <= Z.land cnt c < bits T).
  { intros c Hcc Hlt. rewrite bits_log. split; [apply Z.land_nonneg; lia|].
    assert (Z.land cnt c <= c); [|rewrite <- bits_log; lia].
    assert (Hall : forallb (fun x => forallb (fun c => Z.land x c <=? c) [1;2;4;8;16])
              (map Z.of_nat (seq 0 32)) = true) by reflexivity.
    rewrite forallb_forall in Hall. specialize (Hall _ Hin).
    rewrite forallb_forall in Hall. specialize (Hall _ Hcc). lia. }
  assert (Hlx : forall i c, In c [1;2;4;8;16] -> c < bits T -> 0 <= i < bits T ->
            0 <= Z.lxor i (Z.land cnt c) < bits T).
  { intros i c Hcc Hlt Hi. rewrite bits_log in *. apply lxor_bound; try assumption.
    - types HT; cbn; lia.
    - rewrite <- bits_log in *. now apply Hsmall. }
  assert (Hcomb8 : bits T = 8 -> Z.lxor (Z.lxor (Z.land cnt 4) (Z.land cnt 2)) (Z.land cnt 1) = cnt mod 8).
  { intros _. assert (Hall : forallb (fun x => Z.lxor (Z.lxor (Z.land x 4) (Z.land x 2)) (Z.land x 1)
        =? x mod 8) (map Z.of_nat (seq 0 32)) = true) by reflexivity.
    rewrite forallb_forall in Hall. specialize (Hall _ Hin). lia. }
  assert (Hcomb16 : bits T = 16 -> Z.lxor (Z.lxor (Z.lxor (Z.land cnt 8) (Z.land cnt 4)) (Z.land cnt 2)) (Z.land cnt 1) = cnt mod 16).
  { intros _. assert (Hall : forallb (fun x => Z.lxor (Z.lxor (Z.lxor (Z.land x 8) (Z.land x 4)) (Z.land x 2)) (Z.land x 1)
        =? x mod 16) (map Z.of_nat (seq 0 32)) = true) by reflexivity.
    rewrite forallb_forall in Hall. specialize (Hall _ Hin). lia. }
  assert (Hcomb32 : bits T = 32 -> Z.lxor (Z.lxor (Z.lxor (Z.lxor (Z.land cnt 16) (Z.land cnt 8)) (Z.land cnt 4)) (Z.land cnt 2)) (Z.land cnt 1) = cnt mod 32).
  { intros _. assert (Hall : forallb (fun x => Z.lxor (Z.lxor (Z.lxor (Z.lxor (Z.land x 16) (Z.land x 8)) (Z.land x 4)) (Z.land x 2)) (Z.land x 1)
        =? x mod 32) (map Z.of_nat (seq 0 32)) = true) by reflexivity.
    rewrite forallb_forall in Hall. specialize (Hall _ Hin). lia. }
  assert (Hn8 : 8 <= bits T) by (types HT; cbn; lia).
  destruct (rev_stage_ok T 1 1431655765 2863311530 cnt a HT ltac:(cbn; auto 8) ltac:(lia) Hcnt Ha)
    as (r1 & -> & Hr1 & B1). cbn [bind].
  destruct (rev_stage_ok T 2 858993459 3435973836 cnt r1 HT ltac:(cbn; auto 8) ltac:(lia) Hcnt Hr1)
    as (r2 & -> & Hr2 & B2). cbn [bind].
  destruct (rev_stage_ok T 4 252645135 4042322160 cnt r2 HT ltac:(cbn; auto 8) ltac:(lia) Hcnt Hr2)
    as (r3 & -> & Hr3 & B3). cbn [bind].
  destruct (sizeof T =? 1) eqn:S1.
  { assert (bits T = 8) by (types HT; cbn in *; lia).
    unfold ret, cast. cbn [cval]. rewrite wrap_id by assumption.
    exists r3. split; [reflexivity|]. split; [assumption|]. intros i Hi.
    rewrite B3, B2, B1 by (repeat (apply Hlx; [cbn; auto 8|lia|]); lia).
    rewrite H at 1. rewrite <- Hcomb8 by assumption. now rewrite !Z.lxor_assoc. }
  assert (Hn16 : 16 <= bits T) by (types HT; cbn in *; lia).
  destruct (rev_stage_ok T 8 16711935 4278255360 cnt r3 HT ltac:(cbn; auto 8) ltac:(lia) Hcnt Hr3)
    as (r4 & -> & Hr4 & B4). cbn [bind].
  destruct (sizeof T =? 2) eqn:S2.
  { assert (bits T = 16) by (types HT; cbn in *; lia).
    unfold ret, cast. cbn [cval]. rewrite wrap_id by assumption.
    exists r4. split; [reflexivity|]. split; [assumption|]. intros i Hi.
    rewrite B4, B3, B2, B1 by (repeat (apply Hlx; [cbn; auto 8|lia|]); lia).
    rewrite H at 1. rewrite <- Hcomb16 by assumption. now rewrite !Z.lxor_assoc. }
  assert (Hn32 : bits T = 32) by (types HT; cbn in *; lia).
  destruct (rev_stage_ok T 16 65535 4294901760 cnt r4 HT ltac:(cbn; auto 8) ltac:(lia) Hcnt Hr4)
    as (r5 & -> & Hr5 & B5). cbn [bind].
  unfold ret, cast. cbn [cval]. rewrite wrap_id by assumption.
  exists r5. split; [reflexivity|]. split; [assumption|]. intros i Hi.
  rewrite B5, B4, B3, B2, B1 by (repeat (apply Hlx; [cbn; auto 8|lia|]); lia).
  rewrite Hn32 at 1. rewrite <- Hcomb32 by assumption. now rewrite !Z.lxor_assoc.
Qed.

(** ** vror *)
Lemma ror_stage_ok T sh cnt r :
  In T unsigned3 -> In sh [1; 2; 4; 8; 16] ->
  0 <= cnt < bits T -> in_range T r = true ->
  exists r', ror_stage T sh (CV T cnt) (CV T r) = Ok (CV T r') /\
    in_range T r' = true /\
    forall i, 0 <= i < bits T ->
      Z.testbit r' i = Z.testbit r ((i + Z.land cnt sh) mod bits T).
Proof.
  intros HT Hs Hcnt Hr. unfold ror_stage.
  assert (Hpow : exists k, 0 <= k < 5 /\ sh = 2 ^ k).
  { cbn [In] in Hs.
    repeat match type of Hs with _ \/ _ => destruct Hs as [Hs|Hs] end;
      try contradiction; subst sh;
      [exists 0|exists 1|exists 2|exists 3|exists 4]; (split; [lia|reflexivity]). }
  assert (Hsb : 1 <= sh <= 16)
    by (cbn [In] in Hs; repeat match type of Hs with _ \/ _ => destruct Hs as [Hs|Hs] end;
        try contradiction; subst; lia).
  assert (Htest : c_true (c_and (CV T cnt) (lit sh)) = negb (Z.land cnt sh =? 0)).
  { unfold c_true, c_and, c_bit, lit. cbn [cty cval].
    rewrite (wrap_id (uac T I32) cnt), (wrap_id (uac T I32) sh); [reflexivity| |];
      types HT; cbn [uac promote bits] in *; rng. }
  rewrite Htest.
  destruct (Z.land cnt sh =? 0) eqn:E0; cbn [negb].
  { exists r. split; [reflexivity|]. split; [assumption|].
    intros i Hi. apply Z.eqb_eq in E0. rewrite E0, Z.add_0_r. now rewrite Z.mod_small. }
  assert (Hcc : Z.land cnt sh = sh).
  { destruct Hpow as (k & Hk & ->).
    assert (Hb : Z.testbit cnt k = true)
      by (rewrite <- land_pow2_test by lia; now rewrite E0).
    apply Z.bits_inj'. intros i Hi. rewrite Z.land_spec, Z.pow2_bits_eqb by lia.
    destruct (Z.eqb_spec k i); [subst; now rewrite Hb|apply andb_false_r]. }
  (* the shift is below the width, otherwise the bit could not be set *)
  assert (Hlt : sh < bits T).
  { rewrite <- Hcc. destruct (Z.lt_ge_cases (Z.land cnt sh) (bits T)) as [|Hge]; [assumption|].
    exfalso. rewrite Hcc in Hge. destruct Hpow as (k & Hk & Hp).
    assert (Hb : Z.testbit cnt k = true)
      by (rewrite <- land_pow2_test by lia; rewrite <- Hp; now rewrite E0).
    rewrite bits_log in *. subst sh.
    assert (Hlk : log_bits T <= k).
    { apply (Z.pow_le_mono_r_iff 2); lia. }
    rewrite (unsigned_bits_high (log_bits T)) in Hb; [discriminate|assumption|].
    split; [types HT; cbn; lia|assumption]. }
  rewrite Hcc. clear Htest E0 Hcc Hcnt cnt Hpow.
  pose proof (unsigned_range T r HT Hr) as Hur.
  assert (Hu32 : uac T I32 = promote T) by (types HT; reflexivity).
  assert (Hpr : wrap (promote T) r = r) by (apply wrap_id; types HT; cbn [promote]; rng).
  assert (HX : c_shr (CV T r) (lit sh) = Ok (CV (promote T) (r / 2 ^ sh))).
  { unfold c_shr, lit. cbn [cty cval]. rewrite Hpr.
    assert (E : (sh <? 0) || (bits (promote T) <=? sh) = false)
      by (types HT; cbn [promote bits] in *; lia).
    now rewrite E. }
  rewrite HX. cbn [bind].
  assert (HN : c_sub (ullit (sizeof T * 8)) (lit sh) = Ok (CV U64 (bits T - sh))).
  { unfold c_sub, arith, arith_result, ullit, lit. cbn [cty cval uac promote is_signed].
    rewrite (wrap_id U64 (sizeof T * 8)) by (types HT; reflexivity).
    rewrite (wrap_id U64 sh) by rng.
    replace (sizeof T * 8) with (bits T) by (types HT; reflexivity).
    rewrite wrap_id; [reflexivity|]. types HT; cbn [bits] in *; rng. }
  rewrite HN. cbn [bind].
  assert (HY : exists y, c_shl (CV T r) (CV U64 (bits T - sh)) = Ok (CV (promote T) y) /\
     forall i, 0 <= i < 32 -> Z.testbit y i = Z.testbit (r * 2 ^ (bits T - sh)) i).
  { unfold c_shl. cbn [cty cval]. rewrite Hpr.
    assert (E : (bits T - sh <? 0) || (bits (promote T) <=? bits T - sh) = false)
      by (types HT; cbn [promote bits] in *; lia).
    rewrite E.
    assert (Hp : 1 <= 2 ^ (bits T - sh) <= 2 ^ (bits T - 1)) by (apply pow2_bounds; lia).
    types HT; cbn [promote is_signed bits] in *.
    - change (2 ^ 8) with 256 in *. change (2 ^ (8 - 1)) with 128 in Hp.
      assert (E2 : (r <? 0) || (modulus I32 <=? r * 2 ^ (8 - sh)) = false).
      { cbn [modulus]. set (P := 2 ^ (8 - sh)) in *. clearbody P. nia. }
      rewrite E2. eexists. split; [reflexivity|]. intros i Hi. now rewrite wrap_bits.
    - change (2 ^ 16) with 65536 in *. change (2 ^ (16 - 1)) with 32768 in Hp.
      assert (E2 : (r <? 0) || (modulus I32 <=? r * 2 ^ (16 - sh)) = false).
      { cbn [modulus]. set (P := 2 ^ (16 - sh)) in *. clearbody P. nia. }
      rewrite E2. eexists. split; [reflexivity|]. intros i Hi. now rewrite wrap_bits.
    - eexists. split; [reflexivity|]. intros i Hi. now rewrite wrap_bits. }
  destruct HY as (y & -> & Hy). cbn [bind]. unfold cast, c_or, c_bit. cbn [cty cval].
  replace (uac (promote T) (promote T)) with (promote T) by (types HT; reflexivity).
  eexists. split; [reflexivity|]. split; [apply wrap_range|].
  intros i Hi.
  assert (Hpb : bits (promote T) = 32) by (types HT; reflexivity).
  assert (Hb32 : bits T <= 32) by (types HT; cbn; lia).
  rewrite wrap_bits by assumption.
  rewrite Z.lor_spec, !wrap_bits by lia. rewrite Hy by lia.
  rewrite <- Z.shiftl_mul_pow2, <- Z.shiftr_div_pow2 by lia.
  rewrite Z.shiftl_spec, Z.shiftr_spec by lia.
  destruct (Z.lt_ge_cases (i + sh) (bits T)) as [Hcase|Hcase].
  - rewrite (Z.mod_small (i + sh)) by lia.
    rewrite (Z.testbit_neg_r r (i - (bits T - sh))) by lia. apply orb_false_r.
  - rewrite (unsigned_bits_high (bits T) r (i + sh)) by (try assumption; lia).
    cbn [orb]. f_equal.
    apply Z.mod_unique with (q := 1); lia.
Qed.

Lemma vror_ok T a b : In T unsigned3 -> in_range T a = true -> in_range T b = true ->
  exists v, l_vror T a b = Ok v /\ in_range T v = true /\
    forall i, 0 <= i < bits T -> Z.testbit v i = Z.testbit a ((i + b) mod bits T).
Proof.
  intros HT Ha Hb. unfold l_vror. cbv zeta.
  assert (HC : cast T (c_and (CV T b) (cast T (ullit (sizeof T * 8 - 1)))) = CV T (b mod bits T)).
  { unfold cast, c_and, c_bit, ullit. cbn [cty cval]. f_equal.
    replace (sizeof T * 8 - 1) with (2 ^ log_bits T - 1) by (types HT; reflexivity).
    rewrite (wrap_id T (2 ^ log_bits T - 1)) by (types HT; reflexivity).
    rewrite (wrap_id (uac T T) b), (wrap_id (uac T T) (2 ^ log_bits T - 1));
      [|types HT; cbn [uac promote] in *; try reflexivity; rng..].
    rewrite land_mask_mod by (types HT; cbn; lia). rewrite <- bits_log.
    apply wrap_id. types HT; cbn [bits]; rng. }
  rewrite HC. clear HC.
  assert (Hc : 0 <= b mod bits T < bits T) by (apply Z.mod_pos_bound; types HT; cbn; lia).
  assert (Hn : 0 < bits T <= 32) by (types HT; cbn; lia).
  assert (Hmod : forall i, (i + b) mod bits T = (i + b mod bits T) mod bits T).
  { intros i. now rewrite Z.add_mod_idemp_r by lia. }
  set (cnt := b mod bits T) in *. clearbody cnt.
  assert (Hin : In cnt (map Z.of_nat (seq 0 32))).
  { apply in_map_iff. exists (Z.to_nat cnt). split; [lia|]. apply in_seq. lia. }
  assert (Hsum : Z.land cnt 16 + Z.land cnt 8 + Z.land cnt 4 + Z.land cnt 2 + Z.land cnt 1 = cnt).
  { assert (Hall : forallb (fun x => Z.land x 16 + Z.land x 8 + Z.land x 4 + Z.land x 2 + Z.land x 1
        =? x) (map Z.of_nat (seq 0 32)) = true) by reflexivity.
    rewrite forallb_forall in Hall. specialize (Hall _ Hin). lia. }
  destruct (ror_stage_ok T 1 cnt a HT ltac:(cbn; auto 8) Hc Ha) as (r1 & -> & Hr1 & B1).
  cbn [bind].
  destruct (ror_stage_ok T 2 cnt r1 HT ltac:(cbn; auto 8) Hc Hr1) as (r2 & -> & Hr2 & B2).
  cbn [bind].
  destruct (ror_stage_ok T 4 cnt r2 HT ltac:(cbn; auto 8) Hc Hr2) as (r3 & -> & Hr3 & B3).
  cbn [bind].
  destruct (ror_stage_ok T 8 cnt r3 HT ltac:(cbn; auto 8) Hc Hr3) as (r4 & -> & Hr4 & B4).
  cbn [bind].
  destruct (ror_stage_ok T 16 cnt r4 HT ltac:(cbn; auto 8) Hc Hr4) as (r5 & -> & Hr5 & B5).
  cbn [bind]. unfold ret, cast. cbn [cval]. rewrite wrap_id by assumption.
  exists r5. split; [reflexivity|]. split; [assumption|]. intros i Hi.
  rewrite B5, B4, B3, B2, B1 by (try (apply Z.mod_pos_bound); lia).
  repeat (rewrite Z.add_mod_idemp_l by lia; rewrite <- ?Z.add_assoc). rewrite Hmod. do 2 f_equal. clear - Hsum.
  transitivity (i + (Z.land cnt 16 + Z.land cnt 8 + Z.land cnt 4 + Z.land cnt 2 + Z.land cnt 1));
    [ring|now rewrite Hsum].
Qed.

(** ** Bitwise *)
Lemma bitop_range T f a b : In T unsigned3 ->
  (forall x y, 0 <= x -> 0 <= y -> 0 <= f x y) ->
  (forall x y i, 0 <= i -> Z.testbit x i = false -> Z.testbit y i = false ->
      Z.testbit (f x y) i = false) ->
  in_range T a = true -> in_range T b = true -> in_range T (f a b) = true.
Proof.
  intros HT Hnn Hbit Ha Hb. apply range_unsigned; [assumption|].
  apply unsigned_range in Ha, Hb; [|assumption..].
  split; [apply Hnn; lia|].
  assert (Hn : 0 <= bits T) by (types HT; cbn; lia).
  assert (f a b = f a b mod 2 ^ bits T) as ->.
  { apply Z.bits_inj'. intros k Hk. destruct (Z.lt_ge_cases k (bits T)).
    - now rewrite Z.mod_pow2_bits_low by lia.
    - rewrite Z.mod_pow2_bits_high by lia.
      apply Hbit; [lia|apply (unsigned_bits_high (bits T)); lia..]. }
  apply Z.mod_pos_bound. apply Z.pow_pos_nonneg; lia.
Qed.
Lemma bitop_eval T f a b : In T unsigned3 -> in_range T a = true -> in_range T b = true ->
  in_range T (f a b) = true -> ret T (c_bit f (CV T a) (CV T b)) = Ok (f a b).
Proof.
  intros HT Ha Hb Hf. unfold ret, cast, c_bit. cbn [cty cval].
  rewrite (wrap_id (uac T T) a), (wrap_id (uac T T) b);
    [|types HT; cbn [uac promote]; rng..].
  now rewrite wrap_id.
Qed.
Lemma vand_ok T a b : In T unsigned3 -> in_range T a = true -> in_range T b = true ->
  l_vand T a b = Ok (Z.land a b).
Proof.
  intros HT Ha Hb. apply bitop_eval; try assumption.
  apply bitop_range; try assumption.
  - intros. apply Z.land_nonneg. lia.
  - intros x y i _ Hx Hy. now rewrite Z.land_spec, Hx.
Qed.
Lemma vor_ok T a b : In T unsigned3 -> in_range T a = true -> in_range T b = true ->
  l_vor T a b = Ok (Z.lor a b).
Proof.
  intros HT Ha Hb. apply bitop_eval; try assumption.
  apply bitop_range; try assumption.
  - intros. apply Z.lor_nonneg. lia.
  - intros x y i _ Hx Hy. now rewrite Z.lor_spec, Hx, Hy.
Qed.
Lemma vxor_ok T a b : In T unsigned3 -> in_range T a = true -> in_range T b = true ->
  l_vxor T a b = Ok (Z.lxor a b).
Proof.
  intros HT Ha Hb. apply bitop_eval; try assumption.
  apply bitop_range; try assumption.
  - intros. apply Z.lxor_nonneg. lia.
  - intros x y i _ Hx Hy. now rewrite Z.lxor_spec, Hx, Hy.
Qed.
Lemma vnot_ok a : in_range I32 a = true -> l_vnot I32 a = Ok (Z.lnot a).
Proof.
  intros Ha. unfold l_vnot, ret, cast, c_not. cbn [cty cval promote].
  rewrite (wrap_id I32 a) by assumption.
  assert (in_range I32 (Z.lnot a) = true) by (unfold Z.lnot; rng).
  now rewrite (wrap_id I32 (Z.lnot a)), (wrap_id I32 (Z.lnot a)).
Qed.

(** ** Counting *)
Lemma count_lead_spec bit v n :
  0 <= count_lead bit v n <= Z.of_nat n /\
  (forall i, Z.of_nat n - count_lead bit v n <= i < Z.of_nat n -> Z.testbit v i = bit) /\
  (count_lead bit v n < Z.of_nat n ->
   Z.testbit v (Z.of_nat n - count_lead bit v n - 1) = negb bit).
Proof.
  induction n as [|m IH]; cbn [count_lead].
  - repeat split; try lia.
  - destruct (Bool.eqb (Z.testbit v (Z.of_nat m)) bit) eqn:E.
    + apply eqb_prop in E. destruct IH as (H1 & H2 & H3).
      set (k := count_lead bit v m) in *. repeat split; try lia.
      * intros i Hi. destruct (Z.eq_dec i (Z.of_nat m)); [now subst|]. apply H2. lia.
      * intros Hk. replace (Z.of_nat (S m) - (1 + k) - 1) with (Z.of_nat m - k - 1) by lia.
        apply H3. lia.
    + apply eqb_false_iff in E. repeat split; try lia.
      intros _. replace (Z.of_nat (S m) - 0 - 1) with (Z.of_nat m) by lia.
      destruct (Z.testbit v (Z.of_nat m)), bit; cbn; congruence.
Qed.
Lemma leading_absl bit T v : leading bit (bits T) v (count_lead bit v (Z.to_nat (bits T))).
Proof.
  unfold leading. pose proof (count_lead_spec bit v (Z.to_nat (bits T))) as H.
  rewrite Z2Nat.id in H by (destruct T; cbn; lia). exact H.
Qed.
Lemma leading_range bit T v : In T unsigned3 ->
  in_range T (count_lead bit v (Z.to_nat (bits T))) = true.
Proof.
  intros HT. pose proof (leading_absl bit T v) as (H & _ & _).
  set (k := count_lead bit v (Z.to_nat (bits T))) in *. clearbody k.
  types HT; cbn [bits] in H; rng.
Qed.
Lemma vclz_ok T a : In T unsigned3 -> in_range T a = true ->
  exists v, l_vclz T a = Ok v /\ leading false (bits T) a v.
Proof.
  intros HT Ha. eexists. unfold l_vclz, ret, cast, lit, absl_countl_zero. cbn [cval].
  rewrite wrap_id by now apply leading_range.
  split; [reflexivity|apply leading_absl].
Qed.
Lemma vclb_ok T a : In T unsigned3 -> in_range T a = true ->
  exists v, l_vclb T a = Ok v /\ leading (Z.testbit a (bits T - 1)) (bits T) a v.
Proof.
  intros HT Ha. unfold l_vclb.
  assert (HM : c_shl (ulit 1) (ullit (sizeof T * 8 - 1)) = Ok (CV U32 (2 ^ (bits T - 1))))
    by (types HT; reflexivity).
  rewrite HM. cbn [bind].
  assert (HC : c_true (c_and (CV T a) (CV U32 (2 ^ (bits T - 1)))) = Z.testbit a (bits T - 1)).
  { unfold c_true, c_and, c_bit. cbn [cty cval].
    rewrite (wrap_id (uac T U32) a) by (types HT; cbn [uac promote]; rng).
    rewrite (wrap_id (uac T U32) (2 ^ _)) by (types HT; reflexivity).
    apply land_pow2_test. types HT; cbn; lia. }
  rewrite HC. unfold ret, cast, lit, absl_countl_one, absl_countl_zero. cbn [cval].
  eexists. split; [reflexivity|].
  destruct (Z.testbit a (bits T - 1)); (rewrite wrap_id by (now apply leading_range));
    apply leading_absl.
Qed.
Lemma popcount_ones v n : popcount_from v n =
  Z.of_nat (length (filter (Z.testbit v) (map Z.of_nat (seq 0 n)))).
Proof.
  induction n as [|m IH]; [reflexivity|]. cbn [popcount_from].
  rewrite seq_S, map_app, filter_app, app_length, Nat2Z.inj_add, <- IH.
  cbn [map filter Nat.add]. destruct (Z.testbit v (Z.of_nat m)); cbn [length]; lia.
Qed.
Lemma filter_len {A} (f : A -> bool) l : (length (filter f l) <= length l)%nat.
Proof. induction l as [|x l IH]; cbn; [lia|]. destruct (f x); cbn; lia. Qed.
Lemma vcpop_ok T a : In T unsigned3 -> in_range T a = true ->
  l_vcpop T a = Ok (ones (bits T) a).
Proof.
  intros HT Ha. unfold l_vcpop, ret, cast, lit, absl_popcount, ones. cbn [cval].
  rewrite popcount_ones. rewrite wrap_id; [reflexivity|].
  set (l := filter _ _).
  assert (Hl : (length l <= Z.to_nat (bits T))%nat).
  { unfold l. etransitivity; [apply filter_len|].
    rewrite map_length, seq_length. lia. }
  clearbody l. types HT; cbn [bits] in Hl; rng.
Qed.
