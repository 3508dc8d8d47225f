(** * Lane operations: proofs of the specifications *)
From Verif Require Import CInt Lane LaneSpec.
From Coq Require Import ZifyBool ZifyNat.
Ltac Zify.zify_post_hook ::= Z.div_mod_to_equations.

Definition signed3 : list ity := [I8; I16; I32].
Definition unsigned3 : list ity := [U8; U16; U32].
Definition all6 : list ity := [I8; I16; I32; U8; U16; U32].

(** ** Basic facts *)
Lemma wrap_id t v : in_range t v = true -> wrap t v = v.
Proof.
  unfold in_range, wrap, tmin, tmax.
  destruct t; cbn [is_signed half modulus]; intros H; lia.
Qed.

Lemma wrap_range t v : in_range t (wrap t v) = true.
Proof.
  unfold in_range, wrap, tmin, tmax.
  destruct t; cbn [is_signed half modulus]; lia.
Qed.

Lemma modulus_pow t : modulus t = 2 ^ bits t.
Proof. destruct t; reflexivity. Qed.
Lemma half_pow t : half t = 2 ^ (bits t - 1).
Proof. destruct t; reflexivity. Qed.
Lemma tmin_lo t : tmin t = lo (bits t) (is_signed t).
Proof. destruct t; reflexivity. Qed.
Lemma tmax_hi t : tmax t = hi (bits t) (is_signed t).
Proof. destruct t; reflexivity. Qed.

Lemma in_range_fits t v : in_range t v = true <-> fits (bits t) (is_signed t) v.
Proof. unfold in_range, fits. rewrite tmin_lo, tmax_hi. lia. Qed.

Lemma wrap_cong t v : exists k, wrap t v = v + k * modulus t.
Proof.
  unfold wrap. destruct (is_signed t).
  - exists (- ((v + half t) / modulus t)).
    pose proof (Z.div_mod (v + half t) (modulus t)
                  ltac:(destruct t; discriminate)). lia.
  - exists (- (v / modulus t)).
    pose proof (Z.div_mod v (modulus t) ltac:(destruct t; discriminate)). lia.
Qed.

Lemma wrap_is_mod t v : is_mod (bits t) (is_signed t) v (wrap t v).
Proof.
  split.
  - apply in_range_fits, wrap_range.
  - destruct (wrap_cong t v) as [k Hk]. rewrite Hk, <- modulus_pow.
    replace (v + k * modulus t - v) with (k * modulus t) by ring.
    apply Z.mod_mul. destruct t; discriminate.
Qed.

Lemma wrap_eqm t x y k : x = y + k * modulus t -> wrap t x = wrap t y.
Proof.
  intros ->. unfold wrap.
  assert (modulus t <> 0) by (destruct t; discriminate).
  destruct (is_signed t).
  - replace (y + k * modulus t + half t) with (y + half t + k * modulus t) by ring.
    now rewrite Z.mod_add.
  - now rewrite Z.mod_add.
Qed.

(** [wrap] only depends on the residue modulo a coarser or equal modulus. *)
Lemma wrap_wrap t u v : bits t <= bits u -> wrap t (wrap u v) = wrap t v.
Proof.
  intros H. destruct (wrap_cong u v) as [k Hk]. rewrite Hk.
  apply (wrap_eqm t _ _ (k * 2 ^ (bits u - bits t))).
  rewrite !modulus_pow, <- Z.mul_assoc, <- Z.pow_add_r; [|lia|destruct t; cbn; lia].
  now replace (bits u - bits t + bits t) with (bits u) by ring.
Qed.

Lemma is_mod_unique n s x v w : 0 < n ->
  is_mod n s x v -> is_mod n s x w -> v = w.
Proof.
  unfold is_mod, fits, lo, hi. intros Hn [Hv Hv'] [Hw Hw'].
  assert (Hp : 2 ^ n = 2 * 2 ^ (n - 1)).
  { rewrite <- Z.pow_succ_r by lia. f_equal. lia. }
  assert (0 < 2 ^ (n - 1)) by (apply Z.pow_pos_nonneg; lia).
  apply Z.mod_divide in Hv', Hw'; [|lia|lia].
  destruct Hv' as [p Hp'], Hw' as [q Hq].
  assert (v - w = (p - q) * 2 ^ n) by lia.
  assert (p - q = 0); [|nia].
  destruct s; nia.
Qed.

(** ** Tactics *)
Ltac c_unfold :=
  unfold c_std_min, c_std_max, shift_amount;
  unfold ret, c_add, c_sub, c_mul, arith, arith_result, c_neg, c_and, c_or,
    c_xor, c_bit, c_not, c_lt, c_le, c_gt, c_ge, c_eq, c_ne, c_cmp, c_true,
    of_bool, lit, ulit, llit, ullit, lim_min, lim_max, cast, check,
    c_shr, c_shl.
(** Reduce the type-level computation, keep the integer expressions. *)
Ltac c_cbn := cbn -[Z.modulo Z.div Z.add Z.sub Z.mul Z.opp Z.pow Z.land Z.lor Z.lxor Z.lnot
    Z.ltb Z.leb Z.eqb Z.max Z.min in_range wrap andb orb negb bind
    rev_stage ror_stage count_lead popcount_from half modulus tmin tmax].
Ltac types HT :=
  cbn [In signed3 unsigned3 all6] in HT;
  repeat match type of HT with _ \/ _ => destruct HT as [HT|HT] end;
  try contradiction; subst.
Ltac wrap_unfold := unfold in_range, wrap, tmin, tmax in *; cbn [is_signed half modulus] in *.
Ltac rng := unfold in_range, tmin, tmax in *; cbn [is_signed half modulus] in *; lia.
Lemma lxor_range T a b : is_signed T = true -> in_range T a = true -> in_range T b = true ->
  in_range T (Z.lxor a b) = true.
Proof.
  intros Hs Ha Hb. unfold in_range, tmin, tmax in *. rewrite Hs in *.
  assert (Hh : half T = 2 ^ (bits T - 1)) by (destruct T; reflexivity).
  assert (Hn : 0 < bits T - 1) by (destruct T; cbn; lia).
  rewrite Hh in *. set (n := bits T - 1) in *. clearbody n.
  assert (B : forall x, - 2 ^ n <= x <= 2 ^ n - 1 <-> Z.shiftr x n = 0 \/ Z.shiftr x n = -1).
  { intros x. rewrite Z.shiftr_div_pow2 by lia.
    pose proof (Z.pow_pos_nonneg 2 n ltac:(lia) ltac:(lia)).
    pose proof (Z.div_mod x (2^n) ltac:(lia)).
    pose proof (Z.mod_pos_bound x (2^n) ltac:(lia)).
    set (q := x / 2 ^ n) in *. set (P := 2 ^ n) in *. clearbody q P. nia. }
  assert (Ha' : - 2 ^ n <= a <= 2 ^ n - 1) by lia.
  assert (Hb' : - 2 ^ n <= b <= 2 ^ n - 1) by lia.
  apply B in Ha', Hb'.
  assert (- 2 ^ n <= Z.lxor a b <= 2 ^ n - 1); [|lia].
  apply B. rewrite Z.shiftr_lxor.
  destruct Ha' as [->| ->], Hb' as [->| ->]; cbn; auto.
Qed.

(** Simplify an innermost [wrap] occurring in [e]: identity when in range,
    otherwise name it and record its defining congruence.  An exclusive-or of
    in-range values is replaced by a variable with its sign rule. *)
Ltac wsimp_in e :=
  match e with
  | context [Z.lxor ?x ?y] =>
      lazymatch x with context [wrap _ _] => fail | _ => idtac end;
      lazymatch y with context [wrap _ _] => fail | _ => idtac end;
      let H := fresh "Hx" in let H2 := fresh "Hy" in let v := fresh "e" in
      pose proof (Z.lxor_nonneg x y) as H;
      pose proof (lxor_range I32 x y eq_refl ltac:(rng) ltac:(rng)) as H2;
      set (v := Z.lxor x y) in *; clearbody v
  | context [wrap ?t ?x] =>
      lazymatch x with context [wrap _ _] => fail | _ => idtac end;
      first
      [ rewrite (wrap_id t x) by rng
      | let w := fresh "w" in let k := fresh "k" in
        let Hk := fresh "Hk" in let Hr := fresh "Hr" in
        pose proof (wrap_cong t x) as [k Hk];
        pose proof (wrap_range t x) as Hr;
        set (w := wrap t x) in *; clearbody w;
        unfold in_range, tmin, tmax in Hr; cbn [is_signed half modulus] in Hk, Hr ]
  end.
Ltac wsimp1 := match goal with |- ?G => wsimp_in G end.
(** Decide or split the next branch. *)
Ltac dec c :=
  let E := fresh "E" in
  first [ assert (E : c = true) by rng; rewrite E; clear E
        | assert (E : c = false) by rng; rewrite E; clear E
        | destruct c eqn:? ].
Ltac branch c :=
  lazymatch c with
  | context [if ?d then _ else _] => branch d
  | context [wrap _ _] => wsimp_in c
  | context [Z.lxor _ _] => wsimp_in c
  | _ => dec c
  end.
Ltac step1 :=
  match goal with
  | |- context [bind (Ok _) _] => progress cbn [bind]
  | |- context [bind (UB _) _] => progress cbn [bind]
  | |- context [bind Crash _] => progress cbn [bind]
  | |- context [bind (if ?c then _ else _) _] => branch c
  | |- (if ?c then _ else _) = _ => branch c
  | |- Ok ?e = _ =>
      match e with context [if ?c then _ else _] => branch c end
  end.
Ltac run := c_unfold; c_cbn; repeat (step1; c_cbn).
(** Close [Ok x = Ok (wrap T y)] when x is congruent to y. *)
Ltac fin := repeat wsimp1; first [ reflexivity | f_equal; rng | exfalso; rng ].


(** Bounds on a product of lane values, as a linear hypothesis on [a * b]. *)
Lemma prod_bound_u hi a b : 0 <= a <= hi -> 0 <= b <= hi -> 0 <= a * b <= hi * hi.
Proof. intros. nia. Qed.
Lemma prod_bound_s h a b : 0 < h -> - h <= a <= h - 1 -> - h <= b <= h - 1 ->
  - (h * (h - 1)) <= a * b <= h * h.
Proof. intros. destruct (Z.le_gt_cases 0 a), (Z.le_gt_cases 0 b); nia. Qed.
Ltac prod a b :=
  let H := fresh "Hp" in
  match goal with
  | Ha : in_range ?t a = true, Hb : in_range ?t b = true |- _ =>
      let s := eval cbv in (is_signed t) in
      match s with
      | true => let h := eval cbv in (half t) in
        let v1 := eval cbv in (- (h * (h - 1))) in
        let v2 := eval cbv in (h * h) in
        assert (H : v1 <= a * b <= v2)
          by (change v1 with (- (h * (h - 1))); change v2 with (h * h);
              apply prod_bound_s; unfold in_range, tmin, tmax in Ha, Hb;
              cbn [is_signed half modulus] in Ha, Hb; lia)
      | false => let m := eval cbv in (modulus t - 1) in
        let v2 := eval cbv in (m * m) in
        assert (H : 0 <= a * b <= v2)
          by (change v2 with (m * m);
              apply prod_bound_u; unfold in_range, tmin, tmax in Ha, Hb;
              cbn [is_signed half modulus] in Ha, Hb; lia)
      end
  end.

(** ** C01 *)
Lemma vadd_ok T a b : In T signed3 ->
  in_range T a = true -> in_range T b = true ->
  l_vadd T a b = Ok (wrap T (a + b)).
Proof. intros HT Ha Hb. unfold l_vadd. types HT; run; fin. Qed.
Lemma vsub_ok T a b : In T signed3 ->
  in_range T a = true -> in_range T b = true ->
  l_vsub T a b = Ok (wrap T (a - b)).
Proof. intros HT Ha Hb. unfold l_vsub. types HT; run; fin. Qed.
Lemma vrsub_ok T a b : In T signed3 ->
  in_range T a = true -> in_range T b = true ->
  l_vrsub T a b = Ok (wrap T (b - a)).
Proof. intros HT Ha Hb. unfold l_vrsub. types HT; run; fin. Qed.
Lemma vadd3_ok T d a b : In T signed3 -> in_range T d = true ->
  in_range T a = true -> in_range T b = true ->
  l_vadd3 T d a b = Ok (wrap T (d + a + b)).
Proof. intros HT Hd Ha Hb. unfold l_vadd3. types HT; run; fin. Qed.
Lemma vmul_ok T a b : In T signed3 ->
  in_range T a = true -> in_range T b = true ->
  l_vmul T a b = Ok (wrap T (a * b)).
Proof. intros HT Ha Hb. unfold l_vmul. types HT; prod a b; run; fin. Qed.
Lemma vmacc_ok T d a b : In T signed3 -> in_range T d = true ->
  in_range T a = true -> in_range T b = true ->
  l_vmacc T d a b = Ok (wrap T (d + a * b)).
Proof. intros HT Hd Ha Hb. unfold l_vmacc. types HT; prod a b; run; fin. Qed.
Lemma vmadd_ok T d a b : In T signed3 -> in_range T d = true ->
  in_range T a = true -> in_range T b = true ->
  l_vmadd T d a b = Ok (wrap T (a + d * b)).
Proof. intros HT Hd Ha Hb. unfold l_vmadd. types HT; prod d b; run; fin. Qed.

(** ** C02 *)
Definition clampT (T : ity) (x : Z) : Z := clamp (bits T) (is_signed T) x.
Lemma clampT_eq T x : clampT T x = Z.max (tmin T) (Z.min (tmax T) x).
Proof. unfold clampT, clamp. now rewrite tmin_lo, tmax_hi. Qed.

Lemma vadds_ok T a b : In T signed3 ->
  in_range T a = true -> in_range T b = true ->
  l_vadds T a b = Ok (clampT T (a + b)).
Proof.
  intros HT Ha Hb. rewrite clampT_eq. unfold l_vadds. types HT; run; fin.
Qed.
Lemma vaddsu_ok T a b : In T unsigned3 ->
  in_range T a = true -> in_range T b = true ->
  l_vaddsu T a b = Ok (clampT T (a + b)).
Proof. intros HT Ha Hb. rewrite clampT_eq. unfold l_vaddsu. types HT; run; fin. Qed.
Lemma vsubs_ok T a b : In T signed3 ->
  in_range T a = true -> in_range T b = true ->
  l_vsubs T a b = Ok (clampT T (a - b)).
Proof. intros HT Ha Hb. rewrite clampT_eq. unfold l_vsubs. types HT; run; fin. Qed.
Lemma vsubsu_ok T a b : In T unsigned3 ->
  in_range T a = true -> in_range T b = true ->
  l_vsubsu T a b = Ok (clampT T (a - b)).
Proof. intros HT Ha Hb. rewrite clampT_eq. unfold l_vsubsu. types HT; run; fin. Qed.
Lemma vmuls_ok T a b : In T all6 ->
  in_range T a = true -> in_range T b = true ->
  l_vmuls T a b = Ok (clampT T (a * b)).
Proof. intros HT Ha Hb. rewrite clampT_eq. unfold l_vmuls. types HT; prod a b; run; fin. Qed.

(** ** C03 *)
Definition b2z (b : bool) : Z := if b then 1 else 0.
Lemma veq_ok T a b : In T signed3 -> in_range T a = true -> in_range T b = true ->
  l_veq T a b = Ok (b2z (a =? b)).
Proof. intros HT Ha Hb. unfold l_veq, b2z. types HT; run; fin. Qed.
Lemma vne_ok T a b : In T signed3 -> in_range T a = true -> in_range T b = true ->
  l_vne T a b = Ok (b2z (negb (a =? b))).
Proof. intros HT Ha Hb. unfold l_vne, b2z. types HT; run; fin. Qed.
Lemma vlt_ok T a b : In T all6 -> in_range T a = true -> in_range T b = true ->
  l_vlt T a b = Ok (b2z (a <? b)).
Proof. intros HT Ha Hb. unfold l_vlt, b2z. types HT; run; fin. Qed.
Lemma vle_ok T a b : In T all6 -> in_range T a = true -> in_range T b = true ->
  l_vle T a b = Ok (b2z (a <=? b)).
Proof. intros HT Ha Hb. unfold l_vle, b2z. types HT; run; fin. Qed.
Lemma vgt_ok T a b : In T all6 -> in_range T a = true -> in_range T b = true ->
  l_vgt T a b = Ok (b2z (b <? a)).
Proof. intros HT Ha Hb. unfold l_vgt, b2z. types HT; run; fin. Qed.
Lemma vge_ok T a b : In T all6 -> in_range T a = true -> in_range T b = true ->
  l_vge T a b = Ok (b2z (b <=? a)).
Proof. intros HT Ha Hb. unfold l_vge, b2z. types HT; run; fin. Qed.
Lemma vmax_ok T a b : In T all6 -> in_range T a = true -> in_range T b = true ->
  l_vmax T a b = Ok (Z.max a b).
Proof. intros HT Ha Hb. unfold l_vmax. types HT; run; fin. Qed.
Lemma vmin_ok T a b : In T all6 -> in_range T a = true -> in_range T b = true ->
  l_vmin T a b = Ok (Z.min a b).
Proof. intros HT Ha Hb. unfold l_vmin. types HT; run; fin. Qed.
Lemma vabsd_ok T a b : In T all6 -> in_range T a = true -> in_range T b = true ->
  l_vabsd T a b = Ok (Z.abs (a - b)).
Proof. intros HT Ha Hb. unfold l_vabsd. types HT; run; fin. Qed.

(** ** C04 *)
Lemma vhadd_ok T r a b : In T all6 -> in_range T a = true -> in_range T b = true ->
  l_vhadd T r a b = Ok ((a + b + b2z r) / 2).
Proof.
  intros HT Ha Hb. unfold l_vhadd, b2z.
  types HT; destruct r; run; change (2 ^ 1) with 2; fin.
Qed.
Lemma vhsub_ok T r a b : In T all6 -> in_range T a = true -> in_range T b = true ->
  l_vhsub T r a b = Ok (wrap T ((a - b + b2z r) / 2)).
Proof.
  intros HT Ha Hb. unfold l_vhsub, b2z.
  types HT; destruct r; run; change (2 ^ 1) with 2; fin.
Qed.

(** ** C05, C06 *)
(** Evaluate closed subexpressions. *)
Ltac zc e := let v := eval cbv in e in
  lazymatch v with Z0 => change e with v | Zpos _ => change e with v
                 | Zneg _ => change e with v end.
Ltac zconst := repeat match goal with
  | |- context [Z.mul (Zpos ?a) (Zpos ?b)] => zc (Z.mul (Zpos a) (Zpos b))
  | |- context [Z.sub (Zpos ?a) (Zpos ?b)] => zc (Z.sub (Zpos a) (Zpos b))
  | |- context [Z.pow (Zpos ?a) (Zpos ?b)] => zc (Z.pow (Zpos a) (Zpos b))
  | |- context [Z.pow (Zpos ?a) Z0] => zc (Z.pow (Zpos a) Z0)
  | |- context [Z.opp (Zpos ?a)] => zc (Z.opp (Zpos a))
  | |- context [Z.div (Zpos ?a) (Zpos ?b)] => zc (Z.div (Zpos a) (Zpos b))
  | |- context [Z.div (Zneg ?a) (Zpos ?b)] => zc (Z.div (Zneg a) (Zpos b))
  end.
Ltac runc := c_unfold; c_cbn; zconst; repeat (step1; c_cbn; zconst).

Lemma vmulh_ok T r a b : In T all6 -> in_range T a = true -> in_range T b = true ->
  l_vmulh T r a b =
  Ok (fdiv2 (a * b + (if r then 2 ^ (bits T - 1) else 0)) (bits T)).
Proof.
  intros HT Ha Hb. unfold l_vmulh, fdiv2.
  types HT; prod a b; destruct r; cbn [bits]; runc; fin.
Qed.

Lemma prod_not_min h a b : 0 < h -> - h <= a <= h - 1 -> - h <= b <= h - 1 ->
  a = - h /\ b = - h \/ a * b <= h * h - h.
Proof.
  intros. destruct (Z.eq_dec a (- h)), (Z.eq_dec b (- h)); auto; right;
  destruct (Z.le_gt_cases 0 a), (Z.le_gt_cases 0 b); nia.
Qed.
Lemma vdmulh_ok T r rn a b : In T signed3 ->
  in_range T a = true -> in_range T b = true ->
  l_vdmulh T r rn a b =
  Ok (if (a =? tmin T) && (b =? tmin T) then tmax T
      else fdiv2 (a * b + (if r then if (a * b <? 0) && rn then - 2 ^ (bits T - 2)
                                     else 2 ^ (bits T - 2) else 0)) (bits T - 1)).
Proof.
  intros HT Ha Hb. unfold l_vdmulh, fdiv2.
  types HT; prod a b;
  match goal with H : in_range ?t a = true |- _ =>
    let h := eval cbv in (half t) in
    pose proof (prod_not_min h a b ltac:(lia) ltac:(rng) ltac:(rng)) as Hq;
    let hh := eval cbv in (h * h - h) in change (h * h - h) with hh in Hq end.
  all: destruct r, rn; cbn [bits]; runc.
  all: fin.
Qed.
