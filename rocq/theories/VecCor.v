(** * Instruction-level statements per property *)
From Verif Require Import CInt Lane LaneSpec VecModel VecSpec LaneProofs LaneCor VecProofs VecEl
  VecFam VecPerm VecFrame VecRound.
From Coq Require Import ZifyBool ZifyNat.
Import ListNotations.
Ltac Zify.zify_post_hook ::= Z.div_mod_to_equations.

Lemma el_fam o T (pre : Z -> Z -> Prop) (P : Z -> Z -> Z -> Z -> Prop) :
  el_legal o T = true -> (forall a b, pre a b -> lane_pre o T a b) ->
  (forall d a b v, lane_spec o T d a b v -> P d a b v) ->
  elementwise o T (dst_ty o T) pre P.
Proof.
  intros HL Hpre HP scalar strip vd nd vs1 n1 s2 junk rf N Hw Hnd Hn1 Hh Hs2 Hp.
  destruct (el_exec o T scalar strip vd nd vs1 n1 s2 junk rf HL Hw Hnd Hn1 Hh Hs2)
    as (rf' & E & W & F & L).
  { intros k i Hk Hi. apply Hpre. now apply Hp. }
  exists rf'. repeat (split; [assumption|]). intros k i Hk Hi. apply HP. now apply L.
Qed.
Lemma un_fam o T (P : Z -> Z -> Prop) : un_legal o T ->
  (forall a v, un_spec o T a v -> P a v) -> unarywise o T P.
Proof.
  intros HL HP scalar strip vd nd vs1 n1 s2 junk rf N Hw Hnd Hn1 Hh.
  destruct (un_exec o T scalar strip vd nd vs1 n1 s2 junk rf HL Hw Hnd Hn1 Hh) as (rf' & E & W & F & L).
  exists rf'. repeat (split; [assumption|]). intros k i Hk Hi. apply HP. now apply L.
Qed.

Lemma legal_s T : In T [I8; I16; I32] -> match T with I8 | I16 | I32 => true | _ => false end = true.
Proof. cbn [In]. intros H. repeat destruct H as [H|H]; try contradiction; now subst. Qed.
Lemma legal_u T : In T [U8; U16; U32] -> match T with U8 | U16 | U32 => true | _ => false end = true.
Proof. cbn [In]. intros H. repeat destruct H as [H|H]; try contradiction; now subst. Qed.
Ltac dty o T := replace T with (dst_ty o T) at 2 by reflexivity.
Ltac fam HT :=
  match goal with |- elementwise ?o ?T ?Tv _ _ =>
    apply (el_fam o T);
    [ cbn [el_legal]; first [exact (legal_s T HT)|exact (legal_u T HT)
        |destruct HT as [HT|HT]; [rewrite (legal_s T HT)|rewrite (legal_u T HT)]; destruct T; reflexivity]
    | intros; exact I
    | intros ? ? ? ? Hx; exact Hx ] end.

Lemma v01 T : In T [I8; I16; I32] ->
  let res o f := elementwise o T T always (fun d a b v => is_mod (bits T) (is_signed T) (f d a b) v) in
  res OAdd (fun d a b => a + b) /\ res OSub (fun d a b => a - b) /\
  res ORsub (fun d a b => b - a) /\ res OAdd3 (fun d a b => d + a + b) /\
  res OMul (fun d a b => a * b) /\ res OMacc (fun d a b => d + a * b) /\
  res OMadd (fun d a b => a + d * b).
Proof. intros HT res. unfold res. repeat (split; [fam HT|]). fam HT. Qed.
Lemma v02 T :
  let res o f := elementwise o T T always (fun d a b v => v = clamp (bits T) (is_signed T) (f a b)) in
  (In T [I8; I16; I32] -> res OAdds Z.add /\ res OSubs Z.sub /\ res OMuls Z.mul) /\
  (In T [U8; U16; U32] -> res OAddsu Z.add /\ res OSubsu Z.sub /\ res OMuls Z.mul).
Proof.
  intros res. unfold res. split; intros HT; repeat split; try fam HT.
  - pose (H := or_introl HT : In T [I8; I16; I32] \/ In T [U8; U16; U32]). clearbody H. fam H.
  - pose (H := or_intror HT : In T [I8; I16; I32] \/ In T [U8; U16; U32]). clearbody H. fam H.
Qed.
Lemma v03 T : In T [I8; I16; I32] \/ In T [U8; U16; U32] ->
  let Tu := match T with I8 => U8 | I16 => U16 | I32 => U32 | t => t end in
  let tv o (R : Z -> Z -> Prop) := elementwise o T T always
    (fun d a b v => (R a b /\ v = 1) \/ (~ R a b /\ v = 0)) in
  let val o Tv f := elementwise o T Tv always (fun d a b v => v = f a b) in
  (In T [I8; I16; I32] -> tv OEq (fun a b => a = b) /\ tv ONe (fun a b => a <> b)) /\
  tv OLt Z.lt /\ tv OLe Z.le /\ tv OGt Z.gt /\ tv OGe Z.ge /\
  val OMax T Z.max /\ val OMin T Z.min /\ val OAbsd Tu (fun a b => Z.abs (a - b)).
Proof.
  intros HT Tu tv vl. unfold tv, vl. split; [intros HS; split; fam HS|].
  repeat (split; [fam HT|]).
  replace Tu with (dst_ty OAbsd T) by (destruct T; reflexivity). fam HT.
Qed.
Lemma v04 T (r : bool) : In T [I8; I16; I32] \/ In T [U8; U16; U32] ->
  let rn := if r then 1 else 0 in
  elementwise (OHadd r) T T always (fun d a b v => v = (a + b + rn) / 2) /\
  elementwise (OHsub r) T T always
    (fun d a b v => is_mod (bits T) (is_signed T) ((a - b + rn) / 2) v).
Proof. intros HT rn. unfold rn. split; fam HT. Qed.
Lemma v05 T (r : bool) : In T [I8; I16; I32] \/ In T [U8; U16; U32] ->
  elementwise (OMulh r) T T always
    (fun d a b v => v = (a * b + (if r then 2 ^ (bits T - 1) else 0)) / 2 ^ bits T).
Proof. intros HT. fam HT. Qed.
Lemma v06 T (r rn : bool) : In T [I8; I16; I32] ->
  let mn := - 2 ^ (bits T - 1) in
  elementwise (ODmulh r rn) T T always (fun d a b v =>
    (a = mn /\ b = mn /\ v = 2 ^ (bits T - 1) - 1) \/
    (~ (a = mn /\ b = mn) /\
     v = (a * b + (if r then if rn && (a * b <? 0) then - 2 ^ (bits T - 2) else 2 ^ (bits T - 2)
                   else 0)) / 2 ^ (bits T - 1))).
Proof. intros HT mn. unfold mn. fam HT. Qed.
Lemma v07 T (r : bool) : In T [I8; I16; I32] \/ In T [U8; U16; U32] ->
  elementwise (OShift r) T T
    (fun a b => ~ (bits T = 32 /\ a <> 0 /\ is_mod (bits T) true b (- 2 ^ 31)))
    (fun d a b v => forall s, is_mod (bits T) true b s ->
       v = clamp (bits T) (is_signed T)
             (if 0 <? s then (a + (if r then 2 ^ (s - 1) else 0)) / 2 ^ s else a * 2 ^ (- s))).
Proof.
  intros HT. apply (el_fam (OShift r) T).
  - cbn [el_legal]. destruct HT as [HT|HT]; [rewrite (legal_s T HT)|rewrite (legal_u T HT)]; destruct T; reflexivity.
  - intros a b H. exact H.
  - intros d a b v H. exact H.
Qed.
Lemma v09 T :
  let s b := b mod bits T in
  (In T [U8; U16; U32] ->
    elementwise OSll T T always (fun d a b v => is_mod (bits T) false (a * 2 ^ s b) v) /\
    elementwise OSrl T T always (fun d a b v => v = a / 2 ^ s b)) /\
  (In T [I8; I16; I32] -> elementwise OSra T T always (fun d a b v => v = a / 2 ^ s b)).
Proof.
  intros s. unfold s. split.
  - intros HT. split; [|fam HT].
    apply (el_fam OSll T); [exact (legal_u T HT)|intros; exact I|].
    intros d a b v H. cbn [lane_spec] in H. cbn [In] in HT.
    repeat destruct HT as [HT|HT]; try contradiction; subst T; exact H.
  - intros HT. fam HT.
Qed.
Lemma v10 T : In T [U8; U16; U32] ->
  elementwise ORev T T always (fun d a b v => fits (bits T) (is_signed T) v /\
    forall i, 0 <= i < bits T -> Z.testbit v i = Z.testbit a (Z.lxor i (b mod bits T))) /\
  elementwise ORor T T always (fun d a b v => fits (bits T) (is_signed T) v /\
    forall i, 0 <= i < bits T -> Z.testbit v i = Z.testbit a ((i + b) mod bits T)).
Proof. intros HT. split; fam HT. Qed.
Lemma v11 T : In T [U8; U16; U32] ->
  let bw o f := elementwise o T T always (fun d a b v => fits (bits T) (is_signed T) v /\
    forall i, 0 <= i < bits T -> Z.testbit v i = f (Z.testbit a i) (Z.testbit b i)) in
  bw OAnd andb /\ bw OOr orb /\ bw OXor xorb /\
  unarywise UClz T (leading false (bits T)) /\
  unarywise UClb T (fun a v => leading (Z.testbit a (bits T - 1)) (bits T) a v) /\
  unarywise UCpop T (fun a v => v = ones (bits T) a) /\
  unarywise UMv I32 (fun a v => v = a) /\
  unarywise UNot I32 (fun a v => fits (bits I32) (is_signed I32) v /\
    forall i, 0 <= i < bits I32 -> Z.testbit v i = negb (Z.testbit a i)).
Proof.
  intros HT bw. unfold bw. split; [fam HT|]. split; [fam HT|]. split; [fam HT|].
  split; [apply un_fam; [exact HT|auto]|]. split; [apply un_fam; [exact HT|auto]|].
  split; [apply un_fam; [exact HT|auto]|].
  split; apply un_fam; auto; reflexivity.
Qed.
Lemma vsel T : In T [I8; I16; I32] ->
  elementwise OSel T T always (fun d a b v => v = if Z.odd a then d else b).
Proof. intros HT. fam HT. Qed.

(** ** Strip mining of unary instructions *)
Lemma un_strip o T scalar vd nd vs1 n1 s2 s2' junk junk' rf :
  un_legal o T -> 4 <= nd -> 4 <= n1 -> no_hazard 4 vd vs1 ->
  exists rf',
    exec (VUn o T) scalar true
      {| o_s0 := SVec vs1 n1; o_s1 := s2; o_vd := vd; o_nd := nd |} junk rf = Ok rf' /\
    forall k, 0 <= k < 4 -> exists rfk,
      exec (VUn o T) scalar false
        {| o_s0 := SVec (vs1 + k) 1; o_s1 := s2'; o_vd := vd + k; o_nd := 1 |} junk' rf = Ok rfk /\
      forall j, 0 <= j < 32 -> rf' (vd + k) j = rfk (vd + k) j.
Proof.
  intros HL Hnd Hn1 Hh. pose proof (un_small o T HL) as HT.
  assert (Hv : forall b e, un_op o T (lane T (rf b) e) = Ok (val (un_op o T (lane T (rf b) e)))).
  { intros b e. destruct (un_lane o T (lane T (rf b) e) HL (lane_range _ _ _)) as (v & -> & _). reflexivity. }
  destruct (exec_unary_ok T (un_op o T) _ true junk rf
     (fun k e => val (un_op o T (lane T (rf (vs1 + k)) e))) vs1 n1 vd nd s2 eq_refl HT)
    as (rf' & E & F & B); try assumption.
  { intros. apply Hv. }
  exists rf'. split; [exact E|]. intros k Hk.
  destruct (exec_unary_ok T (un_op o T) _ false junk' rf
     (fun k' e => val (un_op o T (lane T (rf (vs1 + k + k')) e))) (vs1 + k) 1 (vd + k) 1 s2' eq_refl HT)
    as (rfk & E' & F' & B'); try (cbn [nops]; lia).
  { unfold no_hazard. cbn [nops]. lia. }
  { intros. apply Hv. }
  exists rfk. split; [exact E'|]. intros j Hj.
  pose proof (elts_sizeof T HT) as He. pose proof (sizeof_pos T) as Hz.
  assert (Hj2 : j = j / sizeof T * sizeof T + j mod sizeof T) by (rewrite Z.mod_eq by lia; ring).
  assert (Hi : 0 <= j / sizeof T < elts T)
    by (split; [apply Z.div_pos; lia|apply Z.div_lt_upper_bound; lia]).
  assert (Hm : 0 <= j mod sizeof T < sizeof T) by (apply Z.mod_pos_bound; lia).
  rewrite Hj2. cbn [nops] in *. rewrite B by assumption.
  pose proof (B' 0 (j / sizeof T) (j mod sizeof T) ltac:(lia) Hi Hm) as Hb.
  rewrite Z.add_0_r in Hb. rewrite Hb. now rewrite Z.add_0_r.
Qed.
