(** * Instruction-level properties C01-C16

    [elementwise] (VecSpec.v) says: every execution terminates normally, writes
    only the destination group and every lane satisfies the given relation
    between old destination lane d, operand lanes a, b and new lane v. *)
From Verif Require Import CInt LaneSpec VecModel VecSpec.
From Verif Require VecProofs VecEl VecFam VecPerm VecFrame VecRound VecCor.
Import ListNotations.

Definition sgn (T : ity) : Prop := In T [I8; I16; I32].
Definition uns (T : ity) : Prop := In T [U8; U16; U32].
Definition any (T : ity) : Prop := sgn T \/ uns T.

(** A concrete register file, operands and run for the examples. *)
Definition rf0 : vregs := fun r j => (r * 61 + j * 37 + j * j * r) mod 256.
Definition junk0 : Z -> vbytes := fun _ _ => 170.
Definition opnds vs1 n1 s2 vd nd := {| o_s0 := SVec vs1 n1; o_s1 := s2; o_vd := vd; o_nd := nd |}.
Definition run i sc st o r T l : option Z :=
  match exec i sc st o junk0 rf0 with Ok rf => Some (lane T (rf r) l) | _ => None end.
Ltac calc := unfold wide_pair, narrow_pair, no_hazard, apart, disjoint, second_ok, second_wide, legal_inst;
  unfold no_hazard; cbn [In]; repeat apply conj; first [vm_compute; reflexivity|vm_compute; discriminate|lia|tauto].
Example rf0_wf : wf rf0.
Proof. intros r j _. apply Z.mod_pos_bound. reflexivity. Qed.

(** ** C01 *)
Theorem C01_wrap_arithmetic : forall T, sgn T ->
  let res o f := elementwise o T T always (fun d a b v => is_mod (bits T) (is_signed T) (f d a b) v) in
  res OAdd (fun d a b => a + b) /\ res OSub (fun d a b => a - b) /\
  res ORsub (fun d a b => b - a) /\ res OAdd3 (fun d a b => d + a + b) /\
  res OMul (fun d a b => a * b) /\ res OMacc (fun d a b => d + a * b) /\
  res OMadd (fun d a b => a + d * b).
Proof. exact VecCor.v01. Qed.
Print Assumptions C01_wrap_arithmetic.
Example C01_case :
  no_hazard 4 8 8 /\ second_ok (SVec 1 4) false 4 8 /\
  lane I8 (rf0 11) 5 = 107 /\ lane I8 (rf0 4) 5 = 17 /\
  run (VEl OMacc I8) false true (opnds 8 4 (SVec 1 4) 8 4) 11 I8 5 = Some (-122).
Proof. calc. Qed.

(** ** C02 *)
Theorem C02_saturating : forall T,
  let res o f := elementwise o T T always (fun d a b v => v = clamp (bits T) (is_signed T) (f a b)) in
  (sgn T -> res OAdds Z.add /\ res OSubs Z.sub /\ res OMuls Z.mul) /\
  (uns T -> res OAddsu Z.add /\ res OSubsu Z.sub /\ res OMuls Z.mul).
Proof. exact VecCor.v02. Qed.
Print Assumptions C02_saturating.
Example C02_case :
  run (VEl OMuls U16) true false (opnds 8 1 (SScal 70000) 9 1) 9 U16 3 = Some 65535 /\
  run (VEl OAdds I8) false false (opnds 8 1 (SVec 8 1) 9 1) 9 I8 0 = Some (-48).
Proof. calc. Qed.

(** ** C03 *)
Theorem C03_compare : forall T, any T ->
  let Tu := match T with I8 => U8 | I16 => U16 | I32 => U32 | t => t end in
  let tv o (R : Z -> Z -> Prop) := elementwise o T T always
    (fun d a b v => (R a b /\ v = 1) \/ (~ R a b /\ v = 0)) in
  let val o Tv f := elementwise o T Tv always (fun d a b v => v = f a b) in
  (sgn T -> tv OEq (fun a b => a = b) /\ tv ONe (fun a b => a <> b)) /\
  tv OLt Z.lt /\ tv OLe Z.le /\ tv OGt Z.gt /\ tv OGe Z.ge /\
  val OMax T Z.max /\ val OMin T Z.min /\ val OAbsd Tu (fun a b => Z.abs (a - b)).
Proof. exact VecCor.v03. Qed.
Print Assumptions C03_compare.
Example C03_case :
  run (VEl OLt I8) true true (opnds 8 4 (SScal 255) 20 4) 23 I8 5 = Some 0 /\
  run (VEl OAbsd I8) true true (opnds 8 4 (SScal 127) 20 4) 23 U8 5 = Some 20.
Proof. calc. Qed.

(** ** C04 *)
Theorem C04_halving : forall T (r : bool), any T ->
  let rn := if r then 1 else 0 in
  elementwise (OHadd r) T T always (fun d a b v => v = (a + b + rn) / 2) /\
  elementwise (OHsub r) T T always
    (fun d a b v => is_mod (bits T) (is_signed T) ((a - b + rn) / 2) v).
Proof. exact VecCor.v04. Qed.
Print Assumptions C04_halving.
Example C04_case :
  run (VEl (OHadd true) U8) true false (opnds 8 1 (SScal 255) 20 1) 20 U8 0 = Some 244.
Proof. calc. Qed.

(** ** C05 *)
Theorem C05_mulh : forall T (r : bool), any T ->
  elementwise (OMulh r) T T always
    (fun d a b v => v = (a * b + (if r then 2 ^ (bits T - 1) else 0)) / 2 ^ bits T).
Proof. exact VecCor.v05. Qed.
Print Assumptions C05_mulh.
Example C05_case :
  run (VEl (OMulh true) U32) false false (opnds 8 1 (SVec 8 1) 20 1) 20 U32 0 =
  Some ((2672956904 * 2672956904 + 2147483648) / 4294967296).
Proof. calc. Qed.

(** ** C06: exact value of every form (the nearest-rounding claim for .rn is
    refuted in PropLane.v). *)
Theorem C06_dmulh : forall T (r rn : bool), sgn T ->
  let mn := - 2 ^ (bits T - 1) in
  elementwise (ODmulh r rn) T T always (fun d a b v =>
    (a = mn /\ b = mn /\ v = 2 ^ (bits T - 1) - 1) \/
    (~ (a = mn /\ b = mn) /\
     v = (a * b + (if r then if rn && (a * b <? 0) then - 2 ^ (bits T - 2) else 2 ^ (bits T - 2)
                   else 0)) / 2 ^ (bits T - 1))).
Proof. exact VecCor.v06. Qed.
Print Assumptions C06_dmulh.
Example C06_case :
  run (VEl (ODmulh true false) I16) true false (opnds 8 1 (SScal 32768) 20 1) 20 I16 0 = Some (-5608).
Proof. calc. Qed.

(** ** C07: all lanes except a non-zero 32-bit lane shifted by -2^31. *)
Theorem C07_shift_partial : forall T (r : bool), any T ->
  elementwise (OShift r) T T
    (fun a b => ~ (bits T = 32 /\ a <> 0 /\ is_mod (bits T) true b (- 2 ^ 31)))
    (fun d a b v => forall s, is_mod (bits T) true b s ->
       v = clamp (bits T) (is_signed T)
             (if 0 <? s then (a + (if r then 2 ^ (s - 1) else 0)) / 2 ^ s else a * 2 ^ (- s))).
Proof. exact VecCor.v07. Qed.
Print Assumptions C07_shift_partial.
Example C07_case :
  run (VEl (OShift true) I16) true false (opnds 8 1 (SScal 3) 20 1) 20 I16 0 = Some 701 /\
  run (VEl (OShift false) I32) true false (opnds 8 1 (SScal (2 ^ 31)) 20 1) 20 I32 0 = None.
Proof. calc. Qed.

(** ** C08: narrow lane i of register vd+k comes from lane i/f of wide register
    vs1 + narrow_reg f i * N + k, f the width ratio. *)
Theorem C08_narrowing : forall r Td Ts scalar strip vd nd vs1 n1 s2 junk rf,
  let N := nops strip in let f := ratio Td Ts in
  narrow_pair Td Ts -> wf rf -> N <= nd -> f * N <= n1 ->
  (forall m, 0 <= m < f -> no_hazard N vd (vs1 + m * N)) -> second_ok s2 scalar N vd ->
  exists rf',
    exec (VNarrow r Td Ts) scalar strip
      {| o_s0 := SVec vs1 n1; o_s1 := s2; o_vd := vd; o_nd := nd |} junk rf = Ok rf' /\
    wf rf' /\ only_written vd N rf rf' /\
    forall k i, 0 <= k < N -> 0 <= i < nlanes Td ->
      let s := arg2 Td rf s2 k i mod bits Ts in
      lane Td (rf' (vd + k)) i =
      clamp (bits Td) (is_signed Td)
        ((lane Ts (rf (vs1 + narrow_reg f i * N + k)) (i / f)
          + (if r && (0 <? s) then 2 ^ (s - 1) else 0)) / 2 ^ s).
Proof. exact VecFam.narrow_exec. Qed.
Print Assumptions C08_narrowing.
Example C08_case :
  narrow_pair I8 I32 /\ (forall m, 0 <= m < 4 -> no_hazard 4 40 (8 + m * 4)) /\
  lane I32 (rf0 17) 1 = 1364160433 /\ narrow_reg 4 5 = 2 /\
  run (VNarrow true I8 I32) true true (opnds 8 16 (SScal 24) 40 4) 41 I8 5 = Some 81.
Proof. calc. Qed.

(** ** C09 *)
Theorem C09_shifts : forall T,
  let s b := b mod bits T in
  (uns T ->
    elementwise OSll T T always (fun d a b v => is_mod (bits T) false (a * 2 ^ s b) v) /\
    elementwise OSrl T T always (fun d a b v => v = a / 2 ^ s b)) /\
  (sgn T -> elementwise OSra T T always (fun d a b v => v = a / 2 ^ s b)).
Proof. exact VecCor.v09. Qed.
Print Assumptions C09_shifts.
Example C09_case :
  run (VEl OSra I8) true false (opnds 8 1 (SScal 11) 20 1) 20 I8 0 = Some (-3) /\
  run (VEl OSrl U8) true false (opnds 8 1 (SScal 11) 20 1) 20 U8 0 = Some 29.
Proof. calc. Qed.

(** ** C10 *)
Theorem C10_rev_ror : forall T, uns T ->
  elementwise ORev T T always (fun d a b v => fits (bits T) (is_signed T) v /\
    forall i, 0 <= i < bits T -> Z.testbit v i = Z.testbit a (Z.lxor i (b mod bits T))) /\
  elementwise ORor T T always (fun d a b v => fits (bits T) (is_signed T) v /\
    forall i, 0 <= i < bits T -> Z.testbit v i = Z.testbit a ((i + b) mod bits T)).
Proof. exact VecCor.v10. Qed.
Print Assumptions C10_rev_ror.
Example C10_case :
  run (VEl ORev U8) true false (opnds 8 1 (SScal 7) 20 1) 20 U8 0 = Some 23 /\
  run (VEl ORor U8) true false (opnds 8 1 (SScal 13) 20 1) 20 U8 0 = Some 71.
Proof. calc. Qed.

(** ** C11 *)
Theorem C11_bitwise : forall T, uns T ->
  let bw o f := elementwise o T T always (fun d a b v => fits (bits T) (is_signed T) v /\
    forall i, 0 <= i < bits T -> Z.testbit v i = f (Z.testbit a i) (Z.testbit b i)) in
  bw OAnd andb /\ bw OOr orb /\ bw OXor xorb /\
  unarywise UClz T (leading false (bits T)) /\
  unarywise UClb T (fun a v => leading (Z.testbit a (bits T - 1)) (bits T) a v) /\
  unarywise UCpop T (fun a v => v = ones (bits T) a) /\
  unarywise UMv I32 (fun a v => v = a) /\
  unarywise UNot I32 (fun a v => fits (bits I32) (is_signed I32) v /\
    forall i, 0 <= i < bits I32 -> Z.testbit v i = negb (Z.testbit a i)).
Proof. exact VecCor.v11. Qed.
Print Assumptions C11_bitwise.
Example C11_case :
  run (VUn UClb U8) false true (opnds 8 4 (SScal 0) 20 4) 20 U8 0 = Some 3 /\
  run (VUn UCpop U16) false true (opnds 8 4 (SScal 0) 20 4) 23 U16 2 = Some 10.
Proof. calc. Qed.

(** ** C12 *)
Theorem C12_widening : forall o Td Ts scalar strip vd nd vs1 n1 s2 junk rf,
  let N := nops strip in
  wide_pair Td Ts -> wf rf -> 2 * N <= nd -> N <= n1 ->
  no_hazard N vd vs1 -> no_hazard N (vd + N) vs1 -> second_wide s2 scalar N vd ->
  exists rf',
    exec (VWiden o Td Ts) scalar strip
      {| o_s0 := SVec vs1 n1; o_s1 := s2; o_vd := vd; o_nd := nd |} junk rf = Ok rf' /\
    wf rf' /\ only_written vd (2 * N) rf rf' /\
    forall k d i, 0 <= k < N -> d = 0 \/ d = 1 -> 0 <= i < nlanes Td ->
      w_spec o Td Ts (lane Ts (rf (vs1 + k)) (2 * i + d)) (arg2 Ts rf s2 k (2 * i + d))
             (lane Td (rf' (vd + d * N + k)) i).
Proof. exact VecFam.widen_exec. Qed.
Print Assumptions C12_widening.
Theorem C12_accumulate : forall Td Ts scalar strip vd nd vs1 n1 s2 junk rf,
  let N := nops strip in
  wide_pair Td Ts -> wf rf -> 2 * N <= nd -> 2 * N <= n1 ->
  (forall d d', d = 0 \/ d = 1 -> d' = 0 \/ d' = 1 -> no_hazard N (vd + d * N) (vs1 + d' * N)) ->
  second_wide s2 scalar N vd ->
  exists rf',
    exec (VAcc Td Ts) scalar strip
      {| o_s0 := SVec vs1 n1; o_s1 := s2; o_vd := vd; o_nd := nd |} junk rf = Ok rf' /\
    wf rf' /\ only_written vd (2 * N) rf rf' /\
    forall k d i, 0 <= k < N -> d = 0 \/ d = 1 -> 0 <= i < nlanes Td ->
      is_mod (bits Td) (is_signed Td)
        (lane Td (rf (vs1 + d * N + k)) i + arg2 Ts rf s2 k (2 * i + d))
        (lane Td (rf' (vd + d * N + k)) i).
Proof. exact VecFam.acc_exec. Qed.
Print Assumptions C12_accumulate.
Theorem C12_pairwise : forall sub Td Ts scalar strip vd nd vs1 n1 s2 junk rf,
  let N := nops strip in
  wide_pair Td Ts -> wf rf -> N <= nd -> N <= n1 -> no_hazard N vd vs1 ->
  exists rf',
    exec (VPair sub Td Ts) scalar strip
      {| o_s0 := SVec vs1 n1; o_s1 := s2; o_vd := vd; o_nd := nd |} junk rf = Ok rf' /\
    wf rf' /\ only_written vd N rf rf' /\
    forall k i, 0 <= k < N -> 0 <= i < nlanes Td ->
      w_spec (if sub then WSub else WAdd) Td Ts
             (lane Ts (rf (vs1 + k)) (2 * i)) (lane Ts (rf (vs1 + k)) (2 * i + 1))
             (lane Td (rf' (vd + k)) i).
Proof. exact VecFam.pair_exec. Qed.
Print Assumptions C12_pairwise.
Example C12_case :
  wide_pair I16 I8 /\ no_hazard 4 (8 + 4) 8 /\ second_wide (SVec 8 4) false 4 8 /\
  lane I8 (rf0 10) 7 = 79 /\
  run (VWiden WMul I16 I8) false true (opnds 8 4 (SVec 8 4) 8 8) 14 I16 3 = Some 6241 /\
  run (VAcc I16 I8) false true (opnds 8 8 (SVec 40 4) 8 8) 14 I16 3 = Some 1851 /\
  run (VPair true U32 U16) false true (opnds 8 4 (SScal 0) 8 4) 10 U32 3 = Some 34478.
Proof. calc. Qed.

(** ** C13 *)
Theorem C13_permutation : forall p T scalar strip vd nd vs1 n1 s2 junk rf,
  let N := nops strip in
  any T -> wf rf -> perm_ok p scalar strip ->
  perm_regs p N <= nd -> N <= n1 -> apart N vd (perm_regs p N) vs1 N ->
  second_apart s2 scalar N vd (perm_regs p N) ->
  exists rf',
    exec (VPerm p T) scalar strip
      {| o_s0 := SVec vs1 n1; o_s1 := s2; o_vd := vd; o_nd := nd |} junk rf = Ok rf' /\
    wf rf' /\ only_written vd (perm_regs p N) rf rf' /\
    forall J, 0 <= J < perm_regs p N * nlanes T ->
      glane T rf' vd J = perm_lane p T rf N vs1 s2 J.
Proof.
  exact (fun p T scalar strip vd nd vs1 n1 s2 junk rf HT =>
    VecPerm.perm_exec p T scalar strip vd nd vs1 n1 s2 junk rf (VecFrame.any_small T HT)).
Qed.
Print Assumptions C13_permutation.
Theorem C13_select : forall T, sgn T ->
  elementwise OSel T T always (fun d a b v => v = if Z.odd a then d else b).
Proof. exact VecCor.vsel. Qed.
Print Assumptions C13_select.
Theorem C13_evnodd_zip : forall T strip vd vs1 vs2 ve junk junk' rf,
  let N := nops strip in
  any T -> wf rf ->
  apart N vd (2 * N) vs1 N -> apart N vd (2 * N) vs2 N ->
  apart N ve (2 * N) vd N -> apart N ve (2 * N) (vd + N) N ->
  exists rf1 rf2,
    exec (VPerm PEvnodd T) false strip
      {| o_s0 := SVec vs1 N; o_s1 := SVec vs2 N; o_vd := vd; o_nd := 2 * N |} junk rf = Ok rf1 /\
    exec (VPerm PZip T) false strip
      {| o_s0 := SVec vd N; o_s1 := SVec (vd + N) N; o_vd := ve; o_nd := 2 * N |} junk' rf1 = Ok rf2 /\
    forall k j, 0 <= k < N -> 0 <= j < 32 ->
      rf2 (ve + k) j = rf (vs1 + k) j /\ rf2 (ve + N + k) j = rf (vs2 + k) j.
Proof.
  exact (fun T strip vd vs1 vs2 ve junk junk' rf HT =>
    VecRound.evnodd_zip T strip vd vs1 vs2 ve junk junk' rf (VecFrame.any_small T HT)).
Qed.
Print Assumptions C13_evnodd_zip.
Theorem C13_zip_evnodd : forall T strip vd vs1 vs2 ve junk junk' rf,
  let N := nops strip in
  any T -> wf rf ->
  apart N vd (2 * N) vs1 N -> apart N vd (2 * N) vs2 N ->
  apart N ve (2 * N) vd N -> apart N ve (2 * N) (vd + N) N ->
  exists rf1 rf2,
    exec (VPerm PZip T) false strip
      {| o_s0 := SVec vs1 N; o_s1 := SVec vs2 N; o_vd := vd; o_nd := 2 * N |} junk rf = Ok rf1 /\
    exec (VPerm PEvnodd T) false strip
      {| o_s0 := SVec vd N; o_s1 := SVec (vd + N) N; o_vd := ve; o_nd := 2 * N |} junk' rf1 = Ok rf2 /\
    forall k j, 0 <= k < N -> 0 <= j < 32 ->
      rf2 (ve + k) j = rf (vs1 + k) j /\ rf2 (ve + N + k) j = rf (vs2 + k) j.
Proof.
  exact (fun T strip vd vs1 vs2 ve junk junk' rf HT =>
    VecRound.zip_evnodd T strip vd vs1 vs2 ve junk junk' rf (VecFrame.any_small T HT)).
Qed.
Print Assumptions C13_zip_evnodd.
Example C13_case :
  apart 4 32 4 8 4 /\ apart 4 32 8 12 4 /\
  run (VPerm (PSliden true 3) I32) false true (opnds 8 4 (SVec 12 4) 32 4) 35 I32 6
    = Some (lane I32 (rf0 12) 1) /\
  run (VPerm (PSlidep false 3) I16) false true (opnds 8 4 (SVec 12 4) 32 4) 35 I16 1
    = Some (lane I16 (rf0 11) 14) /\
  run (VPerm PEvnodd I8) false true (opnds 8 4 (SVec 12 4) 32 8) 37 I8 0
    = Some (lane I8 (rf0 10) 1) /\
  run (VPerm PZip I8) true true (opnds 8 4 (SScal 77) 32 8) 37 I8 1 = Some 77.
Proof. calc. Qed.

(** ** C14: the registers outside the destination group are unchanged, and the
    outcome and all register contents after the instruction depend only on the
    register contents before it (not on [junk], the contents of the freshly
    allocated destination buffers): every destination byte is determined.  The
    executable semantics has no scalar register, memory or accumulator in its
    result. *)
Theorem C14_writes_only_destination : forall i scalar strip o junk rf rf',
  legal_inst i -> exec i scalar strip o junk rf = Ok rf' ->
  only_written (o_vd o) (dest_regs i strip) rf rf' /\ dest_regs i strip <= o_nd o.
Proof. exact VecFrame.inst_frame. Qed.
Print Assumptions C14_writes_only_destination.
Theorem C14_destination_determined : forall i scalar strip o junk1 junk2 rf1 rf2,
  legal_inst i -> same_regs rf1 rf2 ->
  same_outcome (exec i scalar strip o junk1 rf1) (exec i scalar strip o junk2 rf2).
Proof. exact VecFrame.inst_determined. Qed.
Print Assumptions C14_destination_determined.
Example C14_case : legal_inst (VPerm PZip I8) /\ dest_regs (VPerm PZip I8) true = 8 /\
  run (VPerm PZip I8) true true (opnds 8 4 (SScal 77) 32 8) 40 I8 1 = Some (lane I8 (rf0 40) 1) /\
  run (VPerm PZip I8) true true (opnds 8 4 (SScal 77) 32 8) 39 I8 31 = Some 77.
Proof. calc. Qed.

(** ** C15 *)
Theorem C15_strip_is_four_singles : forall o T scalar vd nd vs1 n1 s2 junk junk' rf,
  el_legal o T = true -> wf rf ->
  4 <= nd -> 4 <= n1 -> no_hazard 4 vd vs1 -> second_ok s2 scalar 4 vd ->
  (forall k i, 0 <= k < 4 -> 0 <= i < nlanes T ->
     lane_pre o T (lane T (rf (vs1 + k)) i) (arg2 T rf s2 k i)) ->
  exists rf',
    exec (VEl o T) scalar true
      {| o_s0 := SVec vs1 n1; o_s1 := s2; o_vd := vd; o_nd := nd |} junk rf = Ok rf' /\
    forall k, 0 <= k < 4 -> exists rfk,
      exec (VEl o T) scalar false
        {| o_s0 := SVec (vs1 + k) 1; o_s1 := shift_src s2 k; o_vd := vd + k; o_nd := 1 |} junk' rf
        = Ok rfk /\
      forall j, 0 <= j < 32 -> rf' (vd + k) j = rfk (vd + k) j.
Proof. exact VecEl.el_strip. Qed.
Print Assumptions C15_strip_is_four_singles.
Theorem C15_strip_is_four_singles_unary : forall o T scalar vd nd vs1 n1 s2 s2' junk junk' rf,
  un_legal o T -> 4 <= nd -> 4 <= n1 -> no_hazard 4 vd vs1 ->
  exists rf',
    exec (VUn o T) scalar true
      {| o_s0 := SVec vs1 n1; o_s1 := s2; o_vd := vd; o_nd := nd |} junk rf = Ok rf' /\
    forall k, 0 <= k < 4 -> exists rfk,
      exec (VUn o T) scalar false
        {| o_s0 := SVec (vs1 + k) 1; o_s1 := s2'; o_vd := vd + k; o_nd := 1 |} junk' rf = Ok rfk /\
      forall j, 0 <= j < 32 -> rf' (vd + k) j = rfk (vd + k) j.
Proof. exact VecCor.un_strip. Qed.
Print Assumptions C15_strip_is_four_singles_unary.
(** With a destination one register above the source the second step reads what
    the first one wrote. *)
Example C15_overlap_differs :
  run (VEl OAdd I8) true true (opnds 8 4 (SScal 1) 9 4) 12 I8 0 = Some (lane I8 (rf0 8) 0 + 4) /\
  run (VEl OAdd I8) true false (opnds 11 1 (SScal 1) 12 1) 12 I8 0 = Some (lane I8 (rf0 11) 0 + 1) /\
  lane I8 (rf0 8) 0 + 4 <> lane I8 (rf0 11) 0 + 1.
Proof. calc. Qed.
Example C15_case : no_hazard 4 8 8 /\ no_hazard 4 8 9 /\ second_ok (SVec 10 4) false 4 8 /\
  run (VEl OAdd I8) false true (opnds 8 4 (SVec 10 4) 8 4) 10 I8 2 =
  run (VEl OAdd I8) false false (opnds 10 1 (SVec 12 1) 10 1) 10 I8 2.
Proof. calc. Qed.

(** ** C16 *)
Theorem C16_widen_narrow : forall r W n strip vd vs ve junk junk' rf,
  let N := nops strip in
  wide_pair W n -> wf rf ->
  no_hazard N vd vs -> no_hazard N (vd + N) vs ->
  no_hazard N ve vd -> no_hazard N ve (vd + N) ->
  exists rf1 rf2,
    exec (VWiden WAdd W n) true strip
      {| o_s0 := SVec vs N; o_s1 := SScal 0; o_vd := vd; o_nd := 2 * N |} junk rf = Ok rf1 /\
    exec (VNarrow r n W) true strip
      {| o_s0 := SVec vd (2 * N); o_s1 := SScal 0; o_vd := ve; o_nd := N |} junk' rf1 = Ok rf2 /\
    forall k j, 0 <= k < N -> 0 <= j < 32 -> rf2 (ve + k) j = rf (vs + k) j.
Proof. exact VecRound.widen_narrow. Qed.
Print Assumptions C16_widen_narrow.
Theorem C16_widen_twice_narrow : forall r W2 W1 n strip vd vs we ve junk1 junk2 junk3 junk4 rf,
  let N := nops strip in
  In (W2, W1, n) [(I32, I16, I8); (U32, U16, U8)] -> wf rf ->
  no_hazard N vd vs -> no_hazard N (vd + N) vs -> disjoint we (4 * N) vd (2 * N) ->
  (forall m, 0 <= m < 4 -> no_hazard N ve (we + m * N)) ->
  exists rf1 rf2 rf3 rf4,
    exec (VWiden WAdd W1 n) true strip
      {| o_s0 := SVec vs N; o_s1 := SScal 0; o_vd := vd; o_nd := 2 * N |} junk1 rf = Ok rf1 /\
    exec (VWiden WAdd W2 W1) true strip
      {| o_s0 := SVec vd N; o_s1 := SScal 0; o_vd := we; o_nd := 2 * N |} junk2 rf1 = Ok rf2 /\
    exec (VWiden WAdd W2 W1) true strip
      {| o_s0 := SVec (vd + N) N; o_s1 := SScal 0; o_vd := we + 2 * N; o_nd := 2 * N |} junk3 rf2
      = Ok rf3 /\
    exec (VNarrow r n W2) true strip
      {| o_s0 := SVec we (4 * N); o_s1 := SScal 0; o_vd := ve; o_nd := N |} junk4 rf3 = Ok rf4 /\
    forall k j, 0 <= k < N -> 0 <= j < 32 -> rf4 (ve + k) j = rf (vs + k) j.
Proof. exact VecRound.widen2_narrow4. Qed.
Print Assumptions C16_widen_twice_narrow.
Example C16_case :
  wide_pair I16 I8 /\ no_hazard 4 8 4 /\ no_hazard 4 (8 + 4) 4 /\ no_hazard 4 4 8 /\
  match exec (VWiden WAdd I16 I8) true true (opnds 4 4 (SScal 0) 8 8) junk0 rf0 with
  | Ok rf1 =>
      match exec (VNarrow true I8 I16) true true (opnds 8 8 (SScal 0) 4 4) junk0 rf1 with
      | Ok rf2 => Some (rf2 6 9)
      | _ => None end
  | _ => None end = Some 161 /\ rf0 6 9 = 161.
Proof. calc. Qed.
