(** * Lane-level properties C01-C11 (and the lane part of C12)

    Each theorem is about the C++ lambda of one vector instruction, evaluated
    with C++17 integer semantics ([Ok v]: returns v; [UB _]: undefined
    behaviour; [Crash]: the process aborts).  [fits n s v] says v is an n-bit
    lane value, [is_mod n s x v] that v is the lane value congruent to x modulo
    2^n, [clamp n s x] the clamping of x.  The instruction-level versions (all
    lanes of all registers of a register file) are in PropVec.v. *)
From Verif Require Import CInt Lane LaneSpec.
From Verif Require LaneProofs LaneProofs2 LaneProofs3 LaneProofs4 LaneCor.
Import ListNotations.

Definition sgn (T : ity) : Prop := In T [I8; I16; I32].
Definition uns (T : ity) : Prop := In T [U8; U16; U32].
Definition any (T : ity) : Prop := sgn T \/ uns T.
Definition lane (T : ity) (v : Z) : Prop := fits (bits T) (is_signed T) v.

(** ** C01 *)
Theorem C01_wrap_arithmetic_lane : forall T d a b, sgn T ->
  lane T d -> lane T a -> lane T b ->
  let res o x := exists v, o = Ok v /\ is_mod (bits T) (is_signed T) x v in
  res (l_vadd T a b) (a + b) /\ res (l_vsub T a b) (a - b) /\
  res (l_vrsub T a b) (b - a) /\ res (l_vadd3 T d a b) (d + a + b) /\
  res (l_vmul T a b) (a * b) /\ res (l_vmacc T d a b) (d + a * b) /\
  res (l_vmadd T d a b) (a + d * b).
Proof. exact LaneCor.c01. Qed.
Print Assumptions C01_wrap_arithmetic_lane.
Example C01_lane_case : sgn I32 /\ lane I32 (-2147483648) /\ lane I32 2147483647 /\
  l_vmacc I32 2147483647 (-2147483648) 2147483647 = Ok (-1).
Proof. unfold sgn, lane, fits. cbn. repeat split; auto; discriminate. Qed.

(** ** C02 *)
Theorem C02_saturating_lane : forall T a b, lane T a -> lane T b ->
  let res o x := o = Ok (clamp (bits T) (is_signed T) x) in
  (sgn T -> res (l_vadds T a b) (a + b)) /\ (uns T -> res (l_vaddsu T a b) (a + b)) /\
  (sgn T -> res (l_vsubs T a b) (a - b)) /\ (uns T -> res (l_vsubsu T a b) (a - b)) /\
  (any T -> res (l_vmuls T a b) (a * b)).
Proof. exact LaneCor.c02. Qed.
Print Assumptions C02_saturating_lane.
Example C02_lane_case : lane I8 (-128) /\ l_vsubs I8 (-128) 1 = Ok (-128) /\
  l_vmuls U32 4294967295 4294967295 = Ok 4294967295.
Proof. unfold lane, fits. cbn. repeat split; discriminate. Qed.

(** ** C03 *)
Theorem C03_compare_lane : forall T a b, any T -> lane T a -> lane T b ->
  let tv (o : outcome Z) (P : Prop) := (P /\ o = Ok 1) \/ (~ P /\ o = Ok 0) in
  (sgn T -> tv (l_veq T a b) (a = b) /\ tv (l_vne T a b) (a <> b)) /\
  tv (l_vlt T a b) (a < b) /\ tv (l_vle T a b) (a <= b) /\
  tv (l_vgt T a b) (a > b) /\ tv (l_vge T a b) (a >= b) /\
  l_vmax T a b = Ok (Z.max a b) /\ l_vmin T a b = Ok (Z.min a b) /\
  l_vabsd T a b = Ok (Z.abs (a - b)) /\ fits (bits T) false (Z.abs (a - b)).
Proof. exact LaneCor.c03. Qed.
Print Assumptions C03_compare_lane.
Example C03_lane_case : lane I8 (-128) /\ lane I8 127 /\ l_vabsd I8 (-128) 127 = Ok 255 /\
  l_vlt I8 (-128) 127 = Ok 1 /\ l_vge U8 128 127 = Ok 1.
Proof. unfold lane, fits. cbn. repeat split; discriminate. Qed.

(** ** C04 *)
Theorem C04_halving_lane : forall T (r : bool) a b, any T -> lane T a -> lane T b ->
  let rn := if r then 1 else 0 in
  l_vhadd T r a b = Ok ((a + b + rn) / 2) /\ lane T ((a + b + rn) / 2) /\
  exists v, l_vhsub T r a b = Ok v /\
            is_mod (bits T) (is_signed T) ((a - b + rn) / 2) v.
Proof. exact LaneCor.c04. Qed.
Print Assumptions C04_halving_lane.
Example C04_lane_case : l_vhadd U8 true 255 255 = Ok 255 /\ l_vhadd I8 false (-128) (-127) = Ok (-128)
  /\ l_vhsub U8 false 0 255 = Ok 128.
Proof. repeat split. Qed.

(** ** C05 *)
Theorem C05_mulh_lane : forall T (r : bool) a b, any T -> lane T a -> lane T b ->
  let x := (a * b + (if r then 2 ^ (bits T - 1) else 0)) / 2 ^ bits T in
  l_vmulh T r a b = Ok x /\ lane T x.
Proof. exact LaneCor.c05. Qed.
Print Assumptions C05_mulh_lane.
Example C05_lane_case :
  l_vmulh I32 true (-2147483648) (-2147483648) = Ok 1073741824 /\
  l_vmulh U32 true 4294967295 4294967295 = Ok 4294967294.
Proof. repeat split. Qed.

(** ** C06: without rounding, and with the .r rounding, the result is the floor. *)
Theorem C06_dmulh_lane : forall T a b, sgn T -> lane T a -> lane T b ->
  let mn := - 2 ^ (bits T - 1) in
  let q r := (a * b + (if r : bool then 2 ^ (bits T - 2) else 0)) / 2 ^ (bits T - 1) in
  forall r,
  (a = mn /\ b = mn -> l_vdmulh T r false a b = Ok (2 ^ (bits T - 1) - 1)) /\
  (~ (a = mn /\ b = mn) -> l_vdmulh T r false a b = Ok (q r) /\ lane T (q r)).
Proof. exact LaneCor.c06. Qed.
Print Assumptions C06_dmulh_lane.
(** The .rn form is exactly this, for every operand pair. *)
Theorem C06_dmulh_rn_exact_lane : forall T a b, sgn T -> lane T a -> lane T b ->
  let mn := - 2 ^ (bits T - 1) in
  ~ (a = mn /\ b = mn) ->
  l_vdmulh T true true a b =
  Ok ((a * b + (if a * b <? 0 then - 2 ^ (bits T - 2) else 2 ^ (bits T - 2)))
      / 2 ^ (bits T - 1)).
Proof. exact LaneCor.c06_rn. Qed.
Print Assumptions C06_dmulh_rn_exact_lane.
(** It is not rounding to nearest: the error can exceed one half, in fact it
    reaches 1 + 1/2 - 2^-(n-1) units. *)
Theorem C06_dmulh_rn_nearest_refuted :
  exists T a b v, sgn T /\ lane T a /\ lane T b /\
    ~ (a = - 2 ^ (bits T - 1) /\ b = - 2 ^ (bits T - 1)) /\
    l_vdmulh T true true a b = Ok v /\
    ~ (2 * Z.abs (v * 2 ^ (bits T - 1) - a * b) <= 2 ^ (bits T - 1)).
Proof. exact LaneCor.c06_refuted. Qed.
Print Assumptions C06_dmulh_rn_nearest_refuted.
Example C06_lane_case : l_vdmulh I8 true false (-128) (-128) = Ok 127 /\
  l_vdmulh I8 true false (-128) 127 = Ok (-127) /\ l_vdmulh I8 true true 1 (-1) = Ok (-1).
Proof. repeat split. Qed.

(** ** C07: for every operand pair except a non-zero 32-bit value shifted by
    -2^31.  [s] is the second operand read as a signed lane. *)
Theorem C07_shift_lane_partial : forall T (r : bool) a b s, any T -> lane T a -> lane T b ->
  is_mod (bits T) true b s ->
  ~ (bits T = 32 /\ a <> 0 /\ s = - 2 ^ 31) ->
  l_vshift T r a b =
  Ok (clamp (bits T) (is_signed T)
        (if 0 <? s then (a + (if r then 2 ^ (s - 1) else 0)) / 2 ^ s else a * 2 ^ (- s))).
Proof. exact LaneCor.c07. Qed.
Print Assumptions C07_shift_lane_partial.
(** The excluded operands always reach an undefined negation. *)
Theorem C07_shift_min_refuted : forall T (r : bool) a b, T = I32 \/ T = U32 ->
  lane T a -> lane T b -> a <> 0 -> is_mod (bits T) true b (- 2 ^ 31) ->
  l_vshift T r a b = UB SignedOverflow.
Proof. exact LaneCor.c07_refuted. Qed.
Print Assumptions C07_shift_min_refuted.
Example C07_lane_case : l_vshift I8 true (-3) 1 = Ok (-1) /\ l_vshift I8 false 5 (-128) = Ok 127 /\
  l_vshift U32 true 4294967295 32 = Ok 1 /\ l_vshift I32 false 1 (-2147483648) = UB SignedOverflow.
Proof. repeat split. Qed.

(** ** C08 *)
Theorem C08_narrowing_lane : forall Td Ts (r : bool) a b,
  In (Td, Ts) [(I8, I16); (I16, I32); (U8, U16); (U16, U32); (I8, I32); (U8, U32)] ->
  lane Ts a -> lane Td b ->
  let s := b mod bits Ts in
  l_vsrans Td Ts r a b =
  Ok (clamp (bits Td) (is_signed Td)
        ((a + (if r && (0 <? s) then 2 ^ (s - 1) else 0)) / 2 ^ s)).
Proof. exact LaneCor.c08. Qed.
Print Assumptions C08_narrowing_lane.
Example C08_lane_case : l_vsrans I8 I16 true 255 9 = Ok 0 /\ l_vsrans I8 I32 true (-2147483648) (-1) = Ok (-1)
  /\ l_vsrans U8 U16 false 65535 7 = Ok 255.
Proof. repeat split. Qed.

(** ** C09 *)
Theorem C09_shifts_lane : forall T a b, lane T a -> lane T b ->
  let s := b mod bits T in
  (uns T -> exists v, l_vsll T a b = Ok v /\ is_mod (bits T) false (a * 2 ^ s) v) /\
  (uns T -> l_vsrl T a b = Ok (a / 2 ^ s)) /\
  (sgn T -> l_vsra T a b = Ok (a / 2 ^ s)).
Proof. exact LaneCor.c09. Qed.
Print Assumptions C09_shifts_lane.
Example C09_lane_case : l_vsll U8 255 9 = Ok 254 /\ l_vsra I32 (-5) 33 = Ok (-3) /\
  l_vsrl U16 65535 31 = Ok 1.
Proof. repeat split. Qed.

(** ** C10 *)
Theorem C10_rev_ror_lane : forall T a b, uns T -> lane T a -> lane T b ->
  (exists v, l_vrev T a b = Ok v /\ lane T v /\
     (forall i, 0 <= i < bits T ->
        Z.testbit v i = Z.testbit a (Z.lxor i (b mod bits T))) /\
     l_vrev T v b = Ok a) /\
  (exists v, l_vror T a b = Ok v /\ lane T v /\
     (forall i, 0 <= i < bits T -> Z.testbit v i = Z.testbit a ((i + b) mod bits T)) /\
     (forall c s, lane T c -> is_mod (bits T) false (b + c) s ->
        l_vror T v c = l_vror T a s)).
Proof. exact LaneCor.c10. Qed.
Print Assumptions C10_rev_ror_lane.
Example C10_lane_case : l_vrev U32 305419896 31 = Ok 510274632 /\ l_vror U8 129 9 = Ok 192.
Proof. repeat split. Qed.

(** ** C11 *)
Theorem C11_bitwise_lane : forall T a b, uns T -> lane T a -> lane T b ->
  let bitwise (o : outcome Z) (f : bool -> bool -> bool) :=
    exists v, o = Ok v /\ lane T v /\
      forall i, 0 <= i < bits T -> Z.testbit v i = f (Z.testbit a i) (Z.testbit b i) in
  bitwise (l_vand T a b) andb /\ bitwise (l_vor T a b) orb /\ bitwise (l_vxor T a b) xorb /\
  (exists k, l_vclz T a = Ok k /\ leading false (bits T) a k) /\
  (exists k, l_vclb T a = Ok k /\ leading (Z.testbit a (bits T - 1)) (bits T) a k) /\
  l_vcpop T a = Ok (ones (bits T) a).
Proof. exact LaneCor.c11. Qed.
Print Assumptions C11_bitwise_lane.
Theorem C11_not_mv_lane : forall a, lane I32 a ->
  l_vmv I32 a = Ok a /\
  exists v, l_vnot I32 a = Ok v /\ lane I32 v /\
    forall i, 0 <= i < 32 -> Z.testbit v i = negb (Z.testbit a i).
Proof. exact LaneCor.c11_not. Qed.
Print Assumptions C11_not_mv_lane.
Example C11_lane_case : l_vclz U16 0 = Ok 16 /\ l_vclb U8 240 = Ok 4 /\ l_vcpop U32 4294967295 = Ok 32
  /\ l_vnot I32 5 = Ok (-6) /\ l_vxor U8 240 170 = Ok 90.
Proof. repeat split. Qed.

(** ** C12, lane part *)
Theorem C12_widening_lane : forall Td Ts a b,
  In (Td, Ts) [(I16, I8); (I32, I16); (U16, U8); (U32, U16)] ->
  lane Ts a -> lane Ts b ->
  l_vaddw Td Ts a b = Ok (a + b) /\ l_vmulw Td Ts a b = Ok (a * b) /\
  l_vpadd Td Ts a b = Ok (a + b) /\
  (is_signed Ts = true -> l_vsubw Td Ts a b = Ok (a - b) /\ l_vpsub Td Ts a b = Ok (a - b)) /\
  (exists v, l_vsubw Td Ts a b = Ok v /\ is_mod (bits Td) (is_signed Td) (a - b) v) /\
  (exists v, l_vpsub Td Ts a b = Ok v /\ is_mod (bits Td) (is_signed Td) (a - b) v) /\
  (forall w, lane Td w ->
     exists v, l_vacc Td Ts w b = Ok v /\ is_mod (bits Td) (is_signed Td) (w + b) v).
Proof. exact LaneCor.c12. Qed.
Print Assumptions C12_widening_lane.
Example C12_lane_case : l_vmulw I16 I8 (-128) (-128) = Ok 16384 /\ l_vsubw U16 U8 0 1 = Ok 65535
  /\ l_vacc I32 I16 2147483647 32767 = Ok (-2147450882).
Proof. repeat split. Qed.
