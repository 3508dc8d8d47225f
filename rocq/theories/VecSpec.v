(** * Specification of the vector instructions

    Plain mathematics on lanes of a register file.  Only the names of the
    instructions ([elop], ...) and of the C++ types ([ity], used here just as a
    width and a signedness) come from the model. *)
From Coq Require Import ZArith List Bool.
From Verif Require Import CInt VecModel LaneSpec.
Import ListNotations.
Open Scope Z_scope.

(** Unsigned value of [n] bytes starting at [off], least significant first. *)
Definition uval (n : nat) (b : Z -> Z) (off : Z) : Z :=
  fold_right Z.add 0 (map (fun j => b (off + Z.of_nat j) * 2 ^ (8 * Z.of_nat j)) (seq 0 n)).
(** Two's complement (or unsigned) reading of the low [bits T] bits of [x]. *)
Definition trunc (T : ity) (x : Z) : Z :=
  let u := x mod 2 ^ bits T in
  if is_signed T && (2 ^ (bits T - 1) <=? u) then u - 2 ^ bits T else u.
(** Lane [i] of a register. *)
Definition lane (T : ity) (r : Z -> Z) (i : Z) : Z :=
  trunc T (uval (Z.to_nat (bits T / 8)) r (i * (bits T / 8))).
(** Lanes per register. *)
Definition nlanes (T : ity) : Z := 256 / bits T.
(** Lane [i] of the registers [base], [base+1], ... taken as one sequence. *)
Definition glane (T : ity) (rf : vregs) (base i : Z) : Z :=
  lane T (rf (base + i / nlanes T)) (i mod nlanes T).
(** Every byte of every register is a byte. *)
Definition wf (rf : vregs) : Prop := forall r j, 0 <= j < 32 -> 0 <= rf r j < 256.

(** What lane value [v] a non-strip element-wise operation must produce from the
    old destination lane [d] and the operand lanes [a], [b]. *)
Definition lane_spec (o : elop) (T : ity) (d a b v : Z) : Prop :=
  let n := bits T in let sg := is_signed T in
  let modn x := is_mod n sg x v in
  let truth (P : Prop) := (P /\ v = 1) \/ (~ P /\ v = 0) in
  let bitwise f := fits n sg v /\
    forall i, 0 <= i < n -> Z.testbit v i = f (Z.testbit a i) (Z.testbit b i) in
  match o with
  | OAdd => modn (a + b) | OSub => modn (a - b) | ORsub => modn (b - a)
  | OAdd3 => modn (d + a + b) | OMul => modn (a * b)
  | OMacc => modn (d + a * b) | OMadd => modn (a + d * b)
  | OEq => truth (a = b) | ONe => truth (a <> b) | OLt => truth (a < b)
  | OLe => truth (a <= b) | OGt => truth (a > b) | OGe => truth (a >= b)
  | OAbsd => v = Z.abs (a - b)
  | OMax => v = Z.max a b | OMin => v = Z.min a b
  | OAdds | OAddsu => v = clamp n sg (a + b)
  | OSubs | OSubsu => v = clamp n sg (a - b)
  | OMuls => v = clamp n sg (a * b)
  | OHadd r => v = (a + b + (if r then 1 else 0)) / 2
  | OHsub r => modn ((a - b + (if r then 1 else 0)) / 2)
  | OAnd => bitwise andb | OOr => bitwise orb | OXor => bitwise xorb
  | ORev => fits n sg v /\
      forall i, 0 <= i < n -> Z.testbit v i = Z.testbit a (Z.lxor i (b mod n))
  | ORor => fits n sg v /\
      forall i, 0 <= i < n -> Z.testbit v i = Z.testbit a ((i + b) mod n)
  | OSll => modn (a * 2 ^ (b mod n))
  | OSrl | OSra => v = a / 2 ^ (b mod n)
  | OShift r => forall s, is_mod n true b s ->
      v = clamp n sg (if 0 <? s then (a + (if r then 2 ^ (s - 1) else 0)) / 2 ^ s
                      else a * 2 ^ (- s))
  | OMulh r => v = (a * b + (if r then 2 ^ (n - 1) else 0)) / 2 ^ n
  | ODmulh r rn =>
      let mn := - 2 ^ (n - 1) in
      (a = mn /\ b = mn /\ v = 2 ^ (n - 1) - 1) \/
      (~ (a = mn /\ b = mn) /\
       v = (a * b + (if r then if rn && (a * b <? 0) then - 2 ^ (n - 2) else 2 ^ (n - 2)
                     else 0)) / 2 ^ (n - 1))
  | OSel => v = if Z.odd a then d else b
  end.
(** Operands for which the operation is defined: all of them, except a non-zero
    32-bit lane shifted by -2^31. *)
Definition lane_pre (o : elop) (T : ity) (a b : Z) : Prop :=
  match o with
  | OShift _ => ~ (bits T = 32 /\ a <> 0 /\ is_mod (bits T) true b (- 2 ^ 31))
  | _ => True
  end.
(** Type of the destination lanes: absolute differences are unsigned. *)
Definition dst_ty (o : elop) (T : ity) : ity :=
  match o with
  | OAbsd => match T with I8 => U8 | I16 => U16 | I32 => U32 | t => t end
  | _ => T
  end.

(** Unary operations. *)
Definition un_spec (o : unop) (T : ity) (a v : Z) : Prop :=
  let n := bits T in
  match o with
  | UNot => fits n (is_signed T) v /\
            forall i, 0 <= i < n -> Z.testbit v i = negb (Z.testbit a i)
  | UMv => v = a
  | UClz => leading false n a v
  | UClb => leading (Z.testbit a (n - 1)) n a v
  | UCpop => v = ones n a
  end.
Definition un_legal (o : unop) (T : ity) : Prop :=
  match o with UNot | UMv => T = I32 | _ => In T [U8; U16; U32] end.

(** Registers read by steps 0..N-1 of an element-wise operation from [vs] are
    not overwritten by an earlier step: the destination does not start 1..N-1
    registers above the source. *)
Definition no_hazard (N vd vs : Z) : Prop := ~ (0 < vd - vs < N).

(** The second operand of a (possibly scalar) operation. *)
Definition arg2 (T : ity) (rf : vregs) (s : src) (k i : Z) : Z :=
  match s with SVec b _ => lane T (rf (b + k)) i | SScal x => trunc T x end.
Definition second_ok (s : src) (scalar : bool) (N vd : Z) : Prop :=
  match s with
  | SVec b n => scalar = false /\ N <= n /\ no_hazard N vd b
  | SScal _ => scalar = true
  end.
(** Only registers vd .. vd+n-1 differ between [rf] and [rf']. *)
Definition only_written (vd n : Z) (rf rf' : vregs) : Prop :=
  forall r, ~ (vd <= r < vd + n) -> forall j, rf' r j = rf r j.
Definition nops (strip : bool) : Z := if strip then 4 else 1.

(** Widening: operand pairs (wide, narrow) and results. *)
Definition wide_pair (Td Ts : ity) : Prop :=
  In (Td, Ts) [(I16, I8); (I32, I16); (U16, U8); (U32, U16)].
Definition w_spec (o : wop) (Td Ts : ity) (a b v : Z) : Prop :=
  match o with
  | WAdd => v = a + b
  | WMul => v = a * b
  | WSub => is_mod (bits Td) (is_signed Td) (a - b) v /\ (is_signed Ts = true -> v = a - b)
  end.
(** Narrowing: operand pairs (narrow, wide), which wide register of a step holds
    narrow lane [e] (layout left by one or two widening operations). *)
Definition narrow_pair (Td Ts : ity) : Prop :=
  In (Td, Ts) [(I8, I16); (I16, I32); (U8, U16); (U16, U32); (I8, I32); (U8, U32)].
Definition ratio (Td Ts : ity) : Z := bits Ts / bits Td.
Definition narrow_reg (f e : Z) : Z :=
  match e mod f with 0 => 0 | 1 => if f =? 2 then 1 else 2 | 2 => 1 | _ => 3 end.

(** Lane [J] of an operand taken as a sequence; a scalar is the same everywhere. *)
Definition gsrc (T : ity) (rf : vregs) (s : src) (J : Z) : Z :=
  match s with SVec b _ => glane T rf b J | SScal x => trunc T x end.
(** Lane [J] of the [n] lanes of [s1] followed by the lanes of [s2]. *)
Definition cat2 (T : ity) (rf : vregs) (s1 s2 : src) (n J : Z) : Z :=
  if J <? n then gsrc T rf s1 J else gsrc T rf s2 (J - n).
Definition disjoint (a n b m : Z) : Prop := a + n <= b \/ b + m <= a.
(** The second operand: N registers not overlapping the nd registers at vd
    (irrelevant when there is a single step), or a scalar. *)
Definition apart (N vd nd vs n : Z) : Prop := N = 1 \/ disjoint vd nd vs n.
Definition second_apart (s : src) (scalar : bool) (N vd nd : Z) : Prop :=
  match s with
  | SVec b n => scalar = false /\ N <= n /\ apart N vd nd b N
  | SScal _ => scalar = true
  end.
(** What lane [J] of the destination group(s) of a permutation holds; N steps,
    L lanes per register. *)
Definition perm_lane (p : perm) (T : ity) (rf : vregs) (N : Z) (vs1 : Z) (s2 : src) (J : Z) : Z :=
  let L := nlanes T in let s1 := SVec vs1 N in
  match p with
  | PSliden true k => cat2 T rf s1 s2 (4 * L) (J + k)
  | PSlidep true k => cat2 T rf s1 s2 (4 * L) (4 * L + J - k)
  | PSliden false k =>
      if J mod L + k <? L then gsrc T rf s1 (J + k) else gsrc T rf s2 (J + k - L)
  | PSlidep false k =>
      if k <=? J mod L then gsrc T rf s2 (J - k) else gsrc T rf s1 (J - k + L)
  | PEvn => cat2 T rf s1 s2 (N * L) (2 * J)
  | POdd => cat2 T rf s1 s2 (N * L) (2 * J + 1)
  | PEvnodd => if J <? N * L then cat2 T rf s1 s2 (N * L) (2 * J)
               else cat2 T rf s1 s2 (N * L) (2 * (J - N * L) + 1)
  | PZip => if Z.even J then gsrc T rf s1 (J / 2) else gsrc T rf s2 (J / 2)
  | PMvp => cat2 T rf s1 s2 (N * L) J
  end.
(** Destination registers of a permutation with N steps. *)
Definition perm_regs (p : perm) (N : Z) : Z :=
  match p with PEvnodd | PZip | PMvp => 2 * N | _ => N end.
(** Slide distances are 1..4; slides take two vector operands and horizontal ones
    always work on four registers. *)
Definition perm_ok (p : perm) (scalar strip : bool) : Prop :=
  match p with
  | PSliden h k | PSlidep h k => 1 <= k <= 4 /\ scalar = false /\ (h = true -> strip = true)
  | _ => True
  end.

(** The instructions that exist. *)
Definition legal_inst (i : vinst) : Prop :=
  match i with
  | VEl o T => el_legal o T = true
  | VWiden _ Td Ts | VAcc Td Ts | VPair _ Td Ts => wide_pair Td Ts
  | VUn o T => un_legal o T
  | VNarrow _ Td Ts => narrow_pair Td Ts
  | VPerm _ T => In T [I8; I16; I32; U8; U16; U32]
  end.
(** Number of destination registers. *)
Definition dest_regs (i : vinst) (strip : bool) : Z :=
  let N := nops strip in
  match i with
  | VWiden _ _ _ | VAcc _ _ => 2 * N
  | VPerm (PSliden true _) _ | VPerm (PSlidep true _) _ => 4
  | VPerm p _ => perm_regs p N
  | _ => N
  end.
(** Equal contents of all 32-byte registers. *)
Definition same_regs (rf rf' : vregs) : Prop := forall r j, 0 <= j < 32 -> rf r j = rf' r j.
Definition same_outcome (a b : outcome vregs) : Prop :=
  match a, b with
  | Ok x, Ok y => same_regs x y
  | UB x, UB y => x = y
  | Crash, Crash => True
  | _, _ => False
  end.

(** Every execution of the element-wise instruction [o] on lanes of type [T],
    with operands for which [pre] holds lane by lane, terminates normally, writes
    only vd .. vd+N-1 and puts into each lane (read as [Tv]) a value [v] with
    [P d a b v]: d the old destination lane, a and b the operand lanes.  N is 4
    for strip-mined instructions, else 1; nd, n1 and the length in [s2] are the
    sizes of the operand groups. *)
Definition elementwise (o : elop) (T Tv : ity) (pre : Z -> Z -> Prop)
           (P : Z -> Z -> Z -> Z -> Prop) : Prop :=
  forall scalar strip vd nd vs1 n1 s2 junk rf,
  let N := nops strip in
  wf rf -> N <= nd -> N <= n1 -> no_hazard N vd vs1 -> second_ok s2 scalar N vd ->
  (forall k i, 0 <= k < N -> 0 <= i < nlanes T ->
     pre (lane T (rf (vs1 + k)) i) (arg2 T rf s2 k i)) ->
  exists rf',
    exec (VEl o T) scalar strip
      {| o_s0 := SVec vs1 n1; o_s1 := s2; o_vd := vd; o_nd := nd |} junk rf = Ok rf' /\
    wf rf' /\ only_written vd N rf rf' /\
    forall k i, 0 <= k < N -> 0 <= i < nlanes T ->
      P (lane T (rf (vd + k)) i) (lane T (rf (vs1 + k)) i) (arg2 T rf s2 k i)
        (lane Tv (rf' (vd + k)) i).
Definition always : Z -> Z -> Prop := fun _ _ => True.
(** The same for unary instructions. *)
Definition unarywise (o : unop) (T : ity) (P : Z -> Z -> Prop) : Prop :=
  forall scalar strip vd nd vs1 n1 s2 junk rf,
  let N := nops strip in
  wf rf -> N <= nd -> N <= n1 -> no_hazard N vd vs1 ->
  exists rf',
    exec (VUn o T) scalar strip
      {| o_s0 := SVec vs1 n1; o_s1 := s2; o_vd := vd; o_nd := nd |} junk rf = Ok rf' /\
    wf rf' /\ only_written vd N rf rf' /\
    forall k i, 0 <= k < N -> 0 <= i < nlanes T ->
      P (lane T (rf (vs1 + k)) i) (lane T (rf' (vd + k)) i).
(** Second operand of a widening instruction: its steps write vd+k and vd+N+k. *)
Definition second_wide (s : src) (scalar : bool) (N vd : Z) : Prop :=
  match s with
  | SVec b n => scalar = false /\ N <= n /\ no_hazard N vd b /\ no_hazard N (vd + N) b
  | SScal _ => scalar = true
  end.
(** The operand of step [k] of a strip-mined instruction, as a single-register
    operand. *)
Definition shift_src (s : src) (k : Z) : src :=
  match s with SVec b n => SVec (b + k) 1 | SScal x => SScal x end.
