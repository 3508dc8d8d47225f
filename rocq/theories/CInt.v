(** * C++ fixed-width integer arithmetic (C++17 rules, LP64, two's complement)

    The simulator is compiled with -std=c++17 (/repo/.bazelrc).  This file
    models exactly the integer operations its lane lambdas use.  Undefined
    behaviour is a separate outcome, never a number. *)
From Coq Require Export ZArith Bool List Lia.
Export ListNotations.
Open Scope Z_scope.

(** Integer types used by the templates ([int8_t] ... [uint64_t]).  [int] is
    [I32]; [size_t] is [U64]; [long], [long long] and [int64_t] are [I64]. *)
Inductive ity := I8 | U8 | I16 | U16 | I32 | U32 | I64 | U64.

Definition bits (t : ity) : Z :=
  match t with I8 | U8 => 8 | I16 | U16 => 16 | I32 | U32 => 32 | _ => 64 end.
(** [sizeof(T)]. *)
Definition sizeof (t : ity) : Z :=
  match t with I8 | U8 => 1 | I16 | U16 => 2 | I32 | U32 => 4 | _ => 8 end.
(** [std::is_signed<T>::value]. *)
Definition is_signed (t : ity) : bool :=
  match t with I8 | I16 | I32 | I64 => true | _ => false end.
Definition modulus (t : ity) : Z :=
  match t with
  | I8 | U8 => 256 | I16 | U16 => 65536 | I32 | U32 => 4294967296
  | _ => 18446744073709551616 end.
Definition half (t : ity) : Z :=
  match t with
  | I8 | U8 => 128 | I16 | U16 => 32768 | I32 | U32 => 2147483648
  | _ => 9223372036854775808 end.
(** [std::numeric_limits<T>::min()/max()]. *)
Definition tmin (t : ity) : Z := if is_signed t then - half t else 0.
Definition tmax (t : ity) : Z :=
  if is_signed t then half t - 1 else modulus t - 1.
Definition in_range (t : ity) (v : Z) : bool := (tmin t <=? v) && (v <=? tmax t).

(** Value conversion to [t] (modular; implementation-defined but modular in
    clang/gcc for signed targets before C++20). *)
Definition wrap (t : ity) (v : Z) : Z :=
  if is_signed t then (v + half t) mod modulus t - half t else v mod modulus t.

(** [std::make_unsigned], [std::make_signed]. *)
Definition make_unsigned (t : ity) : ity :=
  match t with I8 => U8 | I16 => U16 | I32 => U32 | I64 => U64 | _ => t end.
Definition make_signed (t : ity) : ity :=
  match t with U8 => I8 | U16 => I16 | U32 => I32 | U64 => I64 | _ => t end.
(** [mpact::sim::generic::WideType<T>::type] (mpact-sim type_helpers.h): the
    type of twice the width and the same signedness.  The 64-bit cases (128-bit
    types) are not used by this repo. *)
Definition wide (t : ity) : ity :=
  match t with I8 => I16 | U8 => U16 | I16 => I32 | U16 => U32
             | I32 => I64 | U32 => U64 | I64 => I64 | U64 => U64 end.

(** Reasons for undefined behaviour. *)
Inductive ub_kind :=
| SignedOverflow | BadShift | OutOfBounds | Uninitialised | NullDeref | NoReturn.
(** Outcome of a C++ computation: a value, undefined behaviour, or the process
    aborting on a failed CHECK / uncaught exception. *)
Inductive outcome (A : Type) :=
| Ok (a : A) | UB (k : ub_kind) | Crash.
Arguments Ok {A} a.
Arguments UB {A} k.
Arguments Crash {A}.

Definition bind {A B} (o : outcome A) (f : A -> outcome B) : outcome B :=
  match o with Ok a => f a | UB k => UB k | Crash => Crash end.
Notation "x <- e ;; k" := (bind e (fun x => k))
  (at level 100, e at next level, right associativity).

(** A typed rvalue. *)
Record cv := CV { cty : ity; cval : Z }.

(** [static_cast<t>(v)], also implicit conversion on return/assignment. *)
Definition cast (t : ity) (v : cv) : cv := CV t (wrap t (cval v)).

(** Integer promotion [conv.prom]. *)
Definition promote (t : ity) : ity :=
  match t with I8 | U8 | I16 | U16 => I32 | _ => t end.
(** Usual arithmetic conversions [expr.arith.conv]. *)
Definition uac (t1 t2 : ity) : ity :=
  match promote t1, promote t2 with
  | U64, _ | _, U64 => U64
  | I64, _ | _, I64 => I64        (* int64 represents all uint32 values *)
  | I32, I32 => I32
  | _, _ => U32
  end.

(** Result of an arithmetic operation of type [t] whose exact value is [r]:
    unsigned wraps, signed overflow is undefined [expr.pre]/4. *)
Definition arith_result (t : ity) (r : Z) : outcome cv :=
  if is_signed t then (if in_range t r then Ok (CV t r) else UB SignedOverflow)
  else Ok (CV t (wrap t r)).
Definition arith (f : Z -> Z -> Z) (a b : cv) : outcome cv :=
  let t := uac (cty a) (cty b) in
  arith_result t (f (wrap t (cval a)) (wrap t (cval b))).
Definition c_add := arith Z.add.
Definition c_sub := arith Z.sub.
Definition c_mul := arith Z.mul.
(** Unary minus. *)
Definition c_neg (a : cv) : outcome cv :=
  let t := promote (cty a) in arith_result t (- wrap t (cval a)).
(** Bitwise operators on two's complement values. *)
Definition c_bit (f : Z -> Z -> Z) (a b : cv) : cv :=
  let t := uac (cty a) (cty b) in
  CV t (f (wrap t (cval a)) (wrap t (cval b))).
Definition c_and := c_bit Z.land.
Definition c_or := c_bit Z.lor.
Definition c_xor := c_bit Z.lxor.
Definition c_not (a : cv) : cv :=
  let t := promote (cty a) in CV t (wrap t (Z.lnot (wrap t (cval a)))).
(** Left shift, C++17 [expr.shift]/2: undefined for a negative left operand and
    when the result is not representable in the unsigned counterpart. *)
Definition c_shl (a b : cv) : outcome cv :=
  let t := promote (cty a) in
  let x := wrap t (cval a) in
  let s := cval b in
  if (s <? 0) || (bits t <=? s) then UB BadShift
  else if is_signed t
       then if (x <? 0) || (modulus t <=? x * 2 ^ s) then UB BadShift
            else Ok (CV t (wrap t (x * 2 ^ s)))
       else Ok (CV t (wrap t (x * 2 ^ s))).
(** Right shift; arithmetic for negative values (implementation-defined before
    C++20, arithmetic in clang/gcc). *)
Definition c_shr (a b : cv) : outcome cv :=
  let t := promote (cty a) in
  let x := wrap t (cval a) in
  let s := cval b in
  if (s <? 0) || (bits t <=? s) then UB BadShift
  else Ok (CV t (x / 2 ^ s)).
(** Comparisons, after the usual arithmetic conversions. *)
Definition c_cmp (f : Z -> Z -> bool) (a b : cv) : bool :=
  let t := uac (cty a) (cty b) in f (wrap t (cval a)) (wrap t (cval b)).
Definition c_lt := c_cmp Z.ltb.
Definition c_le := c_cmp Z.leb.
Definition c_gt := c_cmp (fun x y => y <? x).
Definition c_ge := c_cmp (fun x y => y <=? x).
Definition c_eq := c_cmp Z.eqb.
Definition c_ne := c_cmp (fun x y => negb (x =? y)).
(** Contextual conversion to bool. *)
Definition c_true (a : cv) : bool := negb (cval a =? 0).
(** bool -> int. *)
Definition of_bool (b : bool) : cv := CV I32 (if b then 1 else 0).
(** Literals. *)
Definition lit (z : Z) : cv := CV I32 z.       (* 1, 0x55555555 *)
Definition ulit (z : Z) : cv := CV U32 z.      (* 1u, 0xAAAAAAAA *)
Definition llit (z : Z) : cv := CV I64 z.      (* 1ll *)
Definition ullit (z : Z) : cv := CV U64 z.     (* 1ull, sizeof values *)
(** [c ? a : b] with arithmetic operands of possibly different types. *)
Definition c_cond (c : bool) (a b : cv) : cv :=
  let t := uac (cty a) (cty b) in
  let t := if match cty a, cty b with
              | I8, I8 | U8, U8 | I16, I16 | U16, U16
              | I32, I32 | U32, U32 | I64, I64 | U64, U64 => true
              | _, _ => false end then cty a else t in
  cast t (if c then a else b).
(** [std::numeric_limits<t>]. *)
Definition lim_min (t : ity) : cv := CV t (tmin t).
Definition lim_max (t : ity) : cv := CV t (tmax t).
