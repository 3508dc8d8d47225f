(** * Mathematical specification of the lane operations

    Independent of the C arithmetic of Lane.v: plain integers, floor division
    and bit positions. *)
From Coq Require Import ZArith Bool List.
Open Scope Z_scope.

(** A lane type is a width and a signedness. *)
Definition lo (n : Z) (signed : bool) : Z := if signed then - 2 ^ (n - 1) else 0.
Definition hi (n : Z) (signed : bool) : Z :=
  if signed then 2 ^ (n - 1) - 1 else 2 ^ n - 1.
(** [v] is a value of the lane type. *)
Definition fits (n : Z) (signed : bool) (v : Z) : Prop :=
  lo n signed <= v <= hi n signed.
(** [v] is the representative of [x] in the lane type. *)
Definition is_mod (n : Z) (signed : bool) (x v : Z) : Prop :=
  fits n signed v /\ (v - x) mod 2 ^ n = 0.
(** Clamp into the lane type. *)
Definition clamp (n : Z) (signed : bool) (x : Z) : Z :=
  Z.max (lo n signed) (Z.min (hi n signed) x).
(** Floor division by a power of two. *)
Definition fdiv2 (x s : Z) : Z := x / 2 ^ s.
(** Shift by a signed amount with optional rounding: right when [s > 0]. *)
Definition shift_exact (round : bool) (x s : Z) : Z :=
  if 0 <? s then fdiv2 (x + (if round then 2 ^ (s - 1) else 0)) s
  else x * 2 ^ (- s).
(** Number of leading bits equal to [bit] in an [n]-bit value: the largest [k <= n]
    such that the top [k] bits all equal [bit]. *)
Definition leading (bit : bool) (n v k : Z) : Prop :=
  0 <= k <= n /\
  (forall i, n - k <= i < n -> Z.testbit v i = bit) /\
  (k < n -> Z.testbit v (n - k - 1) = negb bit).
(** Number of set bits below position [n]. *)
Definition ones (n v : Z) : Z :=
  Z.of_nat (length (filter (Z.testbit v) (map Z.of_nat (seq 0 (Z.to_nat n))))).
