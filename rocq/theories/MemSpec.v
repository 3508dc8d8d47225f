(** * Specification of vector loads, stores, vdup and getvl *)
From Coq Require Import ZArith List Bool.
From Verif Require Import CInt VecModel VecSpec ConvModel ConvSpec MemModel.
Import ListNotations.
Open Scope Z_scope.

Definition lanebytes (T : ity) : Z := bits T / 8.
Definition regs_of (o : mop) : Z := if mo_strip o then 4 else 1.
Definition xs2_u (o : mop) : Z := match mo_xs2 o with Some x => x mod 2 ^ 32 | None => 0 end.
(** Forms that need the second scalar operand have it. *)
Definition op_ok (o : mop) : Prop := mo_len o = true \/ mo_stride o = true -> mo_xs2 o <> None.
(** Selected number of elements. *)
Definition nsel (T : ity) (o : mop) : Z :=
  let cap := regs_of o * nlanes T in if mo_len o then Z.min (xs2_u o) cap else cap.
(** Base address, without the cache-invalidation bit on small memories. *)
Definition base_of (o : mop) : Z := if mo_small o then mo_base o mod 2 ^ 31 else mo_base o mod 2 ^ 32.
(** Distance in bytes between consecutive registers (quarters for vstq). *)
Definition stride_of (T : ity) (o : mop) : Z := if mo_stride o then xs2_u o * lanebytes T else 32.
(** Lanes per contiguous piece: a register, or a quarter for quad stores. *)
Definition piece (T : ity) (quad : bool) : Z := if quad then nlanes T / 4 else nlanes T.
(** Address of element number [e] of the register group. *)
Definition eaddr (T : ity) (o : mop) (quad : bool) (e : Z) : Z :=
  let p := piece T quad in
  (base_of o + (e / p) * stride_of T o) mod 2 ^ 32 + (e mod p) * lanebytes T.
(** Element number [e] occupies byte address [A]. *)
Definition covers (T : ity) (o : mop) (quad : bool) (e A : Z) : Prop :=
  eaddr T o quad e <= A < eaddr T o quad e + lanebytes T.
(** Byte of the register group that element [e] puts at address [A]. *)
Definition ebyte (T : ity) (o : mop) (quad : bool) (rf : vregs) (e A : Z) : Z :=
  rf (g_base (mo_v o) + e / nlanes T) ((e mod nlanes T) * lanebytes T + (A - eaddr T o quad e)).
(** Memory after the selected elements were written in increasing order. *)
Definition stored (T : ity) (o : mop) (quad : bool) (rf : vregs) (m m' : Z -> Z) : Prop :=
  forall A,
  (exists e, 0 <= e < nsel T o /\ covers T o quad e A /\
     (forall e', e < e' < nsel T o -> ~ covers T o quad e' A) /\ m' A = ebyte T o quad rf e A) \/
  ((forall e, 0 <= e < nsel T o -> ~ covers T o quad e A) /\ m' A = m A).
(** The documented increment of each post-incrementing form. *)
Definition increment (T : ity) (o : mop) (quad : bool) : Z :=
  match mo_len o, mo_stride o, mo_xs2 o with
  | true, true, _ => 32
  | true, false, _ => nsel T o * lanebytes T
  | false, true, _ => stride_of T o * regs_of o * (if quad then 4 else 1)
  | false, false, None => 32 * regs_of o
  | false, false, Some x => x * lanebytes T
  end.
Definition post_spec (T : ity) (o : mop) (quad : bool) (x x' : Z -> Z) : Prop :=
  match mo_post o with
  | None => forall r, x' r = x r
  | Some p => (forall r, r <> p -> x' r = x r) /\
      x' p = if nsel T o =? 0 then base_of o else (base_of o + increment T o quad) mod 2 ^ 32
  end.

(** The strip-mining loop: while (n > 0) { vl = getvl(n); process vl; n -= vl }. *)
Fixpoint strip_loop (fuel : nat) (T : ity) (strip : bool) (n done : Z) : option (Z * list Z) :=
  if n =? 0 then Some (done, [])
  else match fuel with
       | O => None
       | S f => let vl := exec_getvl T strip (Some n) None in
                match strip_loop f T strip (n - vl) (done + vl) with
                | Some (d, l) => Some (d, vl :: l)
                | None => None
                end
       end.
