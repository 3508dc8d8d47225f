(** * Specification of the memory shared with Renode: one flat byte array *)
From Coq Require Import ZArith List Bool.
From Verif Require Import RenodeMem.
Import ListNotations.
Open Scope Z_scope.

(** The flat contents: byte [a] is byte [a mod bs] of block number [a / bs]. *)
Definition flat (ptrs : list Z) (bs : Z) (h : heap) (a : Z) : Z :=
  h (nth (Z.to_nat (a / bs)) ptrs 0) (a mod bs).
(** The blocks given by the caller are distinct and large enough. *)
Definition good_blocks (avail : Z -> Z) (ptrs : list Z) (bs : Z) : Prop :=
  NoDup ptrs /\ Forall (fun p => bs <= avail p) ptrs.
(** Bytes that belong to none of the blocks. *)
Definition foreign (ptrs : list Z) (bs : Z) (p o : Z) : Prop := ~ In p ptrs \/ o < 0 \/ bs <= o.

(** Flat memory operations. *)
Definition flat_write (f : Z -> Z) (a n : Z) (bytes : Z -> Z) : Z -> Z :=
  fun x => if (a <=? x) && (x <? a + n) then bytes (x - a) else f x.
(** Address of element [i]: its own, or consecutive from the first. *)
Definition el_addr (addrs : list Z) (el i : Z) : Z :=
  if (1 <? length addrs)%nat then nth (Z.to_nat i) addrs 0 else (nth 0 addrs 0 + i * el) mod 2 ^ 64.
(** Unmasked elements written one after the other, from element [i] on. *)
Fixpoint flat_scatter (f : Z -> Z) (addrs : list Z) (masks : list bool) (i el : Z) (bytes : Z -> Z) : Z -> Z :=
  match masks with
  | [] => f
  | b :: ms =>
      flat_scatter (if b then flat_write f (el_addr addrs el i) el (fun k => bytes (el * i + k)) else f)
                   addrs ms (i + 1) el bytes
  end.

(** What a caller must provide: block size below 2^31, more than 4 MB up to the
    end address, an array covering everything up to the end address. *)
Definition config (avail : Z -> Z) (bs size : Z) (ptrs : list Z) (base : Z) : Prop :=
  0 < bs < 2 ^ 31 /\ 0 <= base /\ 0 <= size /\ 0x3fffff < base + size /\ base + size + 2 ^ 31 <= 2 ^ 64 /\
  (base + size + bs - 1) / bs <= 2 ^ 31 /\ base + size <= bs * Z.of_nat (length ptrs) /\ good_blocks avail ptrs bs.
(** An access of [n] bytes at [a] lies inside. *)
Definition within (base size a n : Z) : Prop := base <= a /\ a + n <= base + size.

(** The same for addressable units of [u] bytes: a block has [bs] units, and unit
    [a] is bytes [a * u] to [a * u + u - 1] of the flat array of bytes. *)
Definition config_units (avail : Z -> Z) (bs size : Z) (ptrs : list Z) (base u : Z) : Prop :=
  (exists k, 0 <= k < 31 /\ u = 2 ^ k) /\ 0 < bs /\ bs * u < 2 ^ 31 /\ 0 <= base /\ 0 <= size /\ 0x3fffff < base + size /\
  (base + size) * u + 2 ^ 31 <= 2 ^ 64 /\
  (base + size + bs - 1) / bs <= 2 ^ 31 /\ base + size <= bs * Z.of_nat (length ptrs) /\ good_blocks avail ptrs (bs * u).
(** [c] units from [a] inside the memory and inside one block. *)
Definition within_block (bs base size a c : Z) : Prop := base <= a /\ a + c <= base + size /\ a mod bs + c <= bs.
