(** * RV32IM by the RISC-V unprivileged manual

    What the instructions compute, on registers that hold 0 .. 2^32-1, in the words
    of the manual: numbers modulo 2^32, two's complement values, bits.  Encodings are
    those of V1ScalSpec.v. *)
From Coq Require Import ZArith List Bool String.
From Verif Require Import CInt LaneSpec VecSpec V2DecTypes V2DecModel V2DecSpec V1ScalSpec TopModel.
Import ListNotations.
Open Scope string_scope.
Open Scope Z_scope.

(** [s] is the two's complement value of [x]; [v] is the low 32 bits of [r]. *)
Definition signed (x s : Z) : Prop := - 2 ^ 31 <= s < 2 ^ 31 /\ (s - x) mod 2 ^ 32 = 0.
Definition low (v r : Z) : Prop := (v - r) mod 2 ^ 32 = 0.
(** The upper half of a product. *)
Definition high (v p : Z) : Prop := exists h l, p = h * 2 ^ 32 + l /\ 0 <= l < 2 ^ 32 /\ low v h.
(** Division rounding towards zero: the remainder has the sign of the dividend. *)
Definition divides_as (a b q r : Z) : Prop := a = b * q + r /\ Z.abs r < Z.abs b /\ 0 <= r * a.
Definition bits_are (v : Z) (f : Z -> bool) : Prop := forall i, 0 <= i < 32 -> Z.testbit v i = f i.
Definition truth (v : Z) (P : Prop) : Prop := (P /\ v = 1) \/ (~ P /\ v = 0).
Definition on_signed (P : Z -> Z -> Z -> Prop) (x y v : Z) : Prop := forall s t, signed x s -> signed y t -> P s t v.

Definition adds x y v := low v (x + y).
Definition compares := on_signed (fun s t v => truth v (s < t)).
Definition comparesu (x y v : Z) := truth v (x < y).
Definition ands x y v := bits_are v (fun i => Z.testbit x i && Z.testbit y i).
Definition ors x y v := bits_are v (fun i => Z.testbit x i || Z.testbit y i).
Definition xors x y v := bits_are v (fun i => xorb (Z.testbit x i) (Z.testbit y i)).
(** Shifts use the low five bits of the second operand. *)
Definition lefts x y v := let n := y mod 32 in bits_are v (fun i => (n <=? i) && Z.testbit x (i - n)).
Definition rights x y v := let n := y mod 32 in bits_are v (fun i => (i + n <? 32) && Z.testbit x (i + n)).
Definition rights_a x y v := let n := y mod 32 in bits_are v (fun i => Z.testbit x (Z.min (i + n) 31)).
Definition op_specs : list (string * (Z -> Z -> Z -> Prop)) := [
  ("add", adds); ("addi", adds); ("sub", fun x y v => low v (x - y));
  ("slt", compares); ("slti", compares); ("sltu", comparesu); ("sltiu", comparesu);
  ("and", ands); ("andi", ands); ("or", ors); ("ori", ors); ("xor", xors); ("xori", xors);
  ("sll", lefts); ("slli", lefts); ("srl", rights); ("srli", rights); ("sra", rights_a); ("srai", rights_a);
  ("mul", fun x y v => low v (x * y));
  ("mulh", on_signed (fun s t v => high v (s * t)));
  ("mulhsu", fun x y v => forall s, signed x s -> high v (s * y));
  ("mulhu", fun x y v => high v (x * y));
  ("div", on_signed (fun s t v => if t =? 0 then v = 2 ^ 32 - 1 else exists q r, divides_as s t q r /\ low v q));
  ("divu", fun x y v => if y =? 0 then v = 2 ^ 32 - 1 else exists q r, divides_as x y q r /\ low v q);
  ("rem", fun x y v => on_signed (fun s t v => if t =? 0 then v = x else exists q r, divides_as s t q r /\ low v r) x y v);
  ("remu", fun x y v => if y =? 0 then v = x else exists q r, divides_as x y q r /\ low v r) ].
Definition branch_specs : list (string * (Z -> Z -> Prop)) := [
  ("beq", fun x y => x = y); ("bne", fun x y => x <> y); ("bltu", fun x y => x < y); ("bgeu", fun x y => y <= x);
  ("blt", fun x y => forall s t, signed x s -> signed y t -> s < t);
  ("bge", fun x y => forall s t, signed x s -> signed y t -> t <= s) ].
Definition load_specs : list (string * ity) := [("lb", I8); ("lh", I16); ("lw", I32); ("lbu", U8); ("lhu", U16)].
Definition store_specs : list (string * ity) := [("sb", U8); ("sh", U16); ("sw", U32)].

(** [v] is what a load of type [T] at [a] gives: the bytes there, extended by sign or zero. *)
Definition reads (T : ity) (m : Z -> Z) (a v : Z) : Prop :=
  exists u, fits (bits T) (is_signed T) u /\ low v u /\ forall j, 0 <= j < bits T / 8 -> (u / 256 ^ j) mod 256 = m (a + j).
(** [m'] is [m] with the low bytes of [v] stored at [a]. *)
Definition writes_mem (T : ity) (a v : Z) (m m' : Z -> Z) : Prop :=
  (forall j, 0 <= j < bits T / 8 -> m' (a + j) = (v / 256 ^ j) mod 256) /\ (forall b, ~ (a <= b < a + bits T / 8) -> m' b = m b).

Fixpoint lookup {A} (n : string) (l : list (string * A)) : option A :=
  match l with
  | [] => None
  | (k, v) :: l => if String.eqb n k then Some v else lookup n l
  end.
(** The value of an operand of the manual's table: a register field, x0 being 0, or
    the immediate. *)
Definition value (k : kind) (w : Z) (x : Z -> Z) (v : Z) : Prop :=
  match k with KX lo => v = reg_at x w lo | _ => operand_is k w (PImm v) end.
Definition values (m : ment) (w : Z) (x : Z -> Z) (vs : list Z) : Prop := Forall2 (fun k v => value k w x v) (m_src m) vs.
(** Words of an instruction of the manual that are decoded as such (C63). *)
Definition proper (m : ment) (w : Z) : Prop :=
  In m manual1 /\ meets_pat w (m_pat m) /\ word w /\ w <> stray1 /\ forall p, In p holes1 -> ~ meets_pat w p.

Section Effect.
  Context {C : Type}.
  (** Only register [rd] may change, and it gets a 32-bit [v] with [P v]; x0 is never changed. *)
  Definition writes (rd : Z) (P : Z -> Prop) (s s' : arch (C := C)) : Prop :=
    (forall i, 0 <= i -> i <> rd \/ rd = 0 -> a_regs s' i = a_regs s i) /\
    (rd <> 0 -> 0 <= a_regs s' rd < 2 ^ 32 /\ P (a_regs s' rd)).
End Effect.
