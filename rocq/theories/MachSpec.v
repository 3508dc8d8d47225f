(** * Specification of the V1 machine *)
From Coq Require Import ZArith List Bool String.
From Verif Require Import CInt VecModel VecSpec ConvModel ConvSpec MemModel MemSpec.
From Verif Require Import DecodeTypes DecodeModel DecodeSpec TopModel.
Import ListNotations.
Open Scope Z_scope.

(** The simulated memory ends at 4 MB. *)
Definition top_address : Z := 0x400000.
(** One of the selected elements lies beyond it. *)
Definition over (T : ity) (o : mop) (quad : bool) : Prop :=
  exists e, 0 <= e < nsel T o /\ top_address <= eaddr T o quad e.

(** ** Registers of the machine *)
Section View.
  Context {C : Type}.
  (** Byte [j] of vector register [r]. *)
  Definition vbyte (s : arch (C := C)) (r j : Z) : Z := (a_regs s (64 + r) / 256 ^ j) mod 256.
  (** The operands of a vector load or store, by the fields of the word. *)
  Definition operands (w : Z) (name : string) (s : arch (C := C)) (len stride quad : bool) : mop :=
    let x r := if r =? 0 then 0 else a_regs s r in
    MO len stride (w_m w) quad (x (f_xs1 w)) (if has_xs2 name then Some (x (f_xs2 w)) else None)
       (VG (f_vd w) (if w_m w then 4 else 1))
       (if has_post name then Some (if f_vs1 w =? 0 then -1 else f_xs1 w) else None) true.
End View.

(** The third vector register of a word. *)
Definition f_vs3 (w : Z) : Z := (w / 2 ^ 26) mod 64.

(** ** A strip-mined kernel
    For arrays at x10, x11 and x14 and a count in x12, with lanes of 8 * 2^k bits:
<<
    loop: getvl.k.x.m   x13, x12
          vld.k.lp.xx.m v0, x10, x13
          vld.k.lp.xx.m v4, x11, x13
          op            v8, v0, v4
          vst.k.lp.xx.m v8, x14, x13
          sub           x12, x12, x13
          bne           x12, x0, loop
          mpause
>> *)
Definition kernel (k op : Z) : list Z :=
  [0x180606f7 + k * 2 ^ 25; 0x14d5003f + k * 2 ^ 12; 0x14d5813f + k * 2 ^ 12; op; 0x34d7023f + k * 2 ^ 12;
   0x40d60633; 0xfe0614e3; 0x08000073].
(** Words in memory, little-endian. *)
Definition placed (m : Z -> Z) (p : Z) (l : list Z) : Prop :=
  forall i w, nth_error l i = Some w -> uval 4 m (p + 4 * Z.of_nat i) = w.
(** Element [i] of an array. *)
Definition elem (T : ity) (m : Z -> Z) (base i : Z) : Z := trunc T (uval (Z.to_nat (lanebytes T)) m (base + i * lanebytes T)).
(** The operation takes the old destination lane as a third operand. *)
Definition reads_dest (o : elop) : Prop := match o with OAdd3 | OMacc | OMadd | OSel => True | _ => False end.
(** [n] bytes at [a] written from the start do not run into unread bytes at [b]. *)
Definition apart_from (a b n : Z) : Prop := a <= b \/ b + n <= a.

(** ** The end of a run *)
(** Scalar instructions that can end it. *)
Definition halting : list string := ["mpause"; "lb"; "lh"; "lw"; "lbu"; "lhu"; "sb"; "sh"; "sw"; "flog"; "klog";
   "csrrw"; "csrrw x0"; "csrrs"; "csrr"; "csrrc"; "csrrc .. x0"; "csrrwi"; "csrrwi x0"; "csrrsi"; "csrrsi .. 0"; "csrrci"; "csrrci .. 0";
   "ecall"; "ebreak"; "uret"; "sret"; "mret"; "wfi"; "sfence.vma x0,x0"; "sfence.vma x0,r"; "sfence.vma r,x0"; "sfence.vma r,r"]%string.
(** Vector instructions that do: accesses beyond memory, and aconv with a bad command. *)
Definition faults {C} (w : Z) (n : string) (s : arch (C := C)) : Prop :=
  match meaning n with
  | Some (SmLd T len stride _ _ _) | Some (SmSt T len stride _) => over T (operands w n s len stride false) false
  | Some (SmStq T _) => over T (operands w n s false true true) true
  | Some SmConv => ~ conv_legal (a_regs s (f_xs2 w))
  | _ => False
  end.
