(** * Csr instructions by the unprivileged manual (chapter Zicsr)

    By bit positions of the word: the number of the csr in bits 20 to 31, the kind in
    bits 12 and 13 (1 write, 2 set, 3 clear), bit 14 for an immediate operand, the
    operand in bits 15 to 19, rd in bits 7 to 11. *)
From Coq Require Import ZArith List Bool String.
From Verif Require Import V2DecSpec V1ScalSpec CsrModel TopModel.
Import ListNotations.
Open Scope Z_scope.

Definition csr_word (w : Z) : Prop := word w /\ at_ w 0 7 = 115 /\ at_ w 12 2 <> 0.
Definition csr_no (w : Z) : Z := at_ w 20 12.
(** A write without destination does not read; a set or clear with x0 or 0 does not write. *)
Definition csr_reads (w : Z) : Prop := at_ w 12 2 <> 1 \/ at_ w 7 5 <> 0.
Definition csr_writes (w : Z) : bool := (at_ w 12 2 =? 1) || negb (at_ w 15 5 =? 0).
Section Spec.
  Context {S C : Type}.
  Variable csrs : csr_file S.
  Definition csr_operand (w : Z) (s : arch (C := C)) : Z := if at_ w 14 1 =? 0 then reg_at (a_regs s) w 15 else at_ w 15 5.
  (** The csrs after the write, if there is one. *)
  Definition csr_written (w v : Z) (f : S) : S :=
    if csr_writes w then
      match at_ w 12 2 with 1 => c_write csrs | 2 => c_set csrs | _ => c_clear csrs end (csr_no w) (v mod 2 ^ 32) f
    else f.
End Spec.
(** The instructions whose effect is in mpact-riscv alone. *)
Definition privileged : list string :=
  ["ecall"; "ebreak"; "uret"; "sret"; "mret"; "wfi"; "sfence_vma_zz"; "sfence_vma_zn"; "sfence_vma_nz"; "sfence_vma_nn"]%string.
