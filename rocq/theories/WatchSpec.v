(** * Specification: watching a program that ends

    Calls of a debugger that only looks at the program: breakpoints, Run and Step
    while it has not ended, reads, disassembly. *)
From Coq Require Import ZArith List Bool String.
From Verif Require Import CInt TopModel TopSpec.
Import ListNotations.
Open Scope Z_scope.

Section Spec.
  Context {C : Type}.
  Variable exec : Z -> Z -> arch (C := C) -> (Z -> Z) -> effect (C := C).
  Variable evicted : Z -> Z -> bool.
  (** The program's code, its start, the address of its last instruction and the
      reason to halt that this one gives.  The last instruction has no breakpoint: a
      Run that resumes from one there would pass the end of the program. *)
  Definition watch (code : Z -> Prop) (m0 : mach (C := C)) (last : Z) (fin : reason) (c : call) (s : top (C := C)) : Prop :=
    let at_bp := t_reason s = RSwBreakpoint in
    match c with
    | CRun _ => t_reason s <> fin
    | CStep _ => ~ at_bp /\ t_reason s <> fin
    | CSetBp a => bp_ok code m0 a /\ a <> last
    | CClearBp a => ~ (at_bp /\ a = t_pc s)
    | CClearAll => ~ at_bp
    | CDisasm a => 0 <= a /\ a mod 4 = 0 /\ word_in_code code a
    | CReadMem a n => 0 <= a < 2 ^ 64 /\ 0 <= n < 2 ^ 64
    | CHalt | CHasBp _ | CReadReg _ | CStatus | CReason => True
    | CWriteReg _ _ | CWriteMem _ _ | CHaltWith _ | CLoadImage _ _ => False
    end.
  (** [k] Runs one after the other, all answered with success. *)
  Inductive runs (fuel : nat) : nat -> top (C := C) -> top (C := C) -> Prop :=
  | RunsNone s : runs fuel 0 s s
  | RunsMore k s s1 s2 : run exec evicted fuel s = Some (Ok (ROk, s1)) -> runs fuel k s1 s2 -> runs fuel (S k) s s2.
End Spec.
