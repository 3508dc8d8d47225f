(** * What a program that reads the counters should see *)
From Coq Require Import ZArith List Bool String.
From Verif Require Import CInt TopModel TopSpec.
Import ListNotations.
Open Scope Z_scope.

Section Spec.
  Context {C : Type}.
  Variable cexec : Z -> Z -> Z -> Z -> arch (C := C) -> (Z -> Z) -> effect (C := C).
  (** The machine that keeps its own two counters in its csr state: an instruction
      sees their values and adds one to each. Nothing else touches them. *)
  Definition own_exec (w a : Z) (s : arch (C := C * Z * Z)) (m : Z -> Z) : effect (C := C * Z * Z) :=
    let '(c, n, y) := a_csr s in
    let f := cexec n y w a (Arch (a_regs s) c) m in
    Eff (Arch (a_regs (f_arch f)) (a_csr (f_arch f), n + 1, y + 1)) (f_mem f) (f_pc f) (f_halt f).
  (** The simulator's state [s] with the own counters [n], [y]. *)
  Definition own (n y : Z) (s : top (C := C)) : top (C := C * Z * Z) :=
    Top (Arch (a_regs (t_arch s)) (a_csr (t_arch s), n, y)) (t_mem s) (t_pc s) (t_status s) (t_reason s) (t_halted s)
      (t_need s) (t_bps s) (t_map s) (t_cache s) (t_tick s) (t_insts s) (t_cycles s).
  (** The own counters agree with the simulator's. *)
  Definition synced (s : top (C := C)) : top (C := C * Z * Z) := own (t_insts s) (t_cycles s) s.
  (** The same end of a Step or Run: the same result, and the same state apart from
      the own counters, which are the simulator's or one behind. *)
  Definition same_end (x : outcome (ret * top (C := C))) (y : outcome (ret * top (C := C * Z * Z))) : Prop :=
    match x, y with
    | Ok (r, s), Ok (r', s') => r' = r /\ exists d, (d = 0 \/ d = 1 /\ (t_reason s = RSwBreakpoint \/ t_reason s = RAbort)) /\
        s' = own (t_insts s - d) (t_cycles s - d) s
    | UB k, UB k' => k' = k
    | Crash, Crash => True
    | _, _ => False
    end.
  (** No instruction asks for the halt that the simulator keeps for action points. *)
  Definition no_action : Prop := forall n y w a s m, f_halt (cexec n y w a s m) <> Some RActionPoint.
End Spec.
