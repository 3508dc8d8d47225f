(** * Programs that read the instruction and cycle counters

    The csrs minstret(h) and mcycle(h) are connected to the counters of CoralNPUTop
    (/repo/sim/coralnpu_top.cc 237-258), so an instruction's effect may depend on
    [counter_num_instructions_] and [counter_num_cycles_]. [TopModel] takes an
    [exec] that does not see them; here it does. Both counters are incremented
    after the instruction is executed (coralnpu_top.cc 298-305, 353-363, 443-453).
    The registers' 32-bit halves and the offset that a write to them leaves are
    mpact-riscv's (RiscVCounterCsr): they are in [exec] and the csr state [C]. *)
From Coq Require Import ZArith List Bool String.
From Verif Require Import CInt TopModel.
Import ListNotations.
Open Scope Z_scope.

Section Cnt.
  Context {C : Type}.
  (** instructions counted, cycles counted, word, address, state. *)
  Variable cexec : Z -> Z -> Z -> Z -> arch (C := C) -> (Z -> Z) -> effect (C := C).
  Variable evicted : Z -> Z -> bool.
  Notation top := (top (C := C)).

  (** ExecuteInstruction 80-92, then the counters. *)
  Definition c_execute (w a : Z) (s : top) : top := execute (cexec (t_insts s) (t_cycles s)) w a s.

  (** StepPastBreakpoint 289-311. *)
  Definition c_step_past (s : top) : top :=
    let a := t_pc s in
    let s := write_original a s in
    let '(w, s) := fetch evicted a s in
    write_breakpoint a (c_execute w a s).

  (** One round of the loops of Step 346-377 and Run 437-483. *)
  Definition c_iteration (need_reset : bool) (next_pc : Z) (s : top) : bool * Z * top :=
    let '(w, s) := fetch evicted next_pc s in
    let s := c_execute w next_pc s in
    let next_pc := t_pc s in
    if negb (t_halted s) then (true, next_pc, s)
    else if reason_eqb (t_reason s) RActionPoint then
      let s := c_step_past s in
      let s := set_reason RNone (set_halted false s) in
      (true, next_pc, if need_reset then set_need false s else s)
    else (false, next_pc, s).

  (** The loop of Step 346-377. *)
  Fixpoint c_step_loop (fuel : nat) (num count : Z) (pc : option Z) (next_pc : Z) (s : top)
    : Z * option Z * Z * top :=
    if negb (t_halted s) && (count <? num) then
      match fuel with
      | O => (count, pc, next_pc, s)
      | S f =>
          let '(go, np, s') := c_iteration true next_pc s in
          if go then c_step_loop f num (count + 1) (Some next_pc) np s'
          else (count + 1, Some next_pc, np, s')
      end
    else (count, pc, next_pc, s).

  (** Step 313-391. *)
  Definition c_step (num : Z) (s : top) : outcome (ret * top) :=
    if num <=? 0 then Ok (RErr EInvalidArgument, s)
    else if negb (is_halted (t_status s)) then Ok (RErr EFailedPrecondition, s)
    else
      let s := set_halted false (set_status SingleStep s) in
      let '(count, s) := if t_need s then (1, c_step_past (set_need false s)) else (0, s) in
      let '(count, pc, next_pc, s) := c_step_loop (Z.to_nat num) num count None (t_pc s) s in
      let fin p :=
        let s := set_pc p s in
        let s := if negb (t_halted s) then set_reason RNone s else s in
        Ok (RVal count, set_status Halted s) in
      if reason_eqb (t_reason s) RSwBreakpoint
      then match pc with Some p => fin p | None => UB Uninitialised end
      else fin next_pc.

  (** The run thread's loop 437-483. *)
  Fixpoint c_run_loop (fuel : nat) (pc : option Z) (next_pc : Z) (s : top) : option (option Z * Z * top) :=
    if negb (t_halted s) then
      match fuel with
      | O => None
      | S f =>
          let '(go, np, s') := c_iteration false next_pc s in
          if go then c_run_loop f (Some next_pc) np s' else Some (Some next_pc, np, s')
      end
    else Some (pc, next_pc, s).
  (** Run 393-510. *)
  Definition c_run (fuel : nat) (s : top) : option (outcome (ret * top)) :=
    if is_running (t_status s) then Some (Ok (RErr EFailedPrecondition, s))
    else
      let s := if t_need s then c_step_past (set_need false s) else s in
      let s := set_halted false (set_status Running s) in
      match c_run_loop fuel None (t_pc s) s with
      | None => None
      | Some (pc, next_pc, s) =>
          Some (if reason_eqb (t_reason s) RSwBreakpoint
                then match pc with
                     | Some p => Ok (ROk, set_status Halted (set_pc p s))
                     | None => UB Uninitialised
                     end
                else Ok (ROk, set_status Halted (set_pc next_pc s)))
      end.
End Cnt.
