(** * Semihosting

    With --use_semihost the ebreak handler (/repo/sim/coralnpu_top.cc 178-195, flag
    60) first asks whether the ebreak is a semihosting call, and if so lets the host
    serve it; else it does what TopModel.v says.  The exit call halts with
    kSemihostHaltRequest (260-261).

    Contracts of mpact-riscv's RiscVArmSemihost, which is outside /repo:
    - IsSemihostingCall: the word before the ebreak is slli x0, x0, 31 and the word
      behind it srai x0, x0, 7; both are read from memory, at addresses in uint64;
    - OnEBreak: an arbitrary function [serve] of the host's state, registers and memory
      to new ones, and whether it calls the exit callback; it does not change pc. *)
From Coq Require Import ZArith List Bool String.
From Verif Require Import CInt TopModel.
Import ListNotations.
Open Scope Z_scope.

(** How many calls were served, and the state of the host. *)
Record host {H : Type} := Host { h_calls : Z; h_state : H }.
Arguments host : clear implicits.
Record served {C H : Type} := Served { v_state : H; v_arch : arch (C := C); v_mem : Z -> Z; v_exit : bool }.
Arguments served : clear implicits.

Section HostM.
  Context {C H : Type}.
  Variable exec : Z -> Z -> arch (C := C) -> (Z -> Z) -> effect (C := C).
  Variable evicted : Z -> Z -> bool.
  Variable reg_id : string -> option Z.
  Variable reg_size : Z -> Z.
  Variable csr_id : string -> option Z.
  Variable csr_get : Z -> C -> Z.
  Variable csr_set : Z -> Z -> C -> C.
  (** FLAGS_use_semihost. *)
  Variable use : bool.
  Variable serve : H -> arch (C := C) -> (Z -> Z) -> served C H.
  Notation top := (top (C := C)).
  Notation host := (host H).

  (** IsSemihostingCall of the ebreak at [a]. *)
  Definition between (m : Z -> Z) (a : Z) : bool :=
    (load32 m ((a - 4) mod 2 ^ 64) =? 0x01f01013) && (load32 m ((a + 4) mod 2 ^ 64) =? 0x40705013).
  (** ExecuteInstruction 80-92 with the handler 178-195. *)
  Definition h_execute (w a : Z) (h : host) (s : top) : host * top :=
    if (w =? ebreak) && use && between (t_mem s) a then
      let s := set_pc (a + 4) s in
      let v := serve (h_state h) (t_arch s) (t_mem s) in
      let s := set_mem (v_mem v) (set_arch (v_arch v) s) in
      (Host _ (h_calls h + 1) (v_state v), count1 (if v_exit v then request_halt RSemihost s else s))
    else (h, execute exec w a s).

  (** StepPastBreakpoint 289-311. *)
  Definition h_step_past (h : host) (s : top) : host * top :=
    let a := t_pc s in
    let s := write_original a s in
    let '(w, s) := fetch evicted a s in
    let '(h, s) := h_execute w a h s in
    (h, write_breakpoint a s).
  (** One round of the loops of Step 346-377 and Run 437-483. *)
  Definition h_iteration (need_reset : bool) (next_pc : Z) (h : host) (s : top) : host * (bool * Z * top) :=
    let '(w, s) := fetch evicted next_pc s in
    let '(h, s) := h_execute w next_pc h s in
    let next_pc := t_pc s in
    if negb (t_halted s) then (h, (true, next_pc, s))
    else if reason_eqb (t_reason s) RActionPoint then
      let '(h, s) := h_step_past h s in
      let s := set_reason RNone (set_halted false s) in
      (h, (true, next_pc, if need_reset then set_need false s else s))
    else (h, (false, next_pc, s)).
  (** The loop of Step 346-377. *)
  Fixpoint h_step_loop (fuel : nat) (num count : Z) (pc : option Z) (next_pc : Z) (h : host) (s : top)
    : host * (Z * option Z * Z * top) :=
    if negb (t_halted s) && (count <? num) then
      match fuel with
      | O => (h, (count, pc, next_pc, s))
      | S f =>
          let '(h, (go, np, s')) := h_iteration true next_pc h s in
          if go then h_step_loop f num (count + 1) (Some next_pc) np h s'
          else (h, (count + 1, Some next_pc, np, s'))
      end
    else (h, (count, pc, next_pc, s)).
  (** Step 313-391. *)
  Definition h_step (num : Z) (h : host) (s : top) : host * outcome (ret * top) :=
    if num <=? 0 then (h, Ok (RErr EInvalidArgument, s))
    else if negb (is_halted (t_status s)) then (h, Ok (RErr EFailedPrecondition, s))
    else
      let s := set_halted false (set_status SingleStep s) in
      let '(count, (h, s)) := if t_need s then (1, h_step_past h (set_need false s)) else (0, (h, s)) in
      let '(h, (count, pc, next_pc, s)) := h_step_loop (Z.to_nat num) num count None (t_pc s) h s in
      let fin p :=
        let s := set_pc p s in
        let s := if negb (t_halted s) then set_reason RNone s else s in
        Ok (RVal count, set_status Halted s) in
      (h, if reason_eqb (t_reason s) RSwBreakpoint
          then match pc with Some p => fin p | None => UB Uninitialised end
          else fin next_pc).
  (** The run thread's loop 437-483. *)
  Fixpoint h_run_loop (fuel : nat) (pc : option Z) (next_pc : Z) (h : host) (s : top) : host * option (option Z * Z * top) :=
    if negb (t_halted s) then
      match fuel with
      | O => (h, None)
      | S f =>
          let '(h, (go, np, s')) := h_iteration false next_pc h s in
          if go then h_run_loop f (Some next_pc) np h s' else (h, Some (Some next_pc, np, s'))
      end
    else (h, Some (pc, next_pc, s)).
  (** Run 393-510. *)
  Definition h_run (fuel : nat) (h : host) (s : top) : host * option (outcome (ret * top)) :=
    if is_running (t_status s) then (h, Some (Ok (RErr EFailedPrecondition, s)))
    else
      let '(h, s) := if t_need s then h_step_past h (set_need false s) else (h, s) in
      let s := set_halted false (set_status Running s) in
      match h_run_loop fuel None (t_pc s) h s with
      | (h, None) => (h, None)
      | (h, Some (pc, next_pc, s)) =>
          (h, Some (if reason_eqb (t_reason s) RSwBreakpoint
                    then match pc with
                         | Some p => Ok (ROk, set_status Halted (set_pc p s))
                         | None => UB Uninitialised
                         end
                    else Ok (ROk, set_status Halted (set_pc next_pc s))))
      end.
  (** The other calls execute nothing. *)
  Definition h_call (c : call) (h : host) (s : top) : host * option (outcome (ret * top)) :=
    match c with
    | CStep n => let '(h, x) := h_step n h s in (h, Some x)
    | CRun f => h_run f h s
    | _ => (h, do_call exec evicted reg_id reg_size csr_id csr_get csr_set c s)
    end.
End HostM.
