(** * The counters of executed opcodes

    CoralNPUTop keeps a counter for every opcode, counter_opcode_ (coralnpu_top.h
    167-168), named "num_" and the opcode, and increments it next to
    counter_num_instructions_ (/repo/sim/coralnpu_top.cc 305, 360, 469).  They are
    registered with the component by Initialize (145-155), where a second counter of
    the same name ends the program (CHECK_OK).

    Simplifications and contracts:
    - the counters do not wrap at 2^64, as in TopModel.v;
    - the opcode of an instruction is a function [op] of its word, given by name; the
      names are kOpcodeNames of the generated decoder, which starts with "none", the
      opcode of words that no decoder accepts (mpact-sim);
    - counter_num_cycles_ is not registered. *)
From Coq Require Import ZArith List Bool String.
From Verif Require Import CInt DecodeTypes DecodeModel V2DecTypes V1Aux V2DecModel V1ScalModel TopModel MachModel.
Import ListNotations.
Open Scope Z_scope.

(** The values of the counters, by opcode. *)
Definition tally : Type := string -> Z.
Definition bump (n : string) (q : tally) : tally := fun x => if String.eqb x n then q x + 1 else q x.

Section Tally.
  Context {C : Type}.
  Variable exec : Z -> Z -> arch (C := C) -> (Z -> Z) -> effect (C := C).
  Variable evicted : Z -> Z -> bool.
  Variable reg_id : string -> option Z.
  Variable reg_size : Z -> Z.
  Variable csr_id : string -> option Z.
  Variable csr_get : Z -> C -> Z.
  Variable csr_set : Z -> Z -> C -> C.
  Variable op : Z -> string.
  Notation top := (top (C := C)).

  (** StepPastBreakpoint 289-311. *)
  Definition q_step_past (q : tally) (s : top) : tally * top :=
    let a := t_pc s in
    let s := write_original a s in
    let '(w, s) := fetch evicted a s in
    (bump (op w) q, write_breakpoint a (execute exec w a s)).
  (** One round of the loops of Step 346-377 and Run 437-483. *)
  Definition q_iteration (need_reset : bool) (next_pc : Z) (q : tally) (s : top) : tally * (bool * Z * top) :=
    let '(w, s) := fetch evicted next_pc s in
    let s := execute exec w next_pc s in
    let q := bump (op w) q in
    let next_pc := t_pc s in
    if negb (t_halted s) then (q, (true, next_pc, s))
    else if reason_eqb (t_reason s) RActionPoint then
      let '(q, s) := q_step_past q s in
      let s := set_reason RNone (set_halted false s) in
      (q, (true, next_pc, if need_reset then set_need false s else s))
    else (q, (false, next_pc, s)).
  (** The loop of Step 346-377. *)
  Fixpoint q_step_loop (fuel : nat) (num count : Z) (pc : option Z) (next_pc : Z) (q : tally) (s : top)
    : tally * (Z * option Z * Z * top) :=
    if negb (t_halted s) && (count <? num) then
      match fuel with
      | O => (q, (count, pc, next_pc, s))
      | S f =>
          let '(q, (go, np, s')) := q_iteration true next_pc q s in
          if go then q_step_loop f num (count + 1) (Some next_pc) np q s'
          else (q, (count + 1, Some next_pc, np, s'))
      end
    else (q, (count, pc, next_pc, s)).
  (** Step 313-391. *)
  Definition q_step (num : Z) (q : tally) (s : top) : tally * outcome (ret * top) :=
    if num <=? 0 then (q, Ok (RErr EInvalidArgument, s))
    else if negb (is_halted (t_status s)) then (q, Ok (RErr EFailedPrecondition, s))
    else
      let s := set_halted false (set_status SingleStep s) in
      let '(count, (q, s)) := if t_need s then (1, q_step_past q (set_need false s)) else (0, (q, s)) in
      let '(q, (count, pc, next_pc, s)) := q_step_loop (Z.to_nat num) num count None (t_pc s) q s in
      let fin p :=
        let s := set_pc p s in
        let s := if negb (t_halted s) then set_reason RNone s else s in
        Ok (RVal count, set_status Halted s) in
      (q, if reason_eqb (t_reason s) RSwBreakpoint
          then match pc with Some p => fin p | None => UB Uninitialised end
          else fin next_pc).
  (** The run thread's loop 437-483. *)
  Fixpoint q_run_loop (fuel : nat) (pc : option Z) (next_pc : Z) (q : tally) (s : top) : tally * option (option Z * Z * top) :=
    if negb (t_halted s) then
      match fuel with
      | O => (q, None)
      | S f =>
          let '(q, (go, np, s')) := q_iteration false next_pc q s in
          if go then q_run_loop f (Some next_pc) np q s' else (q, Some (Some next_pc, np, s'))
      end
    else (q, Some (pc, next_pc, s)).
  (** Run 393-510. *)
  Definition q_run (fuel : nat) (q : tally) (s : top) : tally * option (outcome (ret * top)) :=
    if is_running (t_status s) then (q, Some (Ok (RErr EFailedPrecondition, s)))
    else
      let '(q, s) := if t_need s then q_step_past q (set_need false s) else (q, s) in
      let s := set_halted false (set_status Running s) in
      match q_run_loop fuel None (t_pc s) q s with
      | (q, None) => (q, None)
      | (q, Some (pc, next_pc, s)) =>
          (q, Some (if reason_eqb (t_reason s) RSwBreakpoint
                    then match pc with
                         | Some p => Ok (ROk, set_status Halted (set_pc p s))
                         | None => UB Uninitialised
                         end
                    else Ok (ROk, set_status Halted (set_pc next_pc s))))
      end.
  (** The other calls execute nothing. *)
  Definition q_call (c : call) (q : tally) (s : top) : tally * option (outcome (ret * top)) :=
    match c with
    | CStep n => let '(q, x) := q_step n q s in (q, Some x)
    | CRun f => q_run f q s
    | _ => (q, do_call exec evicted reg_id reg_size csr_id csr_get csr_set c s)
    end.
End Tally.

(** ** Registration *)
(** Component::AddCounter (mpact-sim): refuses a name that is taken. *)
Definition add_counter (n : string) (l : list string) : option (list string) :=
  if existsb (String.eqb n) l then None else Some (l ++ [n])%list.
Fixpoint add_counters (ns : list string) (l : list string) : outcome (list string) :=
  match ns with
  | [] => Ok l
  | n :: t => match add_counter n l with Some l' => add_counters t l' | None => Crash end
  end.
(** Initialize 145-155, for the opcode names [names]. *)
Definition counters (names : list string) : outcome (list string) :=
  add_counters (map (fun n => "num_" ++ n)%string names ++ ["num_instructions"%string])%list [].

(** ** The V1 opcodes *)
(** kOpcodeNames: "none", the opcodes of the .isa files of /repo (V1Aux.v, and hint,
    coralnpu_base.isa 112, which has no encoding), those of riscv32zb.isa [zbb_names],
    which is outside. *)
Definition opcode_names (zbb_names : list string) : list string :=
  ("none"%string :: "hint"%string :: map fst v1_disasm ++ zbb_names)%list.
(** ParseInstruction, coralnpu_encoding.cc 364-381; [zbb_op] the opcode that the three
    Zbb decoders find. *)
Definition op1 (d : decoder) (zbb_op : Z -> option string) (w : Z) : string :=
  match parse d w with
  | Some e => e_name e
  | None => match zbb_op w with Some n => n | None => "none"%string end
  end.
