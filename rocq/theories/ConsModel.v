(** * What a V1 run prints

    Models the lines that a run writes to standard output and standard error:
    the ebreak and mpause handlers and the trap callback of CoralNPUTop
    (/repo/sim/coralnpu_top.cc 178-206, 208-235), and CoralNPUState::PrintLog
    (/repo/sim/coralnpu_state.cc 92-138).

    Simplifications and contracts:
    - characters are byte values; each stream operation sequence that ends in one
      line (or one log text) is one [print];
    - inst->AsString() is the text [dis] of the word at its address;
    - std::hex prints lower-case digits without leading zeros;
    - the semihosting flag is off; no action point but breakpoints;
    - the traces' "Dump trace file" lines are in TraceModel.v. *)
From Coq Require Import ZArith List Bool String.
From Verif Require Import CInt DecodeTypes DecodeModel V2DecTypes V2DecModel V1ScalModel.
From Verif Require Import LogModel TopModel CliModel MachModel.
Import ListNotations.
Open Scope Z_scope.
Open Scope list_scope.

Inductive stream := SOut | SErr.
Definition print : Type := stream * list Z.

(** ** Runs, for any instruction set *)
Section Runs.
  Context {C : Type}.
  Variable exec : Z -> Z -> arch (C := C) -> (Z -> Z) -> effect (C := C).
  Variable evicted : Z -> Z -> bool.
  (** What executing the word at the address prints. *)
  Variable says : Z -> Z -> arch (C := C) -> (Z -> Z) -> list print.
  Notation top := (top (C := C)).

  (** top: 178-195. *)
  Definition fault_line : print := (SOut, chars "Program exits with fault" ++ [newline]).
  Definition top_says (w a : Z) (s : top) : list print :=
    if w =? ebreak then (if has_bp a s then [] else [fault_line]) else says w a (t_arch s) (t_mem s).
  (** [execute], [step_past], [iteration], [run_loop] and [run] of TopModel.v, with
      what they print. *)
  Definition p_step_past (s : top) : list print * top :=
    let a := t_pc s in
    let s := write_original a s in
    let '(w, s) := fetch evicted a s in
    (top_says w a s, write_breakpoint a (execute exec w a s)).
  Definition p_iteration (need_reset : bool) (next_pc : Z) (s : top) : list print * (bool * Z * top) :=
    let '(w, s) := fetch evicted next_pc s in
    let o := top_says w next_pc s in
    let s := execute exec w next_pc s in
    let next_pc := t_pc s in
    if negb (t_halted s) then (o, (true, next_pc, s))
    else if reason_eqb (t_reason s) RActionPoint then
      let '(o', s) := p_step_past s in
      let s := set_reason RNone (set_halted false s) in
      (o ++ o', (true, next_pc, if need_reset then set_need false s else s))
    else (o, (false, next_pc, s)).
  Fixpoint p_run_loop (fuel : nat) (out : list print) (pc : option Z) (next_pc : Z) (s : top) :
      list print * option (option Z * Z * top) :=
    if negb (t_halted s) then
      match fuel with
      | O => (out, None)
      | S f =>
          let '(o, (go, np, s')) := p_iteration false next_pc s in
          if go then p_run_loop f (out ++ o) (Some next_pc) np s' else (out ++ o, Some (Some next_pc, np, s'))
      end
    else (out, Some (pc, next_pc, s)).
  (** Run 393-510: what it has printed when it ends or after [fuel] instructions. *)
  Definition p_run (fuel : nat) (s : top) : list print * option (outcome (ret * top)) :=
    if is_running (t_status s) then ([], Some (Ok (RErr EFailedPrecondition, s)))
    else
      let '(o, s) := if t_need s then p_step_past (set_need false s) else ([], s) in
      let s := set_halted false (set_status Running s) in
      match p_run_loop fuel o None (t_pc s) s with
      | (o, None) => (o, None)
      | (o, Some (pc, next_pc, s)) =>
          (o, Some (if reason_eqb (t_reason s) RSwBreakpoint
                    then match pc with
                         | Some p => Ok (ROk, set_status Halted (set_pc p s))
                         | None => UB Uninitialised
                         end
                    else Ok (ROk, set_status Halted (set_pc next_pc s))))
      end.
  (** The batch mode of main, /repo/sim/coralnpu_sim.cc 226-242: what is printed up to
      the end; [secs] is the wall-clock time. *)
  Definition p_batch (secs : list Z) (fuel : nat) (s : top) : list print * option (outcome (ret * top)) :=
    let '(o, r) := p_run fuel s in
    ((SOut, chars "Starting simulation" ++ [newline]) :: o ++
     match r with
     | Some (Ok (_, s)) =>
         [(SOut, chars "Total cycles: " ++ dec (t_cycles s mod 2 ^ 64) ++ [newline]);
          (SOut, chars "Simulation done: " ++ secs ++ chars " sec" ++ [newline])]
     | _ => []
     end, r).
End Runs.

(** ** The V1 instructions *)
(** PrintLog's lines on standard error, state.cc 101-126: one for each argument whose
    specifier does not fit. *)
Definition misfit (a : larg) (k : Z) : bool :=
  match a with
  | AInt _ => negb ((k =? 117) || (k =? 100) || (k =? 120))
  | AStr _ => negb (k =? 115)
  end.
Definition bad_line : print := (SErr, chars "incorrect format" ++ [newline]).
Fixpoint bad_formats (buf : list Z) (args : list larg) : list print :=
  match buf with
  | [] => []
  | c :: r =>
      if c =? 0 then []
      else if c =? 37 then
        match args, r with
        | a :: args', k :: r' => (if misfit a k then [bad_line] else []) ++ bad_formats r' args'
        | _, _ => []
        end
      else bad_formats r args
  end.

Section Mach.
  Context {S : Type}.
  Notation arch := (arch (C := core S)).
  Variable d : decoder.
  Variable zbb : Z -> option act.
  Variable sys : act -> Z -> arch -> (Z -> Z) -> arch * (Z -> Z) * Z * option Z.
  Variable junk : Z -> Z -> vbytes.
  Variable ljunk : Z -> Z.
  (** Disassembly of a word at an address. *)
  Variable dis : Z -> Z -> list Z.

  (** top: 208-235. *)
  Definition trap_lines (code w a : Z) : list print :=
    if code =? 2 then [(SErr, chars "Illegal instruction at 0x" ++ digits 16 16 a ++ [newline])]
    else if code =? 5 then
      [(SErr, chars "Memory load access fault at 0x" ++ digits 16 16 a ++ chars " as: " ++ dis w a ++ [newline])]
    else if code =? 7 then
      [(SErr, chars "Memory store access fault at 0x" ++ digits 16 16 a ++ chars " as: " ++ dis w a ++ [newline])]
    else [].
  (** top: 197-206. *)
  Definition proper_line : print := (SOut, chars "Program exits properly" ++ [newline]).
  (** PrintLog of flog's format; the other log instructions print nothing. *)
  Definition log_lines (op : lop) (l l' : lstate) : list print :=
    match op with
    | Flog e v =>
        match string_load log_fuel e v with
        | Some (Ok f) => bad_formats (f ++ [0]) (l_args l) ++ [(SOut, skipn (length (l_out l)) (l_out l'))]
        | _ => []
        end
    | _ => []
    end.
  (** As [exec_scalar] of MachModel.v. *)
  Definition says_scalar (c : act) (w a : Z) (s : arch) (m : Z -> Z) : list print :=
    let v o := u32 (value1 (a_regs s) o) in
    match act_kind c, a_src c, a_dst c with
    | KLoad T, [b; o], [] => if max_address <? u32 (v b + v o) then trap_lines 5 w a else []
    | KStore T, [b; o; p], [] =>
        if max_address <? MachModel.store_addr (value1 (a_regs s) b) (value1 (a_regs s) o) then trap_lines 7 w a else []
    | KMpause, _, _ => [proper_line]
    | KLog, [p], [] =>
        match log_op ljunk (bound c) (v p) s m with
        | Some op =>
            match exec_log log_fuel op (k_log (a_csr s)) with
            | Some (Ok l) =>
                (match log_trap (bound c) (v p) with Some _ => trap_lines 5 w a | None => [] end) ++
                log_lines op (k_log (a_csr s)) l
            | _ => []
            end
        | None => []
        end
    | KSys, _, _ => match snd (sys c a s m) with Some code => trap_lines code w a | None => [] end
    | _, _, _ => []
    end.
  (** As [exec_vector]. *)
  Definition says_vector (e : entry) (w a : Z) (s : arch) (m : Z -> Z) : list print :=
    match vec_step e w a (to_w s m) (junk (k_clock (a_csr s))) with
    | Some (Ok (_, Some code)) => trap_lines code w a
    | _ => []
    end.
  (** As [exec1]. *)
  Definition says1 (w a : Z) (s : arch) (m : Z -> Z) : list print :=
    match parse d w with
    | Some e => match e_sem e with
                | SmScalar _ => says_scalar (act1 e w) w a s m
                | _ => says_vector e w a s m
                end
    | None => match zbb w with
              | Some c => says_scalar c w a s m
              | None => trap_lines 2 w a
              end
    end.
End Mach.
