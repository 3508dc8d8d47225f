(** * The simulator's debug interface

    Models CoralNPUTop of /repo/sim/coralnpu_top.cc (line numbers refer to that
    file) and /repo/sim/coralnpu_action_point_memory_interface.cc ("ap:").

    Simplifications and contracts:
    - the instruction set is the parameter [exec]: what executing an instruction
      word at an address does to registers, memory and pc, and whether it requests
      a halt (mpause 197-206, trap callback 208-235, semihost exit 260-261).  The
      ebreak handler 178-195 is modelled; semihosting is off (flag default);
    - instructions never wait for resources, so the do-while loops run once;
    - the decode cache returns an earlier decode of the address or a new one of
      the current memory: which is decided by the oracle [evicted]; Invalidate
      drops one address.  An instruction is represented by its word;
    - BreakpointManager and ActionPointManagerBase (outside /repo): one action per
      address, which requests a halt; setting writes the breakpoint instruction and
      fails with AlreadyExists if present; clearing writes the original instruction
      back and fails with NotFound if absent;
    - Run 393-510 is modelled together with the run thread, up to the point where
      the run ends, without calls from other threads (see ConcModel.v for those);
      without tracing (see TraceModel.v);
    - the debugger's memory accesses are plain loads and stores of [t_mem];
    - a register is identified by [reg_id] of its name (aliases share an id), a CSR
      by [csr_id]; [csr_get] and [csr_set] are the CSR's own read and write. *)
From Coq Require Import ZArith List Bool String.
From Verif Require Import CInt.
Import ListNotations.
Open Scope Z_scope.

Inductive reason := RNone | RUserRequest | RSwBreakpoint | RActionPoint | RSemihost | RAbort | ROther (n : Z).
Definition reason_eqb (a b : reason) : bool :=
  match a, b with
  | RNone, RNone | RUserRequest, RUserRequest | RSwBreakpoint, RSwBreakpoint
  | RActionPoint, RActionPoint | RSemihost, RSemihost | RAbort, RAbort => true
  | ROther x, ROther y => x =? y
  | _, _ => false
  end.
Inductive status := Halted | Running | SingleStep.
Definition is_halted (s : status) : bool := match s with Halted => true | _ => false end.
Definition is_running (s : status) : bool := match s with Running => true | _ => false end.
(** absl status codes. *)
Inductive code := EInvalidArgument | EFailedPrecondition | ENotFound | EInternal | EAlreadyExists.
(** What a call returns. *)
Inductive ret := ROk | RVal (v : Z) | RBytes (l : list Z) | RErr (c : code).

(** kEBreak32, coralnpu_action_point_memory_interface.h 43. *)
Definition ebreak : Z := 0x00100073.
(** kCoralnpuMaxMemoryAddress, coralnpu_state.h 52. *)
Definition max_address : Z := 0x3fffff.
(** 32-bit little-endian load and store. *)
Definition load32 (m : Z -> Z) (a : Z) : Z := m a + 2 ^ 8 * m (a + 1) + 2 ^ 16 * m (a + 2) + 2 ^ 24 * m (a + 3).
Definition store32 (m : Z -> Z) (a w : Z) : Z -> Z :=
  fun x => if (a <=? x) && (x <? a + 4) then (w / 2 ^ (8 * (x - a))) mod 2 ^ 8 else m x.
Definition load_bytes (m : Z -> Z) (a : Z) (n : nat) : list Z := map (fun i => m (a + Z.of_nat i)) (seq 0 n).
Definition store_bytes (m : Z -> Z) (a : Z) (l : list Z) : Z -> Z :=
  fun x => if (a <=? x) && (x <? a + Z.of_nat (length l)) then nth (Z.to_nat (x - a)) l 0 else m x.
Definition upd1 {A} (f : Z -> A) (a : Z) (v : A) : Z -> A := fun x => if x =? a then v else f x.

Section Top.
  Context {C : Type}.
  (** Registers by id, CSR state. *)
  Record arch := Arch { a_regs : Z -> Z; a_csr : C }.
  (** Effect of an instruction. *)
  Record effect := Eff { f_arch : arch; f_mem : Z -> Z; f_pc : Z; f_halt : option reason }.
  (** word, address, state. *)
  Variable exec : Z -> Z -> arch -> (Z -> Z) -> effect.
  Variable evicted : Z -> Z -> bool.
  (** Register objects: id of a name, size in bytes of an id. *)
  Variable reg_id : string -> option Z.
  Variable reg_size : Z -> Z.
  Variable csr_id : string -> option Z.
  Variable csr_get : Z -> C -> Z.
  Variable csr_set : Z -> Z -> C -> C.

  (** The fields of CoralNPUTop (coralnpu_top.h 127-176), of the breakpoint managers
      and instruction_map_ (ap.h 75). *)
  Record top := Top {
    t_arch : arch; t_mem : Z -> Z; t_pc : Z;
    t_status : status; t_reason : reason; t_halted : bool; t_need : bool;
    t_bps : list Z; t_map : Z -> option Z;
    t_cache : Z -> option Z; t_tick : Z;
    t_insts : Z; t_cycles : Z }.

  Definition set_arch v s := Top v (t_mem s) (t_pc s) (t_status s) (t_reason s) (t_halted s) (t_need s) (t_bps s) (t_map s) (t_cache s) (t_tick s) (t_insts s) (t_cycles s).
  Definition set_mem v s := Top (t_arch s) v (t_pc s) (t_status s) (t_reason s) (t_halted s) (t_need s) (t_bps s) (t_map s) (t_cache s) (t_tick s) (t_insts s) (t_cycles s).
  Definition set_pcv v s := Top (t_arch s) (t_mem s) v (t_status s) (t_reason s) (t_halted s) (t_need s) (t_bps s) (t_map s) (t_cache s) (t_tick s) (t_insts s) (t_cycles s).
  Definition set_status v s := Top (t_arch s) (t_mem s) (t_pc s) v (t_reason s) (t_halted s) (t_need s) (t_bps s) (t_map s) (t_cache s) (t_tick s) (t_insts s) (t_cycles s).
  Definition set_reason v s := Top (t_arch s) (t_mem s) (t_pc s) (t_status s) v (t_halted s) (t_need s) (t_bps s) (t_map s) (t_cache s) (t_tick s) (t_insts s) (t_cycles s).
  Definition set_halted v s := Top (t_arch s) (t_mem s) (t_pc s) (t_status s) (t_reason s) v (t_need s) (t_bps s) (t_map s) (t_cache s) (t_tick s) (t_insts s) (t_cycles s).
  Definition set_need v s := Top (t_arch s) (t_mem s) (t_pc s) (t_status s) (t_reason s) (t_halted s) v (t_bps s) (t_map s) (t_cache s) (t_tick s) (t_insts s) (t_cycles s).
  Definition set_bps v s := Top (t_arch s) (t_mem s) (t_pc s) (t_status s) (t_reason s) (t_halted s) (t_need s) v (t_map s) (t_cache s) (t_tick s) (t_insts s) (t_cycles s).
  Definition set_map v s := Top (t_arch s) (t_mem s) (t_pc s) (t_status s) (t_reason s) (t_halted s) (t_need s) (t_bps s) v (t_cache s) (t_tick s) (t_insts s) (t_cycles s).
  Definition set_cache v s := Top (t_arch s) (t_mem s) (t_pc s) (t_status s) (t_reason s) (t_halted s) (t_need s) (t_bps s) (t_map s) v (t_tick s) (t_insts s) (t_cycles s).
  Definition tick s := Top (t_arch s) (t_mem s) (t_pc s) (t_status s) (t_reason s) (t_halted s) (t_need s) (t_bps s) (t_map s) (t_cache s) (t_tick s + 1) (t_insts s) (t_cycles s).
  (** IncrementCycleCount(1), IncrementInstructionCount(1). *)
  Definition count1 s := Top (t_arch s) (t_mem s) (t_pc s) (t_status s) (t_reason s) (t_halted s) (t_need s) (t_bps s) (t_map s) (t_cache s) (t_tick s) (t_insts s + 1) (t_cycles s + 1).

  (** SetPc 799-805: the pc register has 4 bytes. *)
  Definition set_pc (v : Z) (s : top) : top := set_pcv (v mod 2 ^ 32) s.
  (** RequestHalt 781-797. *)
  Definition request_halt (r : reason) (s : top) : top :=
    let s := set_halted true (set_reason r s) in
    if reason_eqb r RSwBreakpoint || reason_eqb r RActionPoint then set_need true s else s.
  (** IsActionPointActive, HasBreakpoint. *)
  Definition has_bp (a : Z) (s : top) : bool := existsb (Z.eqb a) (t_bps s).

  (** decode_cache_->GetDecodedInstruction(a). *)
  Definition fetch (a : Z) (s : top) : Z * top :=
    match (if evicted (t_tick s) a then None else t_cache s a) with
    | Some w => (w, tick s)
    | None => let w := load32 (t_mem s) a in (w, tick (set_cache (upd1 (t_cache s) a (Some w)) s))
    end.

  (** WriteOriginalInstruction ap: 41-53. *)
  Definition write_original (a : Z) (s : top) : top :=
    match t_map s a with
    | None => s
    | Some w => set_cache (upd1 (t_cache s) a None) (set_mem (store32 (t_mem s) a w) s)
    end.
  (** WriteBreakpointInstruction ap: 55-79. *)
  Definition write_breakpoint (a : Z) (s : top) : top :=
    let s := match t_map s a with
             | None => set_map (upd1 (t_map s) a (Some (load32 (t_mem s) a))) s
             | Some _ => s end in
    set_cache (upd1 (t_cache s) a None) (set_mem (store32 (t_mem s) a ebreak) s).

  (** ExecuteInstruction 80-92 of the instruction [w] at [a] after
      SetPc(next_seq_pc), and the counters. The ebreak handler is 178-195:
      PerformActions calls RequestHalt(kSoftwareBreakpoint). *)
  Definition execute (w a : Z) (s : top) : top :=
    let s := set_pc (a + 4) s in
    let s :=
      if w =? ebreak then
        if has_bp a s then request_halt RSwBreakpoint (request_halt RActionPoint s)
        else request_halt RAbort s
      else
        let f := exec w a (t_arch s) (t_mem s) in
        let s := set_pcv (f_pc f) (set_mem (f_mem f) (set_arch (f_arch f) s)) in
        match f_halt f with Some r => request_halt r s | None => s end in
    count1 s.

  (** StepPastBreakpoint 289-311. *)
  Definition step_past (s : top) : top :=
    let a := t_pc s in
    let s := write_original a s in
    let '(w, s) := fetch a s in
    write_breakpoint a (execute w a s).

  (** One iteration of the loops of Step 346-377 and Run 437-483; the boolean says
      whether to go on (continue) or leave the loop (break). *)
  Definition iteration (need_reset : bool) (next_pc : Z) (s : top) : bool * Z * top :=
    let '(w, s) := fetch next_pc s in
    let s := execute w next_pc s in
    let next_pc := t_pc s in
    if negb (t_halted s) then (true, next_pc, s)
    else if reason_eqb (t_reason s) RActionPoint then
      let s := step_past s in
      let s := set_reason RNone (set_halted false s) in
      (true, next_pc, if need_reset then set_need false s else s)
    else (false, next_pc, s).

  (** The loop of Step 346-377: state, count, pc (None: not assigned), next_pc. *)
  Fixpoint step_loop (fuel : nat) (num count : Z) (pc : option Z) (next_pc : Z) (s : top)
    : Z * option Z * Z * top :=
    if negb (t_halted s) && (count <? num) then
      match fuel with
      | O => (count, pc, next_pc, s)
      | S f =>
          let '(go, np, s') := iteration true next_pc s in
          if go then step_loop f num (count + 1) (Some next_pc) np s'
          else (count + 1, Some next_pc, np, s')
      end
    else (count, pc, next_pc, s).

  (** Step 313-391.  Reading [pc] at 381 before any assignment is undefined. *)
  Definition step (num : Z) (s : top) : outcome (ret * top) :=
    if num <=? 0 then Ok (RErr EInvalidArgument, s)
    else if negb (is_halted (t_status s)) then Ok (RErr EFailedPrecondition, s)
    else
      let s := set_halted false (set_status SingleStep s) in
      let '(count, s) := if t_need s then (1, step_past (set_need false s)) else (0, s) in
      let '(count, pc, next_pc, s) := step_loop (Z.to_nat num) num count None (t_pc s) s in
      let fin p :=
        let s := set_pc p s in
        let s := if negb (t_halted s) then set_reason RNone s else s in
        Ok (RVal count, set_status Halted s) in
      if reason_eqb (t_reason s) RSwBreakpoint
      then match pc with Some p => fin p | None => UB Uninitialised end
      else fin next_pc.

  (** The run thread's loop 437-483; [None]: still running after [fuel] rounds. *)
  Fixpoint run_loop (fuel : nat) (pc : option Z) (next_pc : Z) (s : top) : option (option Z * Z * top) :=
    if negb (t_halted s) then
      match fuel with
      | O => None
      | S f =>
          let '(go, np, s') := iteration false next_pc s in
          if go then run_loop f (Some next_pc) np s' else Some (Some next_pc, np, s')
      end
    else Some (pc, next_pc, s).
  (** Run 393-510 up to the end of the run; [None]: it does not end within [fuel]
      instructions. *)
  Definition run (fuel : nat) (s : top) : option (outcome (ret * top)) :=
    if is_running (t_status s) then Some (Ok (RErr EFailedPrecondition, s))
    else
      let s := if t_need s then step_past (set_need false s) else s in
      let s := set_halted false (set_status Running s) in
      match run_loop fuel None (t_pc s) s with
      | None => None
      | Some (pc, next_pc, s) =>
          Some (if reason_eqb (t_reason s) RSwBreakpoint
                then match pc with
                     | Some p => Ok (ROk, set_status Halted (set_pc p s))
                     | None => UB Uninitialised
                     end
                else Ok (ROk, set_status Halted (set_pc next_pc s)))
      end.

  (** Halt 264-277, Halt(reason) 279-287. *)
  Definition halt (s : top) : ret * top :=
    match t_status s with
    | Halted => (ROk, s)
    | Running => (ROk, set_halted true (set_reason RUserRequest s))
    | SingleStep => (RErr EFailedPrecondition, s)
    end.
  Definition halt_with (r : reason) (s : top) : ret * top := (ROk, request_halt r s).

  Definition guarded (s : top) (k : ret * top) : ret * top :=
    if is_halted (t_status s) then k else (RErr EFailedPrecondition, s).

  (** Contents of a register: the pc register is [t_pc]. *)
  Definition pc_name : string := "pc".
  Definition size_ok (n : Z) : bool := (n =? 1) || (n =? 2) || (n =? 4) || (n =? 8).
  Definition reg_value (name : string) (i : Z) (s : top) : Z :=
    if String.eqb name pc_name then t_pc s else a_regs (t_arch s) i.
  (** ReadRegister 533-571. *)
  Definition read_register (name : string) (s : top) : ret * top :=
    guarded s
      match reg_id name with
      | None => match csr_id name with
                | None => (RErr ENotFound, s)
                | Some c => (RVal (csr_get c (a_csr (t_arch s)) mod 2 ^ 32), s)
                end
      | Some i =>
          if size_ok (reg_size i) then (RVal (reg_value name i s mod 2 ^ (8 * reg_size i)), s)
          else (RErr EInternal, s)
      end.
  (** WriteRegister 573-617. *)
  Definition write_register (name : string) (v : Z) (s : top) : ret * top :=
    guarded s
      match reg_id name with
      | None => match csr_id name with
                | None => (RErr ENotFound, s)
                | Some c => (ROk, set_arch (Arch (a_regs (t_arch s)) (csr_set c (v mod 2 ^ 32) (a_csr (t_arch s)))) s)
                end
      | Some i =>
          let s := if String.eqb name pc_name && reason_eqb (t_reason s) RSwBreakpoint
                   then set_reason RNone s else s in
          if size_ok (reg_size i) then
            let x := v mod 2 ^ (8 * reg_size i) in
            (ROk, if String.eqb name pc_name then set_pcv x s
                  else set_arch (Arch (upd1 (a_regs (t_arch s)) i x) (a_csr (t_arch s))) s)
          else (RErr EInternal, s)
      end.

  (** The clamped length of ReadMemory / WriteMemory, in uint64. *)
  Definition clamp_len (a n : Z) : Z := Z.min (n mod 2 ^ 64) ((max_address - a + 1) mod 2 ^ 64).
  (** ReadMemory 634-650. *)
  Definition read_memory (a n : Z) (s : top) : ret * top :=
    guarded s
      (if max_address <? a then (RErr EInvalidArgument, s)
       else (RBytes (load_bytes (t_mem s) a (Z.to_nat (clamp_len a n))), s)).
  (** WriteMemory 652-669; [buf] holds the [length] bytes of the caller. *)
  Definition write_memory (a : Z) (buf : list Z) (s : top) : ret * top :=
    guarded s
      (if max_address <? a then (RErr EInvalidArgument, s)
       else let n := clamp_len a (Z.of_nat (length buf)) in
            (RVal n, set_mem (store_bytes (t_mem s) a (firstn (Z.to_nat n) buf)) s)).

  (** SetSwBreakpoint 675-687, ClearSwBreakpoint 689-699, ClearAllSwBreakpoints
      701-712, HasBreakpoint 671-673. *)
  Definition set_breakpoint (a : Z) (s : top) : ret * top :=
    guarded s
      (if has_bp a s then (RErr EAlreadyExists, s)
       else (ROk, write_breakpoint a (set_bps (a :: t_bps s) s))).
  Definition drop_bp (a : Z) (l : list Z) : list Z := filter (fun x => negb (x =? a)) l.
  Definition clear_breakpoint (a : Z) (s : top) : ret * top :=
    guarded s
      (if has_bp a s then (ROk, write_original a (set_bps (drop_bp a (t_bps s)) s))
       else (RErr ENotFound, s)).
  Definition clear_all (s : top) : ret * top :=
    guarded s (ROk, fold_left (fun s a => write_original a (set_bps (drop_bp a (t_bps s)) s)) (t_bps s) s).

  (** GetDisassembly 720-747: the word of the disassembled instruction. *)
  Definition disassembly (a : Z) (s : top) : ret * top :=
    guarded s
      (if has_bp a s then
         let '(w, s) := fetch a (write_original a s) in (RVal w, write_breakpoint a s)
       else let '(w, s) := fetch a s in (RVal w, s)).

  (** LoadImage 749-779: [file] the contents, None if it cannot be opened. The
      loop reads kBufferSize bytes at a time. *)
  Definition buffer_size : nat := Z.to_nat 4096.
  Fixpoint load_chunks (fuel : nat) (rest : list Z) (a : Z) (s : top) : ret * top :=
    match fuel with
    | O => (RErr EInternal, s)
    | S f =>
        let buf := firstn buffer_size rest in
        let gcount := Z.of_nat (length buf) in
        if gcount =? 0 then (ROk, s)
        else match write_memory a buf s with
             | (RVal n, s') =>
                 if n =? gcount then
                   if gcount =? Z.of_nat buffer_size
                   then load_chunks f (skipn buffer_size rest) ((a + gcount) mod 2 ^ 64) s'
                   else (ROk, s')
                 else (RErr EInternal, s')
             | (_, s') => (RErr EInternal, s')
             end
    end.
  Definition load_image (file : option (list Z)) (a : Z) (s : top) : ret * top :=
    match file with
    | None => (RErr EInternal, s)
    | Some l => load_chunks (S (length l)) l a s
    end.

  (** ** Histories of calls *)
  Inductive call :=
  | CStep (n : Z) | CRun (fuel : nat) | CHalt | CHaltWith (r : reason)
  | CSetBp (a : Z) | CClearBp (a : Z) | CClearAll | CHasBp (a : Z)
  | CReadReg (name : string) | CWriteReg (name : string) (v : Z)
  | CReadMem (a n : Z) | CWriteMem (a : Z) (buf : list Z)
  | CDisasm (a : Z) | CLoadImage (file : option (list Z)) (a : Z)
  | CStatus | CReason.
  Definition do_call (c : call) (s : top) : option (outcome (ret * top)) :=
    match c with
    | CStep n => Some (step n s)
    | CRun f => run f s
    | CHalt => Some (Ok (halt s))
    | CHaltWith r => Some (Ok (halt_with r s))
    | CSetBp a => Some (Ok (set_breakpoint a s))
    | CClearBp a => Some (Ok (clear_breakpoint a s))
    | CClearAll => Some (Ok (clear_all s))
    | CHasBp a => Some (Ok (RVal (if has_bp a s then 1 else 0), s))
    | CReadReg n => Some (Ok (read_register n s))
    | CWriteReg n v => Some (Ok (write_register n v s))
    | CReadMem a n => Some (Ok (read_memory a n s))
    | CWriteMem a b => Some (Ok (write_memory a b s))
    | CDisasm a => Some (Ok (disassembly a s))
    | CLoadImage f a => Some (Ok (load_image f a s))
    | CStatus => Some (Ok (RVal (match t_status s with Halted => 0 | Running => 1 | SingleStep => 2 end), s))
    | CReason => Some (Ok (ROk, s))
    end.
  (** A constructed simulator 94-122: memory [m], registers [r], pc 0... *)
  Definition fresh (r : arch) (m : Z -> Z) (pc : Z) : top :=
    Top r m pc Halted RNone false false [] (fun _ => None) (fun _ => None) 0 0 0.
End Top.
