(** * The command-line simulators

    Models main and the debugger commands of /repo/sim/coralnpu_sim.cc ("sim:"), and
    CoralNPUV2Simulator of /repo/sim/coralnpu_v2_simulator.cc ("v2:") with main of
    coralnpu_v2_sim.cc ("v2sim:").  The V1 core is [top] of TopModel.v.

    Simplifications and contracts:
    - absl::ParseCommandLine (outside /repo) yields the flags and the remaining
      arguments; 32-bit flags hold 0 .. 2^32-1;
    - [files] gives the contents of the files that can be opened; a file does not
      change while the simulator starts;
    - ElfProgramLoader::LoadProgram (outside /repo) is the oracle [elf]: entry point
      (uint64_t) and memory after loading;
    - LOG(ERROR) lines are the constructors of [message]; standard output is what
      main prints itself, characters are byte values; the wall-clock time is the
      text [secs];
    - Run and Wait are [run] of TopModel.v: Run up to the end of the run; no
      control-C; the simulator is the only thread;
    - the interactive shell (outside /repo) is not modelled: [Shell] is the state it
      is started with; its two extra commands are [print_registers] and
      [print_vector_registers];
    - RE2 matching of the two command patterns is modelled by [command];
    - ReadRegister is [read_register], a register's data buffer holds its bytes
      little-endian. *)
From Coq Require Import ZArith List Bool String Ascii.
From Verif Require Import CInt TopModel LogModel V2Model.
Import ListNotations.
Open Scope Z_scope.
Open Scope list_scope.

(** Characters of a literal. *)
Fixpoint chars (s : string) : list Z :=
  match s with EmptyString => [] | String c r => Z.of_nat (nat_of_ascii c) :: chars r end.
Definition newline : Z := 10.
Definition tab : Z := 9.
(** absl::Hex(v, kZeroPad8) and StrFormat("%08x", v): at least eight digits. *)
Definition hex8 (v : Z) : list Z :=
  let d := digits 16 16 v in repeat 48 (8 - length d) ++ d.
(** Decimal of a uint64_t. *)
Definition dec (v : Z) : list Z := digits 20 10 v.

(** ** Patterns *)
(** RE2's \s. *)
Definition is_space (c : Z) : bool := (c =? 9) || (c =? 10) || (c =? 12) || (c =? 13) || (c =? 32).
Fixpoint skip_spaces (l : list Z) : list Z :=
  match l with c :: r => if is_space c then skip_spaces r else l | [] => [] end.
Fixpoint strip (w l : list Z) : option (list Z) :=
  match w, l with
  | [], _ => Some l
  | c :: w', d :: l' => if c =? d then strip w' l' else None
  | _ :: _, [] => None
  end.
(** FullMatch of \s*WORD\s+info\s*, sim: 69-70 and 95-96. *)
Definition command (word : list Z) (input : list Z) : bool :=
  match strip word (skip_spaces input) with
  | Some (c :: r) =>
      is_space c &&
      match strip (chars "info") (skip_spaces r) with
      | Some r => match skip_spaces r with [] => true | _ => false end
      | None => false
      end
  | _ => false
  end.

(** ** V1 *)
(** sim: 43-51. *)
Record flags := Flags { fl_i : bool; fl_interactive : bool; fl_offset : Z; fl_entry : option Z }.
Inductive message := MOneFile | MNeedElf | MNeedEntry | MLoad | MPc | MEntryDiffers (elf flag : Z) | MRun.
(** kXRegisterAliases (mpact-riscv riscv_register_aliases.h). *)
Definition aliases : list string :=
  ["zero"; "ra"; "sp"; "gp"; "tp"; "t0"; "t1"; "t2"; "s0"; "s1";
   "a0"; "a1"; "a2"; "a3"; "a4"; "a5"; "a6"; "a7";
   "s2"; "s3"; "s4"; "s5"; "s6"; "s7"; "s8"; "s9"; "s10"; "s11"; "t3"; "t4"; "t5"; "t6"]%string.
(** absl::StrCat(prefix, i) for i < 100. *)
Definition dec_string (i : nat) : string :=
  let d n := String (ascii_of_nat (48 + n)) EmptyString in
  if Nat.ltb i 10 then d i else (d (Nat.div i 10) ++ d (Nat.modulo i 10))%string.
Definition reg_name (prefix : string) (i : nat) : string := (prefix ++ dec_string i)%string.

Section V1.
  Context {C : Type}.
  Variable exec : Z -> Z -> arch (C := C) -> (Z -> Z) -> effect (C := C).
  Variable evicted : Z -> Z -> bool.
  Variable reg_id : string -> option Z.
  Variable reg_size : Z -> Z.
  Variable csr_id : string -> option Z.
  Variable csr_get : Z -> C -> Z.
  Variable csr_set : Z -> Z -> C -> C.
  (** Initial registers, CSRs and pc of the constructed core. *)
  Variable boot : arch (C := C).
  Variable boot_pc : Z.
  Variable files : string -> option (list Z).
  Variable elf : list Z -> (Z -> Z) -> option (Z * (Z -> Z)).
  Variable secs : list Z.

  (** How main ends: status -1; status 0 with its output; in the shell; a batch run
      that goes on after [fuel] instructions. *)
  Inductive ending :=
  | Refused (log : list message)
  | Finished (log : list message) (out : list Z) (s : top (C := C))
  | Shell (log : list message) (s : top (C := C))
  | StillRunning (log : list message).

  (** IsElfFile sim: 128-138: a read of fewer than four bytes leaves magic_word
      (partly) uninitialised. *)
  Definition is_elf_file (name : string) : outcome bool :=
    match files name with
    | None => Ok false
    | Some (a :: b :: c :: d :: _) => Ok (a + 2 ^ 8 * b + 2 ^ 16 * c + 2 ^ 24 * d =? 0x464c457f)
    | Some _ => UB Uninitialised
    end.

  (** CoralNPUTop("CoralNPU"): FlatDemandMemory(0). *)
  Definition new_top : top (C := C) := fresh boot (fun _ => 0) boot_pc.

  (** sim: 206-242. *)
  Definition start (fuel : nat) (interactive : bool) (log : list message) (entry : Z) (s : top (C := C)) : outcome ending :=
    match write_register reg_id reg_size csr_id csr_set pc_name entry s with
    | (ROk, s) =>
        if interactive then Ok (Shell log s)
        else
          match run exec evicted fuel s with
          | None => Ok (StillRunning log)
          | Some (Ok (r, s)) =>
              let log := match r with ROk => log | _ => log ++ [MRun] end in
              Ok (Finished log
                (chars "Starting simulation" ++ [newline] ++
                 chars "Total cycles: " ++ dec (t_cycles s mod 2 ^ 64) ++ [newline] ++
                 chars "Simulation done: " ++ secs ++ chars " sec" ++ [newline]) s)
          | Some (UB k) => UB k
          | Some Crash => Crash
          end
    | (_, s) => Ok (Refused (log ++ [MPc]))
    end.

  (** main sim: 140-243; [args]: the arguments after the program name. *)
  Definition main (fuel : nat) (f : flags) (args : list string) : outcome ending :=
    match args with
    | [name] =>
        let s := new_top in
        let interactive := fl_i f || fl_interactive f in
        is_elf <- is_elf_file name ;;
        if negb is_elf && interactive then Ok (Refused [MNeedElf])
        else if (is_elf : bool) then
          match match files name with Some l => elf l (t_mem s) | None => None end with
          | None => Ok (Refused [MLoad])
          | Some (elf_entry, mem) =>
              let entry := match fl_entry f with Some e => e | None => elf_entry end mod 2 ^ 32 in
              let log := if elf_entry =? entry then [] else [MEntryDiffers elf_entry entry] in
              start fuel interactive log entry (set_mem mem s)
          end
        else
          match fl_entry f with
          | None => Ok (Refused [MNeedEntry])
          | Some e =>
              match load_image (files name) (fl_offset f) s with
              | (ROk, s) => start fuel interactive [] e s
              | _ => Ok (Refused [MLoad])
              end
          end
    | _ => Ok (Refused [MOneFile])
    end.

  (** PrintRegisters sim: 65-88; [None]: not this command. *)
  Definition reg_line (s : top (C := C)) (i : nat) : list Z :=
    match read_register reg_id reg_size csr_id csr_get (reg_name "x" i) s with
    | (RVal v, _) => chars (nth i aliases ""%string) ++ [tab] ++ chars " = [" ++ hex8 v ++ chars "]" ++ [newline]
    | _ => []
    end.
  Definition print_registers (input : list Z) (s : top (C := C)) : option (list Z) :=
    if command (chars "reg") input then Some (flat_map (reg_line s) (seq 0 32)) else None.

  (** GetRegisterDataBuffer, /repo/sim/coralnpu_top.cc 619-632: its words, as many as
      the 256-bit vector length has. *)
  Definition buffer_words (name : string) (s : top (C := C)) : option (list Z) :=
    if is_halted (t_status s) then
      match reg_id name with
      | Some i => Some (map (fun j => (a_regs (t_arch s) i / 2 ^ (32 * Z.of_nat j)) mod 2 ^ 32) (seq 0 8))
      | None => None
      end
    else None.
  (** The text of the words, sim: 112-118. *)
  Fixpoint join_words (sep : list Z) (l : list Z) : list Z :=
    match l with [] => [] | w :: r => sep ++ hex8 w ++ join_words (chars ":") r end.
  (** PrintVectorRegisters sim: 91-125. *)
  Definition vreg_line (s : top (C := C)) (i : nat) : list Z :=
    match buffer_words (reg_name "v" i) s with
    | Some l => chars "v" ++ chars (dec_string i) ++ [tab] ++ chars " = [" ++ join_words [] l ++ chars "]" ++ [newline]
    | None => []
    end.
  Definition print_vector_registers (input : list Z) (s : top (C := C)) : option (list Z) :=
    if command (chars "vreg") input then Some (flat_map (vreg_line s) (seq 0 64)) else None.
End V1.

(** ** V2 *)
(** CoralNPUV2SimulatorOptions, coralnpu_v2_simulator.h 37-44, with the defaults of the
    flags v2sim: 36-53. *)
Record options := Options {
  o_itcm_start : Z; o_itcm_length : Z; o_misa : Z; o_dtcm_start : Z; o_dtcm_length : Z; o_exit_on_ebreak : bool }.
Definition default_options : options := Options 0x0 0x2000 0x40201120 0x10000 0x8000 false.
(** The state factory calls of the constructor, v2: 60-66. *)
Definition v2_config (o : options) : config :=
  build [SetItcmRange (o_itcm_start o) (o_itcm_length o); SetInitialMisaValue (o_misa o);
         AddLsuAccessRange (o_dtcm_start o) (o_dtcm_length o)].

Section V2.
  (** The core: RiscVTop (mpact-riscv) with its state; [request_halt_user] is
      RequestHalt(kUserRequest, inst), [say] writes to standard output. *)
  Variable St : Type.
  Variable trap : Z -> Z -> St -> St.
  Variable request_halt_user : option Z -> St -> St.
  Variable say : list Z -> St -> St.
  (** The mpause handler v2: 97-101. *)
  Definition mpause_handler : handler St := fun inst s =>
    (true, request_halt_user inst (say (chars "mpause instruction received." ++ [newline]) s)).
  (** The ebreak handler v2: 105-113; the instruction is not null. *)
  Definition ebreak_handler (o : options) : handler St := fun inst s =>
    let a := match inst with Some a => a | None => 0 end in
    let s := say (chars "ebreak instruction received. Instruction address: 0x" ++ hex8 a ++ [newline]) s in
    if o_exit_on_ebreak o then (true, request_halt_user inst s) else (false, s).
  (** mpause, and ebreak by the contract of RiscVState::EBreak: the handlers in order
      of registration, first those of RiscVTop (breakpoints), then a breakpoint trap;
      code 3. *)
  Definition v2_mpause (pc : Z) (s : St) : St := run_handlers trap (add_handler [] mpause_handler) (Some pc) s.
  Definition v2_ebreak (top_handlers : list (handler St)) (o : options) (pc : Z) (s : St) : St :=
    run_handlers trap (add_handler top_handlers (ebreak_handler o)) (Some pc) s.

  (** LoadProgram v2: 119-138: [load] is ElfProgramLoader::LoadProgram, [write_pc] is
      RiscVTop::WriteRegister("pc", v).  [None]: an error status. *)
  Variable load : St -> option (Z * St).
  Variable write_pc : Z -> St -> option St.
  Definition load_program (entry_point : option Z) (s : St) : option (list message * St) :=
    match load s with
    | None => None
    | Some (elf_entry, s) =>
        let final := match entry_point with Some e => e | None => elf_entry end mod 2 ^ 32 in
        let log := if elf_entry =? final then [] else [MEntryDiffers elf_entry final] in
        option_map (fun s => (log, s)) (write_pc final s)
    end.
  (** main v2sim: 70-131: [launch] is Run followed by Wait, or the shell; its result
      does not change the exit status. *)
  Variable launch : bool -> St -> St.
  Inductive v2ending := V2Refused (log : list message) | V2Done (log : list message) (s : St).
  Definition v2_main (interactive : bool) (entry_point : option Z) (nargs : nat) (s : St) : v2ending :=
    if Nat.eqb nargs 1 then
      match load_program entry_point s with
      | None => V2Refused [MLoad]
      | Some (log, s) => V2Done log (launch interactive s)
      end
    else V2Refused [MOneFile].
End V2.
