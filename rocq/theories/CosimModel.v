(** * The co-simulation (DPI) interface

    Models /repo/sim/cosim/coralnpu_cosim_dpi_wrapper.cc (line numbers refer to
    that file).

    Simplifications:
    - the simulator built by Init (CoralNPUV2State, decoder and RiscVTop of
      mpact-riscv) is an abstract core; its operations are parameters;
    - strings are register or file names of any type; a null pointer is [None];
    - the CHECKs inside CreateState, and those on the pc in Init (113) and
      get_pc (132), are assumed to hold (the names they use exist);
    - log messages are not recorded. *)
From Verif Require Export CInt V2Model.
Import ListNotations.

(** sim_config_t. *)
Record simcfg := SC { k_itcm : range; k_misa : Z; k_dtcm : range }.
(** The defaults, lines 71-81: misa is RV32 with I, M, F and V. *)
Definition default_cfg : simcfg := SC (0, 0x2000) 0x40201120 (0x10000, 0x8000).

Section Cosim.
  (** Registers etc. of the core; the contents of the FlatDemandMemory; names. *)
  Variables (Core Mem Name : Type).
  (** A fresh state for a configuration, with the pc at the start of ITCM. *)
  Variable boot : simcfg -> Core.
  Variable empty_mem : Mem.
  (** ElfProgramLoader::LoadProgram: [None] when it fails. *)
  Variable load_elf : Name -> Mem -> option Mem.
  (** RiscVTop::ReadRegister("pc"), WriteMemory(pc, 4 bytes), Step(1) - with
      whether the step executed mpause -, and register access. *)
  Variable core_pc : Core -> Z.
  Variable write_word : Core -> Z -> Z -> Mem -> option Mem.
  Variable step1 : Core -> Mem -> bool * Core * Mem * bool.   (* ok, core, memory, mpause *)
  Variable read_reg : Name -> Core -> option Z.
  Variable write_reg : Name -> Z -> Core -> option Core.
  Variable reg_words : Name -> Core -> option (list Z).

  (** MpactHandle: memory, the core once Init ran (is_initialized_), and
      cosimulation_halted_. *)
  Record handle := H { h_mem : Mem; h_core : option Core; h_halted : bool }.
  Definition new_handle : handle := H empty_mem None false.
  (** Init 87-118. *)
  Definition init_handle (c : option simcfg) (h : handle) : outcome handle :=
    match h_core h with
    | Some _ => Crash
    | None => Ok (H (h_mem h) (Some (boot (match c with Some c => c | None => default_cfg end))) (h_halted h))
    end.
  (** The lazy initialisation, e.g. 271-274: the handle and its core. *)
  Definition lazy_init (h : handle) : outcome (handle * Core) :=
    match h_core h with
    | Some c => Ok (h, c)
    | None => h' <- init_handle None h ;;
              match h_core h' with Some c => Ok (h', c) | None => UB NullDeref end
    end.

  (** The calls with their arguments; a value pointer is null or points to that
      many elements. *)
  Inductive call :=
  | Init | Config (c : option simcfg) | Load (f : option Name) | Reset
  | Step (i : option Z) | IsHalted
  | GetVec (n : option Name) (cap : option nat) | GetReg (n : option Name) (ptr : bool)
  | SetReg (n : option Name) (v : Z) | Fini.
  (** Return value, and what was written to *value (words written to value[i]). *)
  Record result := R { r_ret : Z; r_out : list Z }.
  (** g_mpact_handle: [None] is null. *)
  Definition gstate := option handle.
  Definition ret (g : gstate) (r : Z) : outcome (gstate * result) := Ok (g, R r []).

  (** mpact_init 222-230. *)
  Definition do_init (g : gstate) : outcome (gstate * result) :=
    match g with Some _ => ret g (-1) | None => ret (Some new_handle) 0 end.
  (** mpact_fini 404-412. *)
  Definition do_fini (g : gstate) : outcome (gstate * result) :=
    match g with None => ret g (-1) | Some _ => ret None 0 end.
  (** mpact_step 266-293. *)
  Definition do_step (i : option Z) (g : gstate) : outcome (gstate * result) :=
    match g with
    | None => ret g (-1)
    | Some h =>
        hc <- lazy_init h ;;
        let '(h, c) := hc in
        if h_halted h then ret (Some h) 2
        else match i with
             | None => UB NullDeref
             | Some w =>
                 match write_word c (core_pc c mod 2 ^ 32) (w mod 2 ^ 32) (h_mem h) with
                 | None => ret (Some h) 1
                 | Some m =>
                     let '(ok, c', m', mp) := step1 c m in
                     ret (Some (H m' (Some c') mp)) (if ok then 0 else 2)
                 end
             end
    end.
  (** mpact_get_vector_register 309-344. *)
  Definition do_getvec (n : option Name) (cap : option nat) (g : gstate) : outcome (gstate * result) :=
    match cap, n, g with
    | None, _, _ => ret g (-1)
    | _, None, _ => ret g (-3)
    | _, _, None => ret g (-2)
    | Some k, Some n, Some h =>
        hc <- lazy_init h ;;
        let '(h, c) := hc in
        match reg_words n c with
        | None => ret (Some h) (-4)
        | Some l => if (length l <=? k)%nat then Ok (Some h, R 0 l) else UB OutOfBounds
        end
    end.
  (** mpact_get_register 346-377. *)
  Definition do_getreg (n : option Name) (ptr : bool) (g : gstate) : outcome (gstate * result) :=
    if negb ptr then ret g (-1) else
    match n, g with
    | None, _ => ret g (-3)
    | _, None => Ok (g, R (-2) [0])
    | Some n, Some h =>
        hc <- lazy_init h ;;
        let '(h, c) := hc in
        match read_reg n c with
        | None => Ok (Some h, R (-4) [0])
        | Some v => Ok (Some h, R 0 [v mod 2 ^ 32])
        end
    end.
  (** mpact_set_register 379-402. *)
  Definition do_setreg (n : option Name) (v : Z) (g : gstate) : outcome (gstate * result) :=
    match n, g with
    | None, _ => ret g (-3)
    | _, None => ret g (-2)
    | Some n, Some h =>
        hc <- lazy_init h ;;
        let '(h, c) := hc in
        match write_reg n (v mod 2 ^ 32) c with
        | None => ret (Some h) (-4)
        | Some c' => ret (Some (H (h_mem h) (Some c') (h_halted h))) 0
        end
    end.
  Definition do_call (k : call) (g : gstate) : outcome (gstate * result) :=
    match k with
    | Init => do_init g
    | Config c =>                                            (* 232-243 *)
        match g, c with
        | None, _ => ret g (-1)
        | _, None => ret g (-2)
        | Some h, Some c => h' <- init_handle (Some c) h ;; ret (Some h') 0
        end
    | Load f =>                                              (* 245-257 *)
        match f, g with
        | None, _ => ret g (-1)
        | Some _, None => UB NullDeref
        | Some f, Some h =>
            match load_elf f (h_mem h) with
            | None => ret g (-1)
            | Some m => ret (Some (H m (h_core h) (h_halted h))) 0
            end
        end
    | Reset =>                                               (* 259-264 *)
        g' <- match g with Some _ => x <- do_fini g ;; Ok (fst x) | None => Ok g end ;;
        do_init g'
    | Step i => do_step i g
    | IsHalted =>                                            (* 295-307 *)
        match g with
        | None => ret g 0
        | Some h => hc <- lazy_init h ;; ret (Some (fst hc)) 0
        end
    | GetVec n cap => do_getvec n cap g
    | GetReg n ptr => do_getreg n ptr g
    | SetReg n v => do_setreg n v g
    | Fini => do_fini g
    end.
  (** A sequence of calls from process start: the final state and the results. *)
  Fixpoint run (ks : list call) (g : gstate) : outcome (gstate * list result) :=
    match ks with
    | [] => Ok (g, [])
    | k :: r => x <- do_call k g ;; let '(g', res) := x in
                y <- run r g' ;; let '(g'', l) := y in Ok (g'', res :: l)
    end.
End Cosim.
