(** * The mailbox simulator

    Models /repo/sim/hw_sim/mpact_simulator.cc (line numbers refer to it).

    Simplifications:
    - the core (RiscVState, decoder and RiscVTop of mpact-riscv) is abstract:
      [step1] is Step(1) on core and memory with whether the status is ok, [pc]
      and [set_pc] are ReadRegister/WriteRegister("pc"), which exist;
    - RiscVTop::ReadMemory and WriteMemory fail only when [busy] (they refuse
      while the core runs); FlatDemandMemory itself accepts every address;
    - messages on cerr are not recorded;
    - [asserts] tells whether assert() is compiled in. *)
From Verif Require Export CInt.
Import ListNotations.

(** CoralNPUMailbox: four 32-bit words. *)
Definition addr_mailbox : Z := 0x401fc000.          (* 33 *)
Definition word (m : Z -> Z) (a : Z) : Z := m a + 256 * m (a + 1) + 65536 * m (a + 2) + 16777216 * m (a + 3).
Definition byte_of (w i : Z) : Z := w / 2 ^ (8 * i) mod 256.
Definition bytes_at (m : Z -> Z) (a : Z) (n : nat) : list Z := map (fun i => m (a + Z.of_nat i)) (seq 0 n).
Definition put (m : Z -> Z) (a : Z) (l : list Z) : Z -> Z :=
  fun x => if (a <=? x) && (x <? a + Z.of_nat (length l)) then nth (Z.to_nat (x - a)) l 0 else m x.
Definition message (m : Z -> Z) : list Z := map (fun i => word m (addr_mailbox + 4 * i)) [0; 1; 2; 3].
Definition message_bytes (msg : list Z) : list Z := flat_map (fun w => map (byte_of w) [0; 1; 2; 3]) msg.

Section HwSim.
  Context {Core : Type}.
  Variable asserts : bool.
  Variable busy : Core -> bool.
  Variable pc : Core -> Z.
  Variable set_pc : Z -> Core -> Core.
  Variable step1 : Core -> (Z -> Z) -> bool * Core * (Z -> Z).

  Record sim := Sim { s_core : Core; s_mem : Z -> Z; s_box : list Z }.

  (** The calls; [None] from [do_call] is a call that has not returned within
      the fuel. *)
  Inductive call :=
  | ReadTCM (addr : Z) (size : nat) | WriteTCM (addr : Z) (data : list Z)
  | ReadMailbox | WriteMailbox (msg : list Z) | Run (addr : Z) | WaitForTermination (timeout : Z).
  Inductive answer := Bytes (l : list Z) | Message (l : list Z) | Bool (b : bool) | Unit.

  (** ReadTCM 72-78: [None] data is a buffer left as it was. *)
  Definition read_tcm (addr : Z) (size : nat) (s : sim) : outcome (option (list Z)) :=
    if busy (s_core s) then (if asserts then Crash else Ok None)
    else Ok (Some (bytes_at (s_mem s) addr size)).
  (** WriteTCM 90-96. *)
  Definition write_tcm (addr : Z) (data : list Z) (s : sim) : outcome sim :=
    if busy (s_core s) then (if asserts then Crash else Ok s)
    else Ok (Sim (s_core s) (put (s_mem s) addr data) (s_box s)).
  (** ReadMailbox 80-88, and the last ReadTCM of WaitForTermination 132. *)
  Definition refresh (s : sim) : outcome sim :=
    if busy (s_core s) then (if asserts then Crash else Ok s)
    else Ok (Sim (s_core s) (s_mem s) (message (s_mem s))).
  (** WriteMailbox 98-105. *)
  Definition write_mailbox (msg : list Z) (s : sim) : outcome sim :=
    write_tcm addr_mailbox (message_bytes msg) (Sim (s_core s) (s_mem s) msg).
  (** Lines 121-129: the instruction word at pc (0 when the read fails). *)
  Definition stop_here (s : sim) : outcome bool :=
    let p := pc (s_core s) mod 2 ^ 32 in
    d <- read_tcm p 4 s ;;
    let inst := match d with Some _ => word (s_mem s) p | None => 0 end in
    Ok ((0x1FFF <? p) || (inst =? 0x08000073) || (inst =? 0x10500073)).
  (** WaitForTermination 112-135; the timeout is not used. *)
  Fixpoint wait (fuel : nat) (s : sim) : option (outcome (sim * bool)) :=
    match fuel with
    | O => None
    | S fuel =>
        let '(ok, c, m) := step1 (s_core s) (s_mem s) in
        let s := Sim c m (s_box s) in
        if ok then
          match stop_here s with
          | Ok true => Some (s <- refresh s ;; Ok (s, true))
          | Ok false => wait fuel s
          | UB k => Some (UB k)
          | Crash => Some Crash
          end
        else Some (Ok (s, false))
    end.
  Definition do_call (fuel : nat) (k : call) (s : sim) : option (outcome (sim * answer)) :=
    match k with
    | ReadTCM a n => Some (d <- read_tcm a n s ;; Ok (s, Bytes (match d with Some l => l | None => [] end)))
    | WriteTCM a l => Some (s <- write_tcm a l s ;; Ok (s, Unit))
    | ReadMailbox => Some (s <- refresh s ;; Ok (s, Message (s_box s)))
    | WriteMailbox msg => Some (s <- write_mailbox msg s ;; Ok (s, Unit))
    | Run a => Some (Ok (Sim (set_pc (a mod 2 ^ 32) (s_core s)) (s_mem s) (s_box s), Unit))    (* 107-110 *)
    | WaitForTermination _ =>
        match wait fuel s with Some o => Some (r <- o ;; Ok (fst r, Bool (snd r))) | None => None end
    end.
  Fixpoint run (fuel : nat) (ks : list call) (s : sim) : option (outcome (sim * list answer)) :=
    match ks with
    | [] => Some (Ok (s, []))
    | k :: ks =>
        match do_call fuel k s with
        | Some (Ok (s, a)) =>
            match run fuel ks s with
            | Some o => Some (r <- o ;; Ok (fst r, a :: snd r))
            | None => None
            end
        | Some (UB u) => Some (UB u)
        | Some Crash => Some Crash
        | None => None
        end
    end.
End HwSim.
Arguments sim : clear implicits.
