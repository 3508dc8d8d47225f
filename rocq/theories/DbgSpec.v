(** * Specification of the debugger as a whole

    An ideal debugger over the program of TopSpec.v: it has no breakpoints in
    memory and no decode cache, only a set of addresses to stop at. *)
From Coq Require Import ZArith List Bool String.
From Verif Require Import CInt TopModel TopSpec.
Import ListNotations.
Open Scope Z_scope.

Section Spec.
  Context {C : Type}.
  Variable exec : Z -> Z -> arch (C := C) -> (Z -> Z) -> effect (C := C).
  Variable reg_id : string -> option Z.
  Variable reg_size : Z -> Z.
  Variable csr_id : string -> option Z.
  Variable csr_get : Z -> C -> Z.
  Variable csr_set : Z -> Z -> C -> C.
  Notation mach := (mach (C := C)).
  Notation ref := (ref exec).
  Notation poke := (poke reg_id reg_size csr_id csr_set).

  (** A go-call from [m] gets to the [i]-th instruction and executes it; the first
      one is executed in any case when resuming from a breakpoint. *)
  Definition gets_to (bps : list Z) (resume : bool) (m : mach) (i : nat) : Prop :=
    (forall j, (j < i)%nat -> (resume = true /\ j = 0%nat) \/ (~ In (m_pc (ref j m)) bps /\ ref_halt exec (ref j m) = None)) /\
    ((resume = true /\ i = 0%nat) \/ ~ In (m_pc (ref i m)) bps).

  (** Program state, breakpoints, last reason to stop, value of the instruction counter. *)
  Record ideal := Ideal { d_mach : mach; d_bps : list Z; d_reason : reason; d_count : Z }.
  (** A stop at a breakpoint counts as an instruction. *)
  Definition extra (r : reason) : Z := if reason_eqb r RSwBreakpoint then 1 else 0.
  (** Run and Step. *)
  Inductive ideal_go : ideal -> call -> ret -> ideal -> Prop :=
  | GRun m bps r0 c fuel n r : r0 <> RSwBreakpoint -> first_stop exec bps m 0 n r ->
      ideal_go (Ideal m bps r0 c) (CRun fuel) ROk (Ideal (ref n m) bps r (c + Z.of_nat n + extra r))
  | GResume m bps c fuel n r : first_stop exec bps (ref 1 m) 0 n r ->
      ideal_go (Ideal m bps RSwBreakpoint c) (CRun fuel) ROk (Ideal (ref (n + 1) m) bps r (c + Z.of_nat (n + 1) + extra r))
  | GReject d num : num <= 0 -> ideal_go d (CStep num) (RErr EInvalidArgument) d
  | GFull m bps r0 c num n : 0 < num -> r0 <> RSwBreakpoint -> Z.of_nat n = num ->
      (forall i, (i < n)%nat -> ~ In (m_pc (ref i m)) bps /\ ref_halt exec (ref i m) = None) ->
      ideal_go (Ideal m bps r0 c) (CStep num) (RVal num) (Ideal (ref n m) bps RNone (c + num))
  | GStop m bps r0 c num n r : 0 < num -> r0 <> RSwBreakpoint -> first_stop exec bps m 0 n r -> Z.of_nat n + extra r <= num ->
      ideal_go (Ideal m bps r0 c) (CStep num) (RVal (Z.of_nat n + extra r)) (Ideal (ref n m) bps r (c + Z.of_nat n + extra r)).

  (** Memory as the debugger reads it: ebreak at the breakpoints. *)
  Definition view (bps : list Z) (mem : Z -> Z) (x : Z) : Z :=
    if existsb (fun a => (a <=? x) && (x <? a + 4)) bps then (ebreak / 2 ^ (8 * (x mod 4))) mod 256 else mem x.
  Definition listed (a : Z) (l : list Z) : bool := existsb (Z.eqb a) l.
  (** The answers of the other calls. *)
  Definition answer (c : call) (d : ideal) : ret :=
    match c with
    | CSetBp a => if listed a (d_bps d) then RErr EAlreadyExists else ROk
    | CClearBp a => if listed a (d_bps d) then ROk else RErr ENotFound
    | CHasBp a => RVal (if listed a (d_bps d) then 1 else 0)
    | CReadReg n =>
        match reg_id n with
        | Some i =>
            if size_ok (reg_size i)
            then RVal ((if String.eqb n "pc" then m_pc (d_mach d) else a_regs (m_arch (d_mach d)) i) mod 2 ^ (8 * reg_size i))
            else RErr EInternal
        | None => match csr_id n with Some j => RVal (csr_get j (a_csr (m_arch (d_mach d))) mod 2 ^ 32) | None => RErr ENotFound end
        end
    | CWriteReg n _ =>
        match reg_id n with
        | Some i => if size_ok (reg_size i) then ROk else RErr EInternal
        | None => match csr_id n with Some _ => ROk | None => RErr ENotFound end
        end
    | CReadMem a n =>
        if max_address <? a then RErr EInvalidArgument
        else RBytes (map (fun i => view (d_bps d) (m_mem (d_mach d)) (a + Z.of_nat i)) (seq 0 (Z.to_nat (Z.min n (max_address - a + 1)))))
    | CWriteMem a buf => if max_address <? a then RErr EInvalidArgument else RVal (Z.min (Z.of_nat (length buf)) (max_address - a + 1))
    | CDisasm a => RVal (load32 (m_mem (d_mach d)) a)
    | CStatus => RVal 0
    | _ => ROk
    end.
  (** What they change. *)
  Definition after (c : call) (d : ideal) : ideal :=
    Ideal (poke c (d_mach d))
      (match c with
       | CSetBp a => if listed a (d_bps d) then d_bps d else a :: d_bps d
       | CClearBp a => filter (fun b => negb (b =? a)) (d_bps d)
       | CClearAll => []
       | _ => d_bps d
       end)
      (match c with CHaltWith r => r | _ => d_reason d end) (d_count d).
  Inductive ideal_call : ideal -> call -> ret -> ideal -> Prop :=
  | IGo d c r d' : goes c = true -> ideal_go d c r d' -> ideal_call d c r d'
  | IOther d c : goes c = false -> ideal_call d c (answer c d) (after c d).
  Inductive ideal_calls : ideal -> list (call * ret) -> ideal -> Prop :=
  | CNil d : ideal_calls d [] d
  | CCons d c r d1 h d2 : ideal_call d c r d1 -> ideal_calls d1 h d2 -> ideal_calls d ((c, r) :: h) d2.

  (** Which calls the simulator answers like the ideal debugger: at a breakpoint no
      Step, its breakpoint stays and the pc is not written; breakpoints and
      disassembly on 4-aligned instructions of the code, no writes to the code; what
      Run or Step executes does not use the code as data. *)
  Definition permitted (code : Z -> Prop) (m0 : mach) (d : ideal) (c : call) : Prop :=
    let at_bp := d_reason d = RSwBreakpoint in
    match c with
    | CStep num => ~ at_bp /\ forall i, Z.of_nat i < num -> gets_to (d_bps d) false (d_mach d) i -> clean exec code (ref i (d_mach d))
    | CRun _ => forall i, gets_to (d_bps d) (reason_eqb (d_reason d) RSwBreakpoint) (d_mach d) i -> clean exec code (ref i (d_mach d))
    | CSetBp a => bp_ok code m0 a
    | CClearBp a => ~ (at_bp /\ a = m_pc (d_mach d))
    | CClearAll => ~ at_bp
    | CDisasm a => 0 <= a /\ a mod 4 = 0 /\ word_in_code code a
    | CHalt | CHasBp _ | CReadReg _ | CStatus | CReason => True
    | CReadMem a n => 0 <= a < 2 ^ 64 /\ 0 <= n < 2 ^ 64
    | CWriteMem a buf => 0 <= a < 2 ^ 64 /\ Z.of_nat (length buf) < 2 ^ 64 /\ forall x, a <= x < a + Z.of_nat (length buf) -> ~ code x
    | CWriteReg n v => n = "pc"%string -> ~ at_bp /\ 0 <= v < 2 ^ 32
    | CHaltWith r => ~ at_bp /\ r <> RSwBreakpoint /\ r <> RActionPoint
    | CLoadImage _ _ => False
    end.
  (** The simulator shows what the ideal debugger shows. *)
  Definition mirrors (s : top (C := C)) (d : ideal) : Prop :=
    shows s (d_mach d) /\ t_bps s = d_bps d /\ t_reason s = d_reason d /\ t_insts s = d_count d /\ t_cycles s = d_count d /\ t_status s = Halted.
End Spec.
