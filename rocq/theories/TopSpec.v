(** * Specification of the debug interface

    The program as it would run without a debugger: an iterated step on pc,
    registers and memory. *)
From Coq Require Import ZArith List Bool String.
From Verif Require Import CInt TopModel.
Import ListNotations.
Open Scope Z_scope.

Section Spec.
  Context {C : Type}.
  Notation arch := (arch (C := C)).
  Variable exec : Z -> Z -> arch -> (Z -> Z) -> effect (C := C).

  (** A machine state of the program. *)
  Record mach := Mach { m_pc : Z; m_arch : arch; m_mem : Z -> Z }.
  Definition word_at (m : mach) : Z := load32 (m_mem m) (m_pc m).
  (** One instruction; ebreak has no effect of its own. *)
  Definition ref_step (m : mach) : mach :=
    if word_at m =? ebreak then Mach ((m_pc m + 4) mod 2 ^ 32) (m_arch m) (m_mem m)
    else let f := exec (word_at m) (m_pc m) (m_arch m) (m_mem m) in Mach (f_pc f) (f_arch f) (f_mem f).
  (** The halt the instruction requests. *)
  Definition ref_halt (m : mach) : option reason :=
    if word_at m =? ebreak then Some RAbort
    else f_halt (exec (word_at m) (m_pc m) (m_arch m) (m_mem m)).
  Fixpoint ref (k : nat) (m : mach) : mach := match k with O => m | S n => ref_step (ref n m) end.

  (** ** Programs that do not touch their own code *)
  Variable code : Z -> Prop.
  Definition same_data (m m' : Z -> Z) : Prop := forall x, ~ code x -> m x = m' x.
  Definition same_mem (m m' : Z -> Z) : Prop := forall x, m x = m' x.
  Definition word_in_code (a : Z) : Prop := forall i, 0 <= i < 4 -> code (a + i).
  (** Executing the next instruction of [m] is a 4-aligned fetch from the code
      region, leaves the region unchanged and does not depend on its contents. *)
  Definition clean (m : mach) : Prop :=
    0 <= m_pc m < 2 ^ 32 /\ m_pc m mod 4 = 0 /\ word_in_code (m_pc m) /\
    let f mem := exec (word_at m) (m_pc m) (m_arch m) mem in
    (forall mem, same_data mem (m_mem m) ->
       (forall x, code x -> f_mem (f mem) x = mem x) /\
       same_data (f_mem (f mem)) (f_mem (f (m_mem m))) /\
       f_arch (f mem) = f_arch (f (m_mem m)) /\ f_pc (f mem) = f_pc (f (m_mem m)) /\
       f_halt (f mem) = f_halt (f (m_mem m))) /\
    0 <= f_pc (f (m_mem m)) < 2 ^ 32 /\
    (forall r, f_halt (f (m_mem m)) = Some r -> r <> RSwBreakpoint /\ r <> RActionPoint).

  (** ** What the debugger shows *)
  (** [x] is one of the four bytes of a breakpoint. *)
  Definition under_bp (l : list Z) (x : Z) : Prop := exists a, In a l /\ a <= x < a + 4.
  (** The simulator shows the program state [m]: same pc and registers, and the
      same memory except that breakpoints show as ebreak. *)
  Definition shows (s : top (C := C)) (m : mach) : Prop :=
    t_pc s = m_pc m /\ t_arch s = m_arch m /\
    (forall x, ~ under_bp (t_bps s) x -> t_mem s x = m_mem m x) /\
    (forall a i, In a (t_bps s) -> 0 <= i < 4 -> t_mem s (a + i) = (ebreak / 2 ^ (8 * i)) mod 2 ^ 8).
  Definition bytes_ok (m : Z -> Z) : Prop := forall x, 0 <= m x < 256.

  (** Breakpoints can be put on 4-aligned instructions of the code region other
      than ebreak. *)
  Definition bp_ok (m0 : mach) (a : Z) : Prop :=
    0 <= a /\ a mod 4 = 0 /\ word_in_code a /\ load32 (m_mem m0) a <> ebreak.
  (** Calls covered by the transparency theorem, given whether the core is stopped
      at a breakpoint: at a breakpoint no Step, its breakpoint stays and the pc is
      not written.  The debugger does not write to the code region. *)
  Definition allowed (m0 : mach) (c : call) (s : top (C := C)) : Prop :=
    let at_bp := t_reason s = RSwBreakpoint in
    match c with
    | CStep _ => ~ at_bp
    | CRun _ => True
    | CSetBp a => bp_ok m0 a
    | CClearBp a => ~ (at_bp /\ a = t_pc s)
    | CClearAll => ~ at_bp
    | CDisasm a => 0 <= a /\ a mod 4 = 0 /\ word_in_code a
    | CHalt | CHasBp _ | CReadReg _ | CReadMem _ _ | CStatus | CReason => True
    | CWriteMem a buf => 0 <= a < 2 ^ 64 /\ Z.of_nat (length buf) < 2 ^ 64 /\
        forall x, a <= x < a + Z.of_nat (length buf) -> ~ code x
    | CWriteReg n v => n = pc_name -> ~ at_bp /\ 0 <= v < 2 ^ 32
    | CHaltWith r => ~ at_bp /\ r <> RSwBreakpoint /\ r <> RActionPoint
    | CLoadImage _ _ => False
    end.

  (** Where a run from [m] stops: [n] instructions after it, for reason [r]; the
      instructions before [from] are not looked at for breakpoints. *)
  Definition first_stop (bps : list Z) (m : mach) (from n : nat) (r : reason) : Prop :=
    (forall i, (from <= i < n)%nat -> ~ In (m_pc (ref i m)) bps) /\
    (forall i, (i + 1 < n)%nat -> ref_halt (ref i m) = None) /\
    ((r = RSwBreakpoint /\ In (m_pc (ref n m)) bps /\ (from <= n)%nat /\
      forall i, (i < n)%nat -> ref_halt (ref i m) = None) \/
     ((from < n)%nat /\ ref_halt (ref (n - 1) m) = Some r)).
End Spec.

Section Hist.
  Context {C : Type}.
  Variable exec : Z -> Z -> arch (C := C) -> (Z -> Z) -> effect (C := C).
  Variable evicted : Z -> Z -> bool.
  Variable reg_id : string -> option Z.
  Variable reg_size : Z -> Z.
  Variable csr_id : string -> option Z.
  Variable csr_get : Z -> C -> Z.
  Variable csr_set : Z -> Z -> C -> C.
  Notation call_ := (do_call exec evicted reg_id reg_size csr_id csr_get csr_set).
  (** A sequence of calls, each of which finishes and satisfies [P]. *)
  Inductive history (P : call -> top -> Prop) : top -> list (call * ret) -> top -> Prop :=
  | HNil s : history P s [] s
  | HCons s c r s1 h s2 : P c s -> call_ c s = Some (Ok (r, s1)) -> history P s1 h s2 ->
      history P s ((c, r) :: h) s2.

  (** What the debugger's writes mean for the program. *)
  Definition poke (c : call) (m : mach (C := C)) : mach :=
    match c with
    | CWriteMem a buf =>
        Mach (m_pc m) (m_arch m)
          (fun x => if (a <=? x) && (x <? a + Z.of_nat (length buf)) && (x <=? max_address)
                    then nth (Z.to_nat (x - a)) buf 0 else m_mem m x)
    | CWriteReg name v =>
        match reg_id name with
        | Some i =>
            if size_ok (reg_size i) then
              let x := v mod 2 ^ (8 * reg_size i) in
              if String.eqb name pc_name then Mach x (m_arch m) (m_mem m)
              else Mach (m_pc m) (Arch (upd1 (a_regs (m_arch m)) i x) (a_csr (m_arch m))) (m_mem m)
            else m
        | None =>
            match csr_id name with
            | Some j => Mach (m_pc m) (Arch (a_regs (m_arch m)) (csr_set j (v mod 2 ^ 32) (a_csr (m_arch m)))) (m_mem m)
            | None => m
            end
        end
    | _ => m
    end.
  Definition goes (c : call) : bool := match c with CStep _ | CRun _ => true | _ => false end.
  (** The program without breakpoints, under the same calls: every Step and Run
      executes some number of instructions, every write does what it says, every
      other call does nothing.  [k] counts the instructions. *)
  Inductive follows : mach -> list (call * ret) -> nat -> mach -> Prop :=
  | FNil m : follows m [] 0 m
  | FGo m c r n h k m' : goes c = true -> follows (ref exec n m) h k m' -> follows m ((c, r) :: h) (n + k) m'
  | FPoke m c r h k m' : goes c = false -> follows (poke c m) h k m' -> follows m ((c, r) :: h) k m'.

  (** The program does not touch its own code in the first [n] instructions, under
      the calls of [h]. *)
  Definition clean_along (code : Z -> Prop) (m0 : mach) (h : list (call * ret)) (n : Z) : Prop :=
    forall h1 h2 k m, h = h1 ++ h2 -> follows m0 h1 k m -> Z.of_nat k < n -> clean exec code m.
End Hist.

(** Whether a breakpoint is set at [a] after the successful calls of [h]. *)
Fixpoint armed (h : list (call * ret)) (a : Z) (before : bool) : bool :=
  match h with
  | [] => before
  | (c, r) :: t =>
      armed t a (match c, r with
                 | CSetBp b, ROk => before || (b =? a)
                 | CClearBp b, ROk => before && negb (b =? a)
                 | CClearAll, ROk => false
                 | _, _ => before
                 end)
  end.
(** Memory with [l] written at [a], up to the highest simulated address. *)
Definition written (m : Z -> Z) (a : Z) (l : list Z) (x : Z) : Z :=
  if (a <=? x) && (x <? a + Z.of_nat (length l)) && (x <=? max_address)
  then nth (Z.to_nat (x - a)) l 0 else m x.
(** Everything but memory is the same. *)
Definition same_but_mem {C} (s s' : top (C := C)) : Prop :=
  t_arch s' = t_arch s /\ t_pc s' = t_pc s /\ t_status s' = t_status s /\ t_reason s' = t_reason s /\
  t_bps s' = t_bps s /\ t_insts s' = t_insts s /\ t_cycles s' = t_cycles s.
(** Everything but registers and CSRs is the same. *)
Definition same_but_arch {C} (s s' : top (C := C)) : Prop :=
  t_mem s' = t_mem s /\ t_status s' = t_status s /\ t_bps s' = t_bps s /\ t_insts s' = t_insts s /\ t_cycles s' = t_cycles s.
