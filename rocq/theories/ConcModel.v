(** * Run, Halt, Wait and the destructor of CoralNPUTop, with the run thread

    Models the synchronisation in /repo/sim/coralnpu_top.cc (line numbers refer
    to it) as interleaved steps of one controlling thread and the run threads it
    has started. Every read or write of a shared field is a step of its own.

    Simplifications:
    - executions are interleavings (sequential consistency); in C++ the
      unsynchronised fields are data races, see C40_race_refuted;
    - executing an instruction is one step that may request a halt;
      ExecuteInstruction always ends and StepPastBreakpoint never fails;
    - the controlling thread calls Run, Halt(), Wait and the destructor only (no
      Step, which runs on the controlling thread itself); the step over a
      breakpoint at the start of Run is left out;
    - SetPc and the counters are left out;
    - absl::Notification: waiting blocks until notified, Notify is one step. *)
From Coq Require Export ZArith List Bool Arith.
Import ListNotations.

Inductive reason := NoReason | UserRequest | Breakpoint | ActionPoint | OtherReason.
Inductive status := Halted | Running.
(** run_halted_: never assigned, null, or a Notification. *)
Inductive nptr := Garbage | Null | Ptr (n : nat).
(** A Notification: notified or not, or deleted. *)
Inductive notif := Live (notified : bool) | Deleted.

(** Where a run thread is, lines 415-508. *)
Inductive tpc :=
| TLoop                  (* 443: while (!halted_) *)
| TExec                  (* 444-472: execute one instruction *)
| TReq                   (* 785: halted_ = true of a RequestHalt *)
| TCheck                 (* 473: if (!halted_) continue *)
| TReason                (* 476: kActionPoint? *)
| TClearHalted           (* 477-484: StepPastBreakpoint, then halted_ = false *)
| TClearReason           (* 485: halt_reason_ = kNone *)
| TStatus                (* 490-499: run_status_ = kHalted *)
| TNotify                (* 507: read run_halted_ *)
| TNotify2 (p : nptr)    (* 507: Notify() *)
| TDone.
(** Where the controlling thread is. *)
Inductive cpc :=
| CIdle
| CRun1 | CRun2 | CRun3 | CRun4      (* 406; 407; 412; 414 and return *)
| CHalt1 | CHalt2                    (* 274; 275 and return *)
| CWait1 | CWait2 (p : nptr)         (* 518: read run_halted_; wait *)
| CWait3 | CWait4                    (* 519; 520 and return *)
| CDtor1 | CDtor2 (p : nptr) | CDtor3 | CDtor4  (* 119; 119; 120; 123-130 *)
| CGone.
Inductive op := Run | Halt | Wait | Destroy.
(** A call that has returned: Run with its status, Halt and Wait with OK. *)
Inductive event := RetRun (ok : bool) | RetHalt | RetWait | RetDestroy.
Inductive fault := UseAfterFree | BadPointer | DeletedNotification | DoubleNotify.

Record state := St {
  g_status : status; g_halted : bool; g_reason : reason; g_ptr : nptr;
  g_notifs : list notif; g_threads : list tpc; g_cpc : cpc; g_alive : bool; g_events : list event }.
(** A new object: coralnpu_top.h 140-145. *)
Definition start : state := St Halted false NoReason Garbage [] [] CIdle true [].

(** What happens when a step is tried: the next state, nothing (the step cannot
    be taken: the thread waits, has ended or does not exist), or a fault. *)
Inductive result := Next (s : state) | Blocked | Fault (f : fault).

Definition upd {A} (l : list A) (i : nat) (x : A) : list A := firstn i l ++ x :: skipn (S i) l.

(** Use of a Notification through a pointer. *)
Definition use (p : nptr) (s : state) (k : nat -> bool -> result) : result :=
  match p with
  | Ptr n => match nth_error (g_notifs s) n with
             | Some (Live b) => k n b
             | Some Deleted => Fault DeletedNotification
             | None => Fault BadPointer
             end
  | _ => Fault BadPointer
  end.
Definition set_status x (s : state) := St x (g_halted s) (g_reason s) (g_ptr s) (g_notifs s) (g_threads s) (g_cpc s) (g_alive s) (g_events s).
Definition set_halted x (s : state) := St (g_status s) x (g_reason s) (g_ptr s) (g_notifs s) (g_threads s) (g_cpc s) (g_alive s) (g_events s).
Definition set_reason x (s : state) := St (g_status s) (g_halted s) x (g_ptr s) (g_notifs s) (g_threads s) (g_cpc s) (g_alive s) (g_events s).
Definition set_ptr x (s : state) := St (g_status s) (g_halted s) (g_reason s) x (g_notifs s) (g_threads s) (g_cpc s) (g_alive s) (g_events s).
Definition set_notifs x (s : state) := St (g_status s) (g_halted s) (g_reason s) (g_ptr s) x (g_threads s) (g_cpc s) (g_alive s) (g_events s).
Definition set_threads x (s : state) := St (g_status s) (g_halted s) (g_reason s) (g_ptr s) (g_notifs s) x (g_cpc s) (g_alive s) (g_events s).
Definition at_c x (s : state) := St (g_status s) (g_halted s) (g_reason s) (g_ptr s) (g_notifs s) (g_threads s) x (g_alive s) (g_events s).
Definition kill (s : state) := St (g_status s) (g_halted s) (g_reason s) (g_ptr s) (g_notifs s) (g_threads s) CGone false (g_events s).
Definition returns e (s : state) := St (g_status s) (g_halted s) (g_reason s) (g_ptr s) (g_notifs s) (g_threads s) CIdle (g_alive s) (e :: g_events s).
Definition is_running (x : status) : bool := match x with Running => true | Halted => false end.
Definition is_ap (r : reason) : bool := match r with ActionPoint => true | _ => false end.

(** One step of thread [i] at [t]; [req] is the halt the instruction executed
    now requests, if any (784-785). *)
Definition tstep (i : nat) (t : tpc) (req : option reason) (s : state) : result :=
  let go t' s := Next (set_threads (upd (g_threads s) i t') s) in
  match t with
  | TDone => Blocked
  | TNotify2 p => use p s (fun n b => if b then Fault DoubleNotify
                                      else go TDone (set_notifs (upd (g_notifs s) n (Live true)) s))
  | _ =>
      if negb (g_alive s) then Fault UseAfterFree
      else match t with
      | TLoop => go (if g_halted s then TStatus else TExec) s
      | TExec => match req with None => go TCheck s | Some r => go TReq (set_reason r s) end
      | TReq => go TCheck (set_halted true s)
      | TCheck => go (if g_halted s then TReason else TLoop) s
      | TReason => go (if is_ap (g_reason s) then TClearHalted else TStatus) s
      | TClearHalted => go TClearReason (set_halted false s)
      | TClearReason => go TLoop (set_reason NoReason s)
      | TStatus => go TNotify (set_status Halted s)
      | TNotify => go (TNotify2 (g_ptr s)) s
      | _ => Blocked
      end
  end.

(** One step of the controlling thread; [o] is the next call when it is idle. *)
Definition cstep (o : op) (s : state) : result :=
  match g_cpc s with
  | CIdle =>
      match o with
      | Run => if is_running (g_status s) then Next (returns (RetRun false) s) else Next (at_c CRun1 s)      (* 395 *)
      | Halt => if is_running (g_status s) then Next (at_c CHalt1 s) else Next (returns RetHalt s)           (* 266-273 *)
      | Wait => if is_running (g_status s) then Next (at_c CWait1 s) else Next (returns RetWait s)           (* 514 *)
      | Destroy => Next (at_c (if is_running (g_status s) then CDtor1 else CDtor4) s)                        (* 118 *)
      end
  | CRun1 => Next (at_c CRun2 (set_status Running s))
  | CRun2 => Next (at_c CRun3 (set_halted false s))
  | CRun3 => Next (at_c CRun4 (set_ptr (Ptr (length (g_notifs s))) (set_notifs (g_notifs s ++ [Live false]) s)))
  | CRun4 => Next (returns (RetRun true) (set_threads (g_threads s ++ [TLoop]) s))
  | CHalt1 => Next (at_c CHalt2 (set_reason UserRequest s))
  | CHalt2 => Next (returns RetHalt (set_halted true s))
  | CWait1 => Next (at_c (CWait2 (g_ptr s)) s)
  | CWait2 p => use p s (fun _ b => if b then Next (at_c CWait3 s) else Blocked)
  | CWait3 => use (g_ptr s) s (fun n _ => Next (at_c CWait4 (set_notifs (upd (g_notifs s) n Deleted) s)))
  | CWait4 => Next (returns RetWait (set_ptr Null s))
  | CDtor1 => Next (at_c (CDtor2 (g_ptr s)) s)
  | CDtor2 p => use p s (fun _ b => if b then Next (at_c CDtor3 s) else Blocked)
  | CDtor3 => use (g_ptr s) s (fun n _ => Next (at_c CDtor4 (set_notifs (upd (g_notifs s) n Deleted) s)))
  | CDtor4 => Next (kill s)
  | CGone => Blocked
  end.

(** A schedule: who tries to step next. *)
Inductive move := C (o : op) | T (i : nat) (req : option reason).
Definition step (mv : move) (s : state) : result :=
  match mv with
  | C o => cstep o s
  | T i req => match nth_error (g_threads s) i with Some t => tstep i t req s | None => Blocked end
  end.
(** Follow a schedule; steps that cannot be taken are skipped. *)
Fixpoint exec (ms : list move) (s : state) : state + fault :=
  match ms with
  | [] => inl s
  | mv :: ms => match step mv s with
                | Next s' => exec ms s'
                | Blocked => exec ms s
                | Fault f => inr f
                end
  end.
