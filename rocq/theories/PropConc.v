(** * Run, Halt and Wait: property C40 *)
From Coq Require Import Lia.
From Verif Require Import ConcModel ConcSpec.
From Verif Require ConcProofs.
Import ListNotations.

(** Whole calls, when nothing comes in between. *)
Definition run_call : list move := repeat (C Run) 5.
Definition halt_call : list move := repeat (C Halt) 3.
(** Thread [i] leaves its loop at a breakpoint, up to the status. *)
Definition to_status (i : nat) : list move :=
  [T i None; T i (Some Breakpoint); T i None; T i None; T i None; T i None].

(** Halt: when it returns, each run thread there is ends after at most seven
    more steps of its own, whatever the other threads do, unless the execution
    faults. Left out: instructions that hit action points. *)
Theorem C40_halt_stops_partial : forall ms s mv s' ms' i,
  exec ms start = inl s -> no_action_points ms ->
  step mv s = Next s' -> g_events s' = RetHalt :: g_events s -> (forall j, mv <> T j (Some ActionPoint)) ->
  i < length (g_threads s') -> no_action_points ms' -> 7 <= moves_of i ms' ->
  match exec ms' s' with inl s'' => nth_error (g_threads s'') i = Some TDone | inr _ => True end.
Proof. exact ConcProofs.halt_stops. Qed.
Print Assumptions C40_halt_stops_partial.
(** The thread is about to execute when Halt is called, and executes one more. *)
Example C40_halt_case : exists s s', exec (run_call ++ [T 0 None] ++ repeat (C Halt) 2) start = inl s /\
  step (C Halt) s = Next s' /\ g_events s' = RetHalt :: g_events s /\ g_threads s' = [TExec] /\
  exec (repeat (T 0 None) 6) s' = inl (at_c CIdle (St Halted true UserRequest (Ptr 0) [Live true] [TDone] CIdle true [RetHalt; RetRun true])).
Proof. do 2 eexists. split; [vm_compute; reflexivity|]. split; [vm_compute; reflexivity|]. vm_compute. repeat split. Qed.

(** Run: in every interleaving there are as many run threads as Run calls that have
    returned OK; a Run is refused only while the status says running, and then
    changes nothing but that it returns. *)
Theorem C40_run : forall ms s, exec ms start = inl s -> length (g_threads s) = started s /\
  forall mv s', step mv s = Next s' -> g_events s' = RetRun false :: g_events s -> g_status s = Running /\ s' = returns (RetRun false) s.
Proof.
  intros ms s E. split; [pose proof (ConcProofs.exec_started _ _ _ E) as H; cbn in H; lia|].
  intros mv s' F. apply (ConcProofs.step_started mv s s' F).
Qed.
Print Assumptions C40_run.
(** Two runs, and one refused in between. *)
Example C40_run_case : exists s, exec (run_call ++ [C Run] ++ to_status 0 ++ [T 0 None; T 0 None] ++ run_call) start = inl s /\
  g_events s = [RetRun true; RetRun false; RetRun true] /\ g_threads s = [TDone; TLoop] /\ started s = 2.
Proof. eexists. split; [vm_compute; reflexivity|]. repeat split. Qed.

(** With a patient client (it starts a run, or destroys an object whose status
    is halted, only when the earlier run threads have ended) nothing faults: in
    particular no Wait uses a deleted notification ... *)
Theorem C40_no_fault_partial : forall ms, patient ms start -> exists s, exec ms start = inl s.
Proof. intros ms P. destruct (ConcProofs.kept_exec ms start ConcProofs.kept_start P) as [s [E _]]. exists s. exact E. Qed.
Print Assumptions C40_no_fault_partial.
(** ... Wait returns only when no run is going on, ... *)
Theorem C40_wait_ended_partial : forall ms s mv s', patient ms start -> exec ms start = inl s ->
  step mv s = Next s' -> g_events s' = RetWait :: g_events s -> no_active s'.
Proof.
  intros ms s mv s' P E S1 Ev. destruct (ConcProofs.kept_exec ms start ConcProofs.kept_start P) as [s1 [E1 K]].
  assert (s1 = s) by congruence. subst s1. exact (ConcProofs.wait_ended mv s s' K S1 Ev).
Qed.
Print Assumptions C40_wait_ended_partial.
(** ... and a waiting Wait (or destructor) can go on once the run thread is done. *)
Theorem C40_wait_returns_partial : forall ms s o p, patient ms start -> exec ms start = inl s ->
  g_cpc s = CWait2 p \/ g_cpc s = CDtor2 p -> all_done s -> exists s', step (C o) s = Next s'.
Proof.
  intros ms s o p P E C D. destruct (ConcProofs.kept_exec ms start ConcProofs.kept_start P) as [s1 [E1 K]].
  assert (s1 = s) by congruence. subst s1. exact (ConcProofs.wait_enabled s o p K C D).
Qed.
Print Assumptions C40_wait_returns_partial.
(** Two runs, each waited for; the first Wait blocks until the thread is done. *)
Definition good_client : list move :=
  run_call ++ [C Wait; C Wait; C Wait] ++ to_status 0 ++ [C Wait; T 0 None; T 0 None] ++ repeat (C Wait) 3 ++
  run_call ++ [T 1 None] ++ halt_call ++ repeat (T 1 None) 6 ++ [C Wait].
Example C40_patient_case : patient good_client start /\
  exists s, exec good_client start = inl s /\ g_events s = [RetWait; RetHalt; RetRun true; RetWait; RetRun true] /\ g_threads s = [TDone; TDone].
Proof.
  split.
  - unfold all_done. vm_compute. repeat split; intros; try discriminate; repeat constructor.
  - eexists. split; [vm_compute; reflexivity|]. split; reflexivity.
Qed.

(** ** What fails otherwise *)
(** A client that calls Run, Wait, Run, Wait. The first thread has set the status
    but not yet notified; its Notify hits the notification of the second run, and
    the second Wait returns while the second run goes on. *)
Definition early : list move :=
  run_call ++ to_status 0 ++ [C Wait] ++ run_call ++ [T 0 None; T 0 None] ++ repeat (C Wait) 5.
Theorem C40_wait_refuted : exists s, exec early start = inl s /\
  g_events s = [RetWait; RetRun true; RetWait; RetRun true] /\ ~ no_active s /\
  g_status s = Running /\ exists s', exec [T 1 None] s = inl s' /\ nth_error (g_threads s') 1 = Some TExec.
Proof.
  eexists. split; [vm_compute; reflexivity|]. split; [reflexivity|]. split.
  - unfold no_active. cbn. intro H. inversion_clear H as [|? ? _ H1]. inversion_clear H1 as [|? ? H2 _]. exact (H2 I).
  - split; [reflexivity|]. eexists. split; vm_compute; reflexivity.
Qed.
Print Assumptions C40_wait_refuted.
(** The same client calling Wait once more waits on no notification at all; and
    the second thread notifies through the null pointer. *)
Theorem C40_wait_pointer_refuted :
  exec (early ++ [C Wait; C Wait; C Wait]) start = inr BadPointer /\
  exec (early ++ to_status 1 ++ [T 1 None; T 1 None]) start = inr BadPointer.
Proof. split; vm_compute; reflexivity. Qed.
Print Assumptions C40_wait_pointer_refuted.
(** Or a notification is notified twice. *)
Theorem C40_double_notify_refuted :
  exec (run_call ++ to_status 0 ++ run_call ++ [T 0 None; T 0 None] ++ to_status 1 ++ [T 1 None; T 1 None]) start = inr DoubleNotify.
Proof. vm_compute. reflexivity. Qed.
Print Assumptions C40_double_notify_refuted.

(** With action points a Halt can be lost: it comes between the test of the
    reason and the reset of the flag. The thread then goes on forever. *)
Definition lost : list move :=
  run_call ++ [T 0 None; T 0 (Some ActionPoint); T 0 None; T 0 None; T 0 None] ++ halt_call ++ [T 0 None; T 0 None; T 0 None].
Theorem C40_halt_lost_refuted : exists s, exec lost start = inl s /\ g_events s = [RetHalt; RetRun true] /\
  forall n, exec (concat (repeat [T 0 None; T 0 None; T 0 None] n)) s = inl s.
Proof.
  eexists. split; [vm_compute; reflexivity|]. split; [reflexivity|].
  induction n as [|n IH]; [reflexivity|]. cbn [repeat concat app]. cbn [exec step nth_error tstep g_threads negb g_alive set_threads upd firstn skipn app g_halted]. exact IH.
Qed.
Print Assumptions C40_halt_lost_refuted.

(** The destructor, called when the status is halted but the thread has not yet
    notified, frees the object under the thread. *)
Theorem C40_destructor_refuted : exec (run_call ++ to_status 0 ++ [C Destroy; C Destroy; T 0 None]) start = inr UseAfterFree.
Proof. vm_compute. reflexivity. Qed.
Print Assumptions C40_destructor_refuted.
(** And it does not request the halt its comment announces: with a program that
    does not end it waits forever. *)
Theorem C40_destructor_waits_refuted : exists s, exec (run_call ++ [T 0 None; C Destroy; C Destroy]) start = inl s /\
  forall n, exec (concat (repeat [T 0 None; T 0 None; T 0 None; C Destroy] n)) s = inl s.
Proof.
  eexists. split; [vm_compute; reflexivity|]. induction n as [|n IH]; [reflexivity|].
  cbn [repeat concat app]. cbn [exec step nth_error tstep g_threads negb g_alive set_threads upd firstn skipn app g_halted cstep g_cpc use g_notifs]. exact IH.
Qed.
Print Assumptions C40_destructor_waits_refuted.

(** The fields are shared without synchronisation: here the next step of the
    controlling thread writes halted_ and the next step of the run thread reads it. *)
Theorem C40_race_refuted : exists s s1, exec (run_call ++ repeat (C Halt) 2) start = inl s /\
  step (C Halt) s = Next s1 /\ g_halted s1 = negb (g_halted s) /\
  exists u v, step (T 0 None) s = Next u /\ step (T 0 None) s1 = Next v /\ g_threads u <> g_threads v.
Proof.
  do 2 eexists. split; [vm_compute; reflexivity|]. split; [vm_compute; reflexivity|]. split; [reflexivity|].
  do 2 eexists. split; [vm_compute; reflexivity|]. split; [vm_compute; reflexivity|]. cbn. discriminate.
Qed.
Print Assumptions C40_race_refuted.
