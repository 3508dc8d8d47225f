(** * Specification of Run, Halt and Wait *)
From Verif Require Import ConcModel.
Import ListNotations.

(** The run of a thread has not ended: it may still execute or look at the
    program, or has not yet said that it halted. *)
Definition active (t : tpc) : Prop :=
  match t with TNotify | TNotify2 _ | TDone => False | _ => True end.
Definition all_done (s : state) : Prop := Forall (fun t => t = TDone) (g_threads s).
Definition no_active (s : state) : Prop := Forall (fun t => ~ active t) (g_threads s).
(** No instruction requests an action-point halt. *)
Definition no_action_points (ms : list move) : Prop := Forall (fun mv => forall i, mv <> T i (Some ActionPoint)) ms.
(** The moves of thread [i] in a schedule. *)
Definition moves_of (i : nat) (ms : list move) : nat :=
  length (filter (fun mv => match mv with T j _ => Nat.eqb i j | C _ => false end) ms).
(** The Run calls that have returned OK. *)
Definition started (s : state) : nat := length (filter (fun e => match e with RetRun b => b | _ => false end) (g_events s)).
(** A client that starts a run, or destroys an object that says it is halted,
    only when the earlier run threads have ended. *)
Fixpoint patient (ms : list move) (s : state) : Prop :=
  match ms with
  | [] => True
  | mv :: ms =>
      (g_cpc s = CIdle -> mv = C Run -> g_status s = Halted -> all_done s) /\
      (g_cpc s = CIdle -> mv = C Destroy -> g_status s = Halted -> all_done s) /\
      match step mv s with Next s' => patient ms s' | Blocked => patient ms s | Fault _ => True end
  end.
