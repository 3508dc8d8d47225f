(** * Specification of co-simulation sessions: queries and defaults *)
From Coq Require Import ZArith List Bool.
From Verif Require Import CInt CosimModel.
Import ListNotations.
Open Scope Z_scope.

Section Spec.
  Context {Name : Type}.
  Notation call := (call Name).
  Definition is_config (k : call) : bool := match k with Config _ (Some _) => true | _ => false end.
  (** Calls that only ask. *)
  Definition asks (k : call) : bool := match k with IsHalted _ | GetVec _ _ _ | GetReg _ _ _ => true | _ => false end.
  (** What remains visible when the queries of a session are left out: the calls, and
      of the results those of the calls. *)
  Definition acting (ks : list call) : list call := filter (fun k => negb (asks k)) ks.
  Fixpoint results_of (ks : list call) (rs : list result) : list result :=
    match ks, rs with
    | k :: ks, r :: rs => if asks k then results_of ks rs else r :: results_of ks rs
    | _, _ => []
    end.
  (** What a call leaves in the caller's variable: one 32-bit value, 0 if the call
      fails; a vector register only if it succeeds and within the room given; other
      calls have none. *)
  Definition outputs_ok (k : call) (r : result) : Prop :=
    match k with
    | GetReg _ (Some _) true => exists v, r_out r = [v] /\ 0 <= v < 2 ^ 32 /\ (r_ret r <> 0 -> v = 0)
    | GetVec _ _ cap => (r_ret r = 0 /\ exists n, cap = Some n /\ (length (r_out r) <= n)%nat) \/ r_out r = []
    | _ => r_out r = []
    end.
End Spec.
(** ITCM of 8 KiB at 0, DTCM of 32 KiB at 0x10000, RV32 with the letters F, I, M, V. *)
Definition misa_of (letters : list Z) : Z := fold_left (fun v l => v + 2 ^ (l - 65)) letters (2 ^ 30).
Definition usual : simcfg := SC (0, 8 * 1024) (misa_of [70; 73; 77; 86]) (64 * 1024, 32 * 1024).
