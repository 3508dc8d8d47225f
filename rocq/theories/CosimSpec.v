(** * Specification of the co-simulation interface *)
From Coq Require Import ZArith List Bool.
From Verif Require Import CInt CosimModel.
Import ListNotations.
Open Scope Z_scope.

Section Spec.
  Context {Name : Type}.
  Notation call := (call Name).
  (** Calls whose arguments are complete and that need the simulator proper. *)
  Definition uses_core (k : call) : bool :=
    match k with
    | Config _ (Some _) | Step _ _ | IsHalted _ | GetVec _ (Some _) (Some _)
    | GetReg _ (Some _) true | SetReg _ (Some _) _ => true
    | _ => false
    end.
  (** After a history: is there an instance, and has a call built its simulator? *)
  Definition track (st : bool * bool) (k : call) : bool * bool :=
    let (alive, built) := st in
    match k with
    | Init _ => (true, built)
    | Reset _ => (true, false)
    | Fini _ => (false, false)
    | _ => (alive, built || (alive && uses_core k))
    end.
  Definition history_state (ks : list call) : bool * bool := fold_left track ks (false, false).
  Definition alive (ks : list call) : bool := fst (history_state ks).
  Definition built (ks : list call) : bool := snd (history_state ks).

  (** The documented return value of call [k] after the history [ks], where the
      documentation fixes it. *)
  Definition must_return (ks : list call) (k : call) : option Z :=
    match k with
    | Init _ => Some (if alive ks then -1 else 0)
    | Fini _ => Some (if alive ks then 0 else -1)
    | Reset _ => Some 0
    | Config _ c => Some (if alive ks then match c with Some _ => 0 | None => -2 end else -1)
    | Load _ None => Some (-1)
    | Load _ (Some _) => None
    | Step _ _ => if alive ks then None else Some (-1)
    | IsHalted _ => Some 0
    | GetVec _ n cap => match cap, n with
                        | None, _ => Some (-1) | _, None => Some (-3)
                        | _, _ => if alive ks then None else Some (-2) end
    | GetReg _ n ptr => match ptr, n with
                        | false, _ => Some (-1) | _, None => Some (-3)
                        | _, _ => if alive ks then None else Some (-2) end
    | SetReg _ n _ => match n with
                      | None => Some (-3) | _ => if alive ks then None else Some (-2) end
    end.
  Definition is_step (k : call) : bool := match k with Step _ _ => true | _ => false end.
  Definition ends_run (k : call) : bool := match k with Reset _ | Fini _ => true | _ => false end.
  (** Calls that cannot end the process whatever the simulator does. *)
  Definition safe (ks : list call) (k : call) : bool :=
    match k with
    | Load _ (Some _) => alive ks
    | Config _ (Some _) => negb (alive ks && built ks)
    | Step _ None => negb (alive ks)
    | GetVec _ (Some _) (Some _) => false      (* depends on the register's size *)
    | _ => true
    end.
  Fixpoint all_safe (ks rest : list call) : bool :=
    match rest with
    | [] => true
    | k :: r => safe ks k && all_safe (ks ++ [k]) r
    end.
End Spec.

(** Lock step: each word is written at the pc, then one instruction executes. *)
Inductive lockstep {Core Mem} (core_pc : Core -> Z) (write_word : Core -> Z -> Z -> Mem -> option Mem)
    (step1 : Core -> Mem -> bool * Core * Mem * bool) : Core -> Mem -> list Z -> Core -> Mem -> Prop :=
| ls_nil c m : lockstep core_pc write_word step1 c m [] c m
| ls_step c m w m1 c1 m2 ws c' m' :
    write_word c (core_pc c mod 2 ^ 32) (w mod 2 ^ 32) m = Some m1 ->
    step1 c m1 = (true, c1, m2, false) ->
    lockstep core_pc write_word step1 c1 m2 ws c' m' ->
    lockstep core_pc write_word step1 c m (w :: ws) c' m'.
