(** * Specification of the Renode interface *)
From Coq Require Import ZArith List Bool.
From Verif Require Import CInt RenodeModel.
Import ListNotations.
Open Scope Z_scope.

Section Spec.
  Context {Dbg File Blocks : Type}.
  Notation call := (call File Blocks).
  Definition is_construct (k : call) : bool := match k with Construct _ _ => true | _ => false end.
  (** The instance a call is about. *)
  Definition target (k : call) : option Z :=
    match k with
    | Construct _ _ => None
    | Destroy i | Reset i | RegInfoSize i | RegInfo i _ _ _ | LoadExecutable i _ _ | LoadImage i _ _
    | ReadReg i _ _ | WriteReg i _ _ | ReadMem i _ _ | WriteMem i _ _ | Step i _ _ | Halt i _ => Some i
    end.
  (** Constructions and the calls about instance [j]. *)
  Definition keeps (j : Z) (k : call) : bool :=
    match target k with None => true | Some i => i mod 2 ^ 32 =? j mod 2 ^ 32 end.
  (** The documented answer to a call about an unknown instance. *)
  Definition rejected (k : call) (r : result) : Prop :=
    r_data r = [] /\ r_info r = None /\
    match k with
    | Construct _ _ => False
    | ReadMem _ _ _ | WriteMem _ _ _ => r_ret r = 0
    | LoadExecutable _ _ st | Step _ _ st => r_ret r = 0 /\ r_status r = if st then Some (-1) else None
    | _ => r_ret r = -1
    end.
  (** The object behind an id. *)
  Definition object (a : @agent Dbg) (id : Z) : option Dbg := a_inst a (id mod 2 ^ 32).

  (** The simulator never claims more instructions than it was asked for. *)
  Definition step_contract (o : ops Dbg File Blocks) : Prop :=
    forall c d e d', d_step o c d = (Some e, d') -> 0 < c -> 0 <= e <= c.
  (** A sequence of Step calls with their answers takes [d] to [d']. *)
  Inductive replays (o : ops Dbg File Blocks) : Dbg -> list (Z * option Z) -> Dbg -> Prop :=
  | rp_nil d : replays o d [] d
  | rp_cons d c ans d1 tr d' : d_step o c d = (ans, d1) -> replays o d1 tr d' -> replays o d ((c, ans) :: tr) d'.
End Spec.
Definition asked (tr : list (Z * option Z)) : Z := fold_right (fun p s => fst p + s) 0 tr.
Definition executed (tr : list (Z * option Z)) : Z :=
  fold_right (fun p s => match snd p with Some e => e | None => 0 end + s) 0 tr.
(** The simulator did what it was asked and did not stop for a reason Renode
    has to know. *)
Definition goes_on (c : Z * option Z) (r : option hreason) : Prop :=
  snd c = Some (fst c) /\ (r = Some HNone \/ exists n, r = Some (HOther n)).
(** Status after the last Step call: -1 aborted, 3 breakpoint, 0 ok. *)
Definition step_status (ans : option Z) (r : option hreason) : Z :=
  match ans, r with
  | None, _ | _, None => -1
  | _, Some HSemihost | _, Some HAbort => -1
  | _, Some HSwBreakpoint | _, Some HHwBreakpoint => 3
  | _, Some HUserRequest | _, Some HNone | _, Some (HOther _) => 0
  end.
(** Status after a successful halt, for the reasons that have one. *)
Definition halt_status (r : hreason) : option Z :=
  match r with
  | HSemihost | HAbort => Some (-1)
  | HSwBreakpoint => Some 3
  | HUserRequest => Some 1
  | HNone => Some 0
  | HHwBreakpoint | HOther _ => None
  end.
(** A C string at the start of a buffer of [n] bytes. *)
Definition holds_string (buf s : list Z) (n : Z) : Prop :=
  Z.of_nat (length buf) = n /\ firstn (length s) buf = s /\ nth_error buf (length s) = Some 0 /\ ~ In 0 s.
