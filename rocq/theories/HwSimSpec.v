(** * Specification of the mailbox simulator *)
From Verif Require Import CInt HwSimModel.
Import ListNotations.

Section Spec.
  Context {Core : Type} (pc : Core -> Z) (step1 : Core -> (Z -> Z) -> bool * Core * (Z -> Z)).

  (** Core and memory after [n] instructions, all of which succeeded. *)
  Fixpoint steps (n : nat) (c : Core) (m : Z -> Z) : option (Core * (Z -> Z)) :=
    match n with
    | O => Some (c, m)
    | S n => match steps n c m with
             | Some (c, m) => let '(ok, c, m) := step1 c m in if ok then Some (c, m) else None
             | None => None
             end
    end.
  (** The pc has left 0..0x1FFF or the next word is mpause or wfi. *)
  Definition final (c : Core) (m : Z -> Z) : Prop :=
    let p := pc c mod 2 ^ 32 in
    0x1FFF < p \/
    (m p = 0x73 /\ m (p + 1) = 0 /\ m (p + 2) = 0 /\ m (p + 3) = 0x08) \/       (* mpause *)
    (m p = 0x73 /\ m (p + 1) = 0 /\ m (p + 2) = 0x50 /\ m (p + 3) = 0x10).       (* wfi *)
  (** The first point after at least one instruction that is final. *)
  Definition first_final (n : nat) (c : Core) (m : Z -> Z) : Prop :=
    (1 <= n)%nat /\
    (exists c' m', steps n c m = Some (c', m') /\ final c' m') /\
    forall k, (1 <= k < n)%nat -> exists c' m', steps k c m = Some (c', m') /\ ~ final c' m'.
  (** Two memories agree on the mailbox. *)
  Definition same_box (m m' : Z -> Z) : Prop := forall a, addr_mailbox <= a < addr_mailbox + 16 -> m' a = m a.
  (** Calls that are not writes to the mailbox. *)
  Definition keeps_box (k : call) : Prop :=
    match k with
    | WriteTCM a l => a + Z.of_nat (length l) <= addr_mailbox \/ addr_mailbox + 16 <= a
    | WriteMailbox _ => False
    | _ => True
    end.
  (** The program about to run never changes the mailbox. *)
  Definition program_quiet (c : Core) (m : Z -> Z) : Prop :=
    forall n c' m', steps n c m = Some (c', m') -> same_box m' (snd (step1 c' m')).
  (** In a sequence of calls, every program that is run is such, and nothing else
      writes the mailbox. *)
  Fixpoint quiet_calls (do : call -> sim Core -> option (outcome (sim Core * answer))) (ks : list call) (s : sim Core) : Prop :=
    match ks with
    | [] => True
    | k :: ks =>
        keeps_box k /\
        match k with WaitForTermination _ => program_quiet (s_core s) (s_mem s) | _ => True end /\
        forall s1 a, do k s = Some (Ok (s1, a)) -> quiet_calls do ks s1
    end.
  Definition is_bytes (m : Z -> Z) : Prop := forall a, 0 <= m a < 256.
End Spec.
