(** * Specification of what a V1 run prints *)
From Coq Require Import ZArith List Bool String.
From Verif Require Import CInt MemModel LogModel LogSpec DecodeTypes V2DecTypes V1ScalModel.
From Verif Require Import TopModel TopSpec CliModel MachModel ConsModel.
Import ListNotations.
Open Scope Z_scope.
Open Scope list_scope.

(** ** Messages *)
(** Why a program ended: it called mpause, it hit an ebreak, or the instruction at
    [a], disassembled as [t], was refused or reached beyond memory. *)
Inductive cause := Proper | Abort | Illegal (a : Z) | BadLoad (a : Z) (t : list Z) | BadStore (a : Z) (t : list Z).
(** The line that tells it. *)
Definition tells (p : print) (x : cause) : Prop :=
  match x with
  | Proper => p = (SOut, chars "Program exits properly" ++ [10])
  | Abort => p = (SOut, chars "Program exits with fault" ++ [10])
  | Illegal a => exists h, numeral 16 a h /\ p = (SErr, chars "Illegal instruction at 0x" ++ h ++ [10])
  | BadLoad a t => exists h, numeral 16 a h /\ p = (SErr, chars "Memory load access fault at 0x" ++ h ++ chars " as: " ++ t ++ [10])
  | BadStore a t => exists h, numeral 16 a h /\ p = (SErr, chars "Memory store access fault at 0x" ++ h ++ chars " as: " ++ t ++ [10])
  end.
(** The cause is the word [w] at [a]; [dis] is the disassembler. *)
Definition blames (dis : Z -> Z -> list Z) (w a : Z) (x : cause) : Prop :=
  match x with
  | Proper => w mod 2 ^ 32 = 0x08000073
  | Abort => w = 0x00100073
  | Illegal b => b = a
  | BadLoad b t | BadStore b t => b = a /\ t = dis w a
  end.
(** The text on one of the streams. *)
Definition on_out (l : list print) : list Z := flat_map (fun p => match fst p with SOut => snd p | SErr => [] end) l.
(** The log of the program: texts on standard output, and complaints. *)
Definition logged (l : list print) (t : list Z) : Prop :=
  on_out l = t /\ Forall (fun p => fst p = SErr -> p = (SErr, chars "incorrect format" ++ [10])) l.

(** A conversion that can print the argument, and the number of those in a format that cannot. *)
Definition suits (k : Z) (a : larg) : Prop :=
  match a with AInt _ => In k (chars "udx") | AStr _ => k = 115 end.
Inductive misses : list Z -> list larg -> nat -> Prop :=
| mi_end args : misses [] args 0
| mi_char c f args n : c <> 37 -> misses f args n -> misses (c :: f) args n
| mi_good k f a args n : suits k a -> misses f args n -> misses (37 :: k :: f) (a :: args) n
| mi_bad k f a args n : ~ suits k a -> misses f args n -> misses (37 :: k :: f) (a :: args) (S n).

(** ** Runs *)
Section Runs.
  Context {C : Type}.
  Variable exec : Z -> Z -> arch (C := C) -> (Z -> Z) -> effect (C := C).
  Variable says : Z -> Z -> arch (C := C) -> (Z -> Z) -> list print.
  (** What the instruction at a state's pc prints. *)
  Definition m_says (m : mach (C := C)) : list print :=
    if word_at m =? 0x00100073 then [(SOut, chars "Program exits with fault" ++ [10])]
    else says (word_at m) (m_pc m) (m_arch m) (m_mem m).
  (** What the first [n] instructions print, in order. *)
  Definition said (m : mach (C := C)) (n : nat) : list print := flat_map (fun i => m_says (ref exec i m)) (seq 0 n).
End Runs.

(** The system instructions leave the log and the model's mark alone (contract). *)
Definition sys_silent {S} (sys : act -> Z -> arch (C := core S) -> (Z -> Z) -> arch (C := core S) * (Z -> Z) * Z * option Z) : Prop :=
  forall c a s m, let s' := fst (fst (fst (sys c a s m))) in
  k_log (a_csr s') = k_log (a_csr s) /\ k_wrong (a_csr s') = k_wrong (a_csr s).
(** No word of Zbb is an mpause (contract). *)
Definition zbb_runs (zbb : Z -> option act) : Prop := forall w c, zbb w = Some c -> act_kind c <> KMpause.
