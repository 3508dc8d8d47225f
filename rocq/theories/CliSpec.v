(** * Specification of the command-line simulators *)
From Coq Require Import ZArith List Bool String.
From Verif Require Import CInt LogSpec TopModel TopSpec CliModel.
Import ListNotations.
Open Scope Z_scope.
Open Scope list_scope.

Section Spec.
  Context {C : Type}.
  Variable exec : Z -> Z -> arch (C := C) -> (Z -> Z) -> effect (C := C).
  Notation ref := (ref exec).
  Notation ref_halt := (ref_halt exec).
  (** Instruction [k] of the program started in [m] is reached. *)
  Definition reached (m : mach (C := C)) (k : nat) : Prop := forall i, (i < k)%nat -> ref_halt (ref i m) = None.
  (** The program does not change an instruction between two executions of it. *)
  Definition unmodified (m : mach (C := C)) : Prop :=
    forall i j, (i <= j)%nat -> reached m j -> m_pc (ref i m) = m_pc (ref j m) ->
    word_at (ref i m) = word_at (ref j m).
  (** Instructions leave a 32-bit pc and do not raise the debugger's own halts. *)
  Definition regular (m : mach (C := C)) : Prop :=
    forall k, reached m k -> 0 <= m_pc (ref (S k) m) < 2 ^ 32 /\
      (forall r, ref_halt (ref k m) = Some r -> r <> RActionPoint /\ r <> RSwBreakpoint).
  (** The program started in [m] halts with its [n]th instruction, for reason [r]. *)
  Definition halts_at (m : mach (C := C)) (n : nat) (r : reason) : Prop :=
    (0 < n)%nat /\ reached m (n - 1) /\ ref_halt (ref (n - 1) m) = Some r.

  (** What a finished batch job shows: the program that starts at [entry] with the
      memory [mem], run to its first halt. *)
  Definition batch (boot : arch (C := C)) (entry : Z) (mem : Z -> Z) (secs : list Z)
      (fuel : nat) (log : list message) (e : ending (C := C)) : Prop :=
    let m := Mach entry boot mem in
    match e with
    | Finished log' out s =>
        exists n r d, (n <= fuel)%nat /\ halts_at m n r /\ log' = log /\
          t_pc s = m_pc (ref n m) /\ t_arch s = m_arch (ref n m) /\ t_mem s = m_mem (ref n m) /\
          t_status s = Halted /\ t_reason s = r /\ t_insts s = Z.of_nat n /\
          numeral 10 (Z.of_nat n mod 2 ^ 64) d /\
          out = chars "Starting simulation" ++ [10] ++ chars "Total cycles: " ++ d ++ [10] ++
                chars "Simulation done: " ++ secs ++ chars " sec" ++ [10]
    | StillRunning log' => log' = log /\ reached m fuel
    | _ => False
    end.
  (** The shell is started in that program's first state. *)
  Definition at_start (boot : arch (C := C)) (entry : Z) (mem : Z -> Z) (s : top (C := C)) : Prop :=
    t_pc s = entry /\ t_arch s = boot /\ t_mem s = mem /\ t_status s = Halted /\ t_bps s = [] /\ t_insts s = 0.
End Spec.

(** The first four bytes of an ELF file. *)
Definition elf_magic (l : list Z) : Prop := exists r, l = [0x7f; 0x45; 0x4c; 0x46] ++ r.

(** The text of a command: [word] and "info" separated by white space. *)
Definition blank (l : list Z) : Prop := Forall (fun c => In c [9; 10; 12; 13; 32]) l.
Definition says (word : string) (input : list Z) : Prop :=
  exists a b c, blank a /\ blank b /\ b <> [] /\ blank c /\
    input = a ++ chars word ++ b ++ chars "info" ++ c.
(** Eight or more hexadecimal digits. *)
Definition hex_text (v : Z) (t : list Z) : Prop := positional 16 t v /\ (8 <= length t)%nat.
(** The line of a register. *)
Definition line_of (name : string) (body t : list Z) : Prop :=
  t = chars name ++ [9] ++ chars " = [" ++ body ++ chars "]" ++ [10].
(** Eight 32-bit words, lowest first, as one number. *)
Definition of_words (l : list Z) : Z := fold_right (fun w acc => w + 2 ^ 32 * acc) 0 l.
(** Hexadecimal numbers separated by colons. *)
Inductive colon_words : list Z -> list Z -> Prop :=
| cw_one w t : hex_text w t -> length t = 8%nat -> colon_words [w] t
| cw_more w t l r : hex_text w t -> length t = 8%nat -> colon_words l r -> colon_words (w :: l) (t ++ [58] ++ r).
(** Lines for the numbers below [n] for which there is one. *)
Inductive listing (P : nat -> list Z -> Prop) (skipped : nat -> Prop) : nat -> list Z -> Prop :=
| li_nil : listing P skipped 0 []
| li_line n t l : listing P skipped n t -> P n l -> listing P skipped (S n) (t ++ l)
| li_skip n t : listing P skipped n t -> skipped n -> listing P skipped (S n) t.
(** [p] followed by the decimal numeral of [k]. *)
Definition named (p : string) (k : nat) (n : string) : Prop := exists d, chars n = chars p ++ d /\ numeral 10 (Z.of_nat k) d.
(** The name the RISC-V calling convention gives register [i]. *)
Definition abi (i : nat) (n : string) : Prop :=
  In (i, n) [(0%nat, "zero"); (1%nat, "ra"); (2%nat, "sp"); (3%nat, "gp"); (4%nat, "tp")]%string \/
  exists k, (named "t" k n /\ (i = 5 + k /\ k < 3 \/ i = 25 + k /\ 3 <= k <= 6)%nat) \/
            (named "s" k n /\ (i = 8 + k /\ k < 2 \/ i = 16 + k /\ 2 <= k <= 11)%nat) \/
            (named "a" k n /\ (i = 10 + k /\ k < 8)%nat).
