(** * Specification of the counters of executed opcodes *)
From Coq Require Import ZArith List Bool String.
From Verif Require Import CInt TopModel TopSpec TallyModel.
Import ListNotations.
Open Scope Z_scope.
Open Scope list_scope.

(** How many of the words [l] have the opcode [n]. *)
Definition of_opcode (op : Z -> string) (n : string) (l : list Z) : Z :=
  Z.of_nat (length (filter (fun w => String.eqb (op w) n) l)).
(** The sum of the counters [names]. *)
Definition total (q : tally) (names : list string) : Z := fold_right (fun n z => q n + z) 0 names.

Section Spec.
  Context {C : Type}.
  Variable exec : Z -> Z -> arch (C := C) -> (Z -> Z) -> effect (C := C).
  Variable evicted : Z -> Z -> bool.
  Variable reg_id : string -> option Z.
  Variable reg_size : Z -> Z.
  Variable csr_id : string -> option Z.
  Variable csr_get : Z -> C -> Z.
  Variable csr_set : Z -> Z -> C -> C.
  Variable op : Z -> string.
  (** The first [k] instructions of the program in [m]. *)
  Definition words (m : mach (C := C)) (k : nat) : list Z := map (fun i => word_at (ref exec i m)) (seq 0 k).
  (** As [follows] of TopSpec.v: the program without breakpoints under the same calls;
      [l] lists the instructions it executes. *)
  Inductive ran : mach (C := C) -> list (call * ret) -> list Z -> mach (C := C) -> Prop :=
  | RNil m : ran m [] [] m
  | RGo m c r n h l m' : goes c = true -> ran (ref exec n m) h l m' -> ran m ((c, r) :: h) (words m n ++ l) m'
  | RPoke m c r h l m' : goes c = false -> ran (poke reg_id reg_size csr_id csr_set c m) h l m' -> ran m ((c, r) :: h) l m'.
  (** A sequence of calls, each of which finishes and satisfies [P], and what it does to
      the counters. *)
  Inductive q_history (P : call -> top (C := C) -> Prop) : tally -> top (C := C) -> list (call * ret) -> tally -> top (C := C) -> Prop :=
  | QNil q s : q_history P q s [] q s
  | QCons q s c r q1 s1 h q2 s2 : P c s ->
      q_call exec evicted reg_id reg_size csr_id csr_get csr_set op c q s = (q1, Some (Ok (r, s1))) ->
      q_history P q1 s1 h q2 s2 -> q_history P q s ((c, r) :: h) q2 s2.
End Spec.
