(** * Specification of semihosting *)
From Coq Require Import ZArith List Bool String.
From Verif Require Import CInt TopModel TopSpec HostModel.
Import ListNotations.
Open Scope Z_scope.
Open Scope list_scope.

(** slli x0, x0, 31 and srai x0, x0, 7, in the fields of the RISC-V manual: immediate,
    rs1, funct3, rd, opcode. *)
Definition i_type (imm rs1 funct3 rd opcode : Z) : Z := imm * 2 ^ 20 + rs1 * 2 ^ 15 + funct3 * 2 ^ 12 + rd * 2 ^ 7 + opcode.
Definition mark_before : Z := i_type 31 0 1 0 0x13.
Definition mark_behind : Z := i_type (0x400 + 7) 0 5 0 0x13.

Section Spec.
  Context {C H : Type}.
  Variable exec : Z -> Z -> arch (C := C) -> (Z -> Z) -> effect (C := C).
  Variable evicted : Z -> Z -> bool.
  Variable reg_id : string -> option Z.
  Variable reg_size : Z -> Z.
  Variable csr_id : string -> option Z.
  Variable csr_get : Z -> C -> Z.
  Variable csr_set : Z -> Z -> C -> C.
  Variable use : bool.
  Variable serve : H -> arch (C := C) -> (Z -> Z) -> served C H.
  Notation mach := (mach (C := C)).
  Notation host := (host H).

  (** The instruction at [a] stands between the marks. *)
  Definition marked (mem : Z -> Z) (a : Z) : Prop :=
    load32 mem ((a - 4) mod 2 ^ 64) = mark_before /\ load32 mem ((a + 4) mod 2 ^ 64) = mark_behind.
  (** The next instruction of [m] is a semihosting call. *)
  Definition is_call (m : mach) : Prop := use = true /\ word_at m = ebreak /\ marked (m_mem m) (m_pc m).
  (** One instruction of the program with its host; the halt it asks for.  A
      semihosting call is served; everything else is as without semihosting. *)
  Definition one (x : mach * host) (r : option reason) (y : mach * host) : Prop :=
    (is_call (fst x) /\
     let v := serve (h_state (snd x)) (m_arch (fst x)) (m_mem (fst x)) in
     y = (Mach ((m_pc (fst x) + 4) mod 2 ^ 32) (v_arch v) (v_mem v), Host _ (h_calls (snd x) + 1) (v_state v)) /\
     r = if v_exit v then Some RSemihost else None) \/
    (~ is_call (fst x) /\ y = (ref_step exec (fst x), snd x) /\ r = ref_halt exec (fst x)).
  (** [t] lists the states of the first [k] instructions of the program started in
      [x], of which none before the last asks for a halt; [r] is what the last asks for. *)
  Inductive path (x : mach * host) : list (mach * host) -> option reason -> mach * host -> Prop :=
  | PStart : path x [] None x
  | PNext t y r z : path x t None y -> one y r z -> path x (t ++ [y]) r z.
  (** The program does not change an instruction between two executions of it, leaves
      32-bit pcs and does not ask for the debugger's own halts. *)
  Definition plain (x : mach * host) : Prop :=
    (forall t y, path x t None y -> forall z, In z t -> m_pc (fst z) = m_pc (fst y) -> word_at (fst z) = word_at (fst y)) /\
    (forall t r y, path x t r y -> t <> [] -> 0 <= m_pc (fst y) < 2 ^ 32 /\ r <> Some RActionPoint /\ r <> Some RSwBreakpoint).
  (** A sequence of calls, each of which finishes and satisfies [P], and the host. *)
  Inductive h_history (P : call -> top (C := C) -> Prop) : host -> top (C := C) -> list (call * ret) -> host -> top (C := C) -> Prop :=
  | HNil h s : h_history P h s [] h s
  | HCons h s c r h1 s1 l h2 s2 : P c s ->
      h_call exec evicted reg_id reg_size csr_id csr_get csr_set use serve c h s = (h1, Some (Ok (r, s1))) ->
      h_history P h1 s1 l h2 s2 -> h_history P h s ((c, r) :: l) h2 s2.
End Spec.
