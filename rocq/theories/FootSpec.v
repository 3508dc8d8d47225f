(** * Specification of the memory an instruction of the V1 core touches *)
From Coq Require Import ZArith List Bool String.
From Verif Require Import CInt VecModel ConvModel MemModel MemSpec LogModel DecodeTypes DecodeModel DecodeSpec V2DecTypes V2DecModel V2DecSpec.
From Verif Require Import V1ScalModel V1ScalSpec TopModel TopSpec RvSpec MachSpec MachModel.
Import ListNotations.
Open Scope string_scope.
Open Scope Z_scope.

(** The bytes read of a text at [a]: whole words, up to the one with the terminator.
    A word beyond the end of memory is not read. *)
Definition text_byte (m : Z -> Z) (a x : Z) : Prop :=
  exists k, 0 <= k /\ let b j := (a + 4 * j) mod 2 ^ 32 in
  b k < top_address /\ b k <= x < b k + 4 /\
  forall j, 0 <= j < k -> (j = 0 /\ top_address <= b 0) \/ (b j < top_address /\ forall i, 0 <= i < 4 -> m (b j + i) <> 0).

Section Spec.
  Context {C : Type}.
  Notation arch := (arch (C := C)).
  (** One of the selected elements of a vector access. *)
  Definition element (T : ity) (o : mop) (quad : bool) (x : Z) : Prop := exists e, 0 <= e < nsel T o /\ covers T o quad e x.
  (** The bytes the instruction called [n] may read, by the fields of its word. *)
  Definition loads_from (n : string) (w : Z) (s : arch) (m : Z -> Z) (x : Z) : Prop :=
    (exists T i, lookup n load_specs = Some T /\ value Iimm w (a_regs s) i /\
       let a := (reg_at (a_regs s) w 15 + i) mod 2 ^ 32 in a <= x < a + bits T / 8) \/
    (In n ["flog"; "klog"] /\ text_byte m (reg_at (a_regs s) w 15) x) \/
    (exists T len stride st Tw stw, meaning n = Some (SmLd T len stride st Tw stw) /\ element T (operands w n s len stride false) false x).
  (** The bytes it may write. *)
  Definition stores_to (n : string) (w : Z) (s : arch) (x : Z) : Prop :=
    (exists T i, lookup n store_specs = Some T /\ value Simm w (a_regs s) i /\
       let a := (reg_at (a_regs s) w 15 + i) mod 2 ^ 31 in a <= x < a + bits T / 8) \/
    (exists T len stride st, meaning n = Some (SmSt T len stride st) /\ element T (operands w n s len stride false) false x) \/
    (exists T st, meaning n = Some (SmStq T st) /\ element T (operands w n s false true true) true x).
End Spec.

Section Params.
  Context {S : Type}.
  Notation arch := (arch (C := core S)).
  (** csr, fence, ecall and the privileged instructions do not use memory. *)
  Definition sys_quiet (sys : act -> Z -> arch -> (Z -> Z) -> arch * (Z -> Z) * Z * option Z) : Prop :=
    forall c a s m m', let '(s1, m1, a1, t1) := sys c a s m in let '(s2, _, a2, t2) := sys c a s m' in
      s1 = s2 /\ a1 = a2 /\ t1 = t2 /\ 0 <= a1 < 2 ^ 32 /\ forall x, m1 x = m x.
  (** Nor do those of Zbb. *)
  Definition zbb_quiet (zbb : Z -> option act) : Prop :=
    forall w c, zbb w = Some c -> match act_kind c with KLoad _ | KStore _ | KLog => False | _ => True end.
  (** The next instruction is fetched from the code and does not use the code as data. *)
  Definition leaves_code (d : decoder) (code : Z -> Prop) (m : mach (C := core S)) : Prop :=
    0 <= m_pc m < 2 ^ 32 /\ m_pc m mod 4 = 0 /\ word_in_code code (m_pc m) /\
    a_regs (m_arch m) 0 = 0 /\
    (forall e, parse d (word_at m) = Some e -> In (e_name e) ["flog"; "klog"] -> bytes_ok (m_mem m)) /\
    forall e x, parse d (word_at m) = Some e -> code x ->
      ~ loads_from (e_name e) (word_at m) (m_arch m) (m_mem m) x /\ ~ stores_to (e_name e) (word_at m) (m_arch m) x.
End Params.
