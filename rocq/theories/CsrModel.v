(** * The csr instructions of the V1 core

    coralnpu_base.isa 247-318 (slot zicsr) names mpact-riscv's semantic functions
    RiscVZiCsrrw, RiscVZiCsrrs, RiscVZiCsrrc, RiscVZiCsrrwNr and RiscVZiCsrrNw; their
    operands come from coralnpu_encoding.cc 138-153 and 299-303.  The functions are
    outside /repo and modelled by their contract: the csr with the number in the csr
    source is looked up; if there is none, or it may not be used in this way, Trap with
    code 2 (illegal instruction) is called and nothing else done; otherwise the old
    value is read and goes to rd and the csr is written, set or cleared.  The destination
    named csr is a register of its own that nothing reads; it is left out.

    The csrs themselves are in mpact-riscv and in CoralNPUState (coralnpu_state.cc
    37-80): parameters.  Reading a csr may change the state. *)
From Coq Require Import ZArith List Bool String.
From Verif Require Import CInt DecodeTypes DecodeModel V2DecTypes V2DecModel V1ScalModel TopModel MachModel.
Import ListNotations.
Open Scope string_scope.
Open Scope Z_scope.

Inductive csr_fn := CWrite | CSet | CClear | CRead | CWriteOnly.
Definition csr_fns : list (string * csr_fn) := [
  ("RV32::RiscVZiCsrrw", CWrite); ("RV32::RiscVZiCsrrs", CSet); ("RV32::RiscVZiCsrrc", CClear);
  ("RV32::RiscVZiCsrrNw", CRead); ("RV32::RiscVZiCsrrwNr", CWriteOnly) ].
Definition csr_fn_of (l : list fn2) : option csr_fn :=
  match l with [Fn n []] => DecodeTypes.find n csr_fns | _ => None end.

(** The csr file: may csr [n] be used (and written, if [w])?  Read, write, set, clear. *)
Record csr_file (S : Type) := Csrs {
  c_ok : Z -> bool -> S -> bool;
  c_read : Z -> S -> Z * S;
  c_write : Z -> Z -> S -> S; c_set : Z -> Z -> S -> S; c_clear : Z -> Z -> S -> S }.
Arguments Csrs {S}. Arguments c_ok {S}. Arguments c_read {S}. Arguments c_write {S}. Arguments c_set {S}. Arguments c_clear {S}.

Section Csr.
  Context {S : Type}.
  Notation arch := (arch (C := core S)).
  Variable csrs : csr_file S.
  (** The instructions that remain: ecall, ebreak, the privileged ones, Zbb. *)
  Variable priv : act -> Z -> arch -> (Z -> Z) -> arch * (Z -> Z) * Z * option Z.

  Definition set_sys (f : S) (k : core S) : core S := Core S (k_acc k) (k_dw k) (k_log k) (k_clock k) (k_wrong k) f.
  (** Old value to [r], then [g] on the csrs. *)
  Definition read_modify (n : Z) (r : dopnd) (w : bool) (g : S -> S) (a : Z) (s : arch) (m : Z -> Z) : arch * (Z -> Z) * Z * option Z :=
    let f := k_sys (a_csr s) in
    if c_ok csrs n w f then
      let '(old, f) := c_read csrs n f in
      (with_core (set_sys (g f)) (set_dst r old s), m, next a, None)
    else (s, m, next a, Some 2).
  Definition csr_sys (c : act) (a : Z) (s : arch) (m : Z -> Z) : arch * (Z -> Z) * Z * option Z :=
    let v o := u32 (value1 (a_regs s) o) in
    match csr_fn_of (a_sem c), a_src c, a_dst c with
    | Some CWrite, [p; q], [r; _] => read_modify (v q) r true (c_write csrs (v q) (v p)) a s m
    | Some CSet, [p; q], [r; _] => read_modify (v q) r true (c_set csrs (v q) (v p)) a s m
    | Some CClear, [p; q], [r; _] => read_modify (v q) r true (c_clear csrs (v q) (v p)) a s m
    | Some CRead, [q], [r] => read_modify (v q) r false (fun f => f) a s m
    | Some CWriteOnly, [p; q], [_] =>
        let f := k_sys (a_csr s) in
        if c_ok csrs (v q) true f then (with_core (set_sys (c_write csrs (v q) (v p) f)) s, m, next a, None)
        else (s, m, next a, Some 2)
    | _, _, _ => priv c a s m
    end.
End Csr.
