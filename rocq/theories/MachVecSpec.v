(** * Specification of the remaining vector instructions on the V1 machine *)
From Coq Require Import ZArith List Bool String.
From Verif Require Import CInt VecModel VecSpec ConvModel ConvSpec DecodeTypes DecodeModel DecodeSpec.
From Verif Require Import TopModel MachModel MachSpec.
Import ListNotations.
Open Scope Z_scope.

Section Spec.
  Context {S : Type}.
  Notation arch := (arch (C := core S)).
  Notation effect := (effect (C := core S)).
  (** The run goes on behind the instruction at [a]; memory, the log, definedness and
      what is not modelled are as before. *)
  Definition goes_on (a : Z) (s : arch) (m : Z -> Z) (f : effect) : Prop :=
    f_mem f = m /\ f_pc f = (a + 4) mod 2 ^ 32 /\ f_halt f = None /\
    k_log (a_csr (f_arch f)) = k_log (a_csr s) /\ k_wrong (a_csr (f_arch f)) = k_wrong (a_csr s) /\
    k_sys (a_csr (f_arch f)) = k_sys (a_csr s).
  Definition same_x (s : arch) (f : effect) : Prop := forall i, i < 64 -> a_regs (f_arch f) i = a_regs s i.
  Definition same_acc (s : arch) (f : effect) : Prop := k_acc (a_csr (f_arch f)) = k_acc (a_csr s).
  Definition same_dw (s : arch) (f : effect) : Prop := k_dw (a_csr (f_arch f)) = k_dw (a_csr s).
  (** Vector registers but the [n] from [vd]. *)
  Definition same_v (s : arch) (f : effect) (vd n : Z) : Prop :=
    forall r j, 0 <= r -> ~ (vd <= r < vd + n) -> 0 <= j < 32 -> vbyte (f_arch f) r j = vbyte s r j.
  (** An instruction that writes only the [n] vector registers from [vd]. *)
  Definition writes_v (a : Z) (s : arch) (m : Z -> Z) (f : effect) (vd n : Z) : Prop :=
    goes_on a s m f /\ same_x s f /\ same_acc s f /\ same_dw s f /\ same_v s f vd n.
  (** The second operand a word names. *)
  Definition src2 (w : Z) (s : arch) : src :=
    if w_form w =? 2 then SScal (a_regs s (f_xs2 w)) else SVec (f_vs2 w) (nops (w_m w)).
  (** Destination register of a scalar word; writes to x0 are dropped. *)
  Definition f_rd (w : Z) : Z := (w / 2 ^ 7) mod 32.
End Spec.
