(** * Specification of what every program keeps *)
From Coq Require Import ZArith List Bool String.
From Verif Require Import CInt VecModel ConvModel ConvSpec DecodeTypes DecodeModel V2DecTypes V2DecModel TopModel TopSpec MachModel MachSpec.
Import ListNotations.
Open Scope Z_scope.

Section Spec.
  Context {S : Type}.
  Notation arch := (arch (C := core S)).
  (** A state the hardware could be in: scalar registers have 32 bits, vector registers
      256, accumulators 32, memory cells 8. *)
  Definition sized (s : arch) (m : Z -> Z) : Prop :=
    (forall r, r < 64 -> 0 <= a_regs s r < 2 ^ 32) /\
    (forall r, 0 <= r -> 0 <= a_regs s (64 + r) < 2 ^ 256) /\
    acc_wf (k_acc (a_csr s)) /\
    match k_dw (a_csr s) with Some x => dw_wf x | None => True end /\
    (forall x, 0 <= m x < 256).
  (** Memory differs at most inside the simulated memory and the [n] bytes behind it. *)
  Definition confined (n : Z) (m m' : Z -> Z) : Prop := forall x, x < 0 \/ top_address + n <= x -> m' x = m x.
  (** What is asked of the instructions that are not modelled (csr, fence, ecall and
      privileged ones, Zbb) and of uninitialised buffers. *)
  Definition sys_ok (sys : act -> Z -> arch -> (Z -> Z) -> arch * (Z -> Z) * Z * option Z) : Prop :=
    forall c a s m, let '(s', m', a', _) := sys c a s m in
      0 <= a' < 2 ^ 32 /\ confined 3 m m' /\ (sized s m -> sized s' m').
  (** ... and that they are defined. *)
  Definition sys_defined (sys : act -> Z -> arch -> (Z -> Z) -> arch * (Z -> Z) * Z * option Z) : Prop :=
    forall c a s m, k_wrong (a_csr (fst (fst (fst (sys c a s m))))) = k_wrong (a_csr s).
  Definition junk_ok (junk : Z -> Z -> vbytes) : Prop := forall t r j, 0 <= j < 32 -> 0 <= junk t r j < 256.
End Spec.

(** ** Undefined behaviour
    Instructions with operands for which the simulator is undefined or stops: the shifts
    of words by -2^31 (C07), the depthwise convolutions (C18, C20), printing (C41, C42),
    and accumulator moves in another encoding than the assembler's (C31). *)
Definition risky_names : list string := [
  "vsha_w_vv"; "vsha_w_vx"; "vsha_w_vv_m"; "vsha_w_vx_m"; "vsha_w_r_vv"; "vsha_w_r_vx"; "vsha_w_r_vv_m"; "vsha_w_r_vx_m";
  "vshl_w_vv"; "vshl_w_vx"; "vshl_w_vv_m"; "vshl_w_vx_m"; "vshl_w_r_vv"; "vshl_w_r_vx"; "vshl_w_r_vv_m"; "vshl_w_r_vx_m";
  "adwconv_vxv"; "vdwconv_vxv"; "flog"; "klog"]%string.
Definition risky (d : decoder) (w : Z) : Prop :=
  exists e, parse d w = Some e /\
    (In (e_name e) risky_names \/ (In (e_name e) ["acset"; "actr"; "adwinit"]%string /\ w mod 32 <> 6)).
