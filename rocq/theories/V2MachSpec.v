(** * What the V2 core must do: RV32IM, and staying within its ranges *)
From Coq Require Import ZArith List Bool String.
From Verif Require Import CInt V2DecTypes V2DecModel V2DecSpec V2Model V2Spec TopModel V2MachModel.
Import ListNotations.
Open Scope string_scope.
Open Scope Z_scope.

(** The little-endian word at an address. *)
Definition word_in (m : Z -> Z) (a : Z) : Z := m a + 2 ^ 8 * m (a + 1) + 2 ^ 16 * m (a + 2) + 2 ^ 24 * m (a + 3).
(** An instruction memory C45 is about, and an address inside. *)
Definition itcm_ok (start len : Z) : Prop := 0 <= start /\ 0 <= len /\ 4 <= start + len < 2 ^ 32.
Definition inside (start len a : Z) : Prop := start <= a /\ a + 4 <= start + len.
(** Words of an instruction of the manual that are decoded as such (C57). *)
Definition proper2 (m : ment) (w : Z) : Prop :=
  In m manual /\ meets_pat w (m_pat m) /\ forall p, In p holes -> ~ meets_pat w p.
(** Not a vector load or store: the major opcodes 7 and 39 are flw and fsw only. *)
Definition plain (w : Z) : Prop := at_ w 0 7 = 7 \/ at_ w 0 7 = 39 -> at_ w 12 3 = 2.
Definition in_ranges (ranges : list range) (b : Z) : Prop := exists s l, In (s, l) ranges /\ s <= b < s + l.
(** Trap [code] at the instruction: csrs and pc as the trap says, nothing else. *)
Definition traps {C : Type} (trap : Z -> Z -> C -> C * Z) (code : Z) (s t : v2st C) : Prop :=
  v_mem t = v_mem s /\ a_regs (v_arch t) = a_regs (v_arch s) /\
  exists p, trap code (v_pc s) (a_csr (v_arch s)) = (a_csr (v_arch t), p) /\ v_pc t = p mod 2 ^ 32.
(** The next instruction follows, with the same csrs. *)
Definition goes_on {C : Type} (s t : v2st C) : Prop :=
  v_pc t = (v_pc s + 4) mod 2 ^ 32 /\ a_csr (v_arch t) = a_csr (v_arch s).
