(** * What a copy loop must do *)
From Coq Require Import ZArith List Bool String.
From Verif Require Import CInt V2Model V2Spec TopModel V2MachModel V2MachSpec.
Import ListNotations.
Open Scope Z_scope.

(** lbu x5, 0(x10); sb x5, 0(x11); addi x10, x10, 1; addi x11, x11, 1;
    addi x12, x12, -1; bne x12, x0, -20. *)
Definition copy_words : list Z := [0x54283; 0x558023; 0x150513; 0x158593; 0xfff60613; 0xfe0616e3].
(** The words at [p], copying [n] bytes from [src] to [dst]. *)
Definition at_copy {C} (p src dst n : Z) (s : v2st C) : Prop :=
  v_pc s = p /\ a_regs (v_arch s) 10 = src /\ a_regs (v_arch s) 11 = dst /\ a_regs (v_arch s) 12 = n /\
  (forall i, (i < 6)%nat -> word_in (v_mem s) (p + 4 * Z.of_nat i) = nth i copy_words 0) /\ forall b, 0 <= v_mem s b < 256.
(** Addresses make sense: no wrap, no program byte is overwritten, no byte is overwritten before it is read. *)
Definition places (p src dst n : Z) : Prop :=
  0 <= src /\ src + n < 2 ^ 32 /\ 0 <= dst /\ dst + n < 2 ^ 32 /\ 0 < n < 2 ^ 32 /\ (dst + n <= p \/ p + 24 <= dst) /\ ~ src < dst < src + n.
(** The first [k] bytes copied, all other bytes as before. *)
Definition copied (m m' : Z -> Z) (src dst k : Z) : Prop :=
  (forall i, 0 <= i < k -> m' (dst + i) = m (src + i)) /\ (forall b, ~ dst <= b < dst + k -> m' b = m b).
(** Both bytes are in some range. *)
Definition may_copy (ranges : list range) (src dst i : Z) : Prop := contained ranges (src + i) 1 /\ contained ranges (dst + i) 1.
(** x5, x10, x11, x12 only. *)
Definition keeps_others {C} (s t : v2st C) : Prop := forall r, 0 <= r -> ~ In r [5; 10; 11; 12] -> a_regs (v_arch t) r = a_regs (v_arch s) r.
