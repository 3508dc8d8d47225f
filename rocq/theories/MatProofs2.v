(** * Proofs for the matrix product on the V1 machine: runs of the program *)
From Coq Require Import ZArith List Bool String Lia ZifyBool ZifyNat.
From Verif Require Import CInt VecModel VecSpec VecProofs ConvModel ConvSpec ConvProofs MemModel MemSpec LogModel.
From Verif Require Import DecodeTypes DecodeTable DecodeModel DecodeSpec DecodeProofs.
From Verif Require Import V2DecModel V1ScalModel TopModel TopSpec TopProofs2 CliSpec MachModel MachSpec MachVecSpec MatSpec.
From Verif Require Import MachProofs MachProofs2 MachProofs3 MachProofs4 MatProofs.
Import ListNotations.
Open Scope string_scope.
Open Scope Z_scope.

(** ** One tile *)
Definition tile (c : Z) (m : Z -> Z) (a b i j : Z) : Z :=
  sum 32 (fun k => (bval (fld c 21 1 =? 1) (m (a + 32 * i + k)) + s9 (fld c 12 9)) *
                   (bval (fld c 31 1 =? 1) (m (b + 32 * (k / 4) + 4 * j + k mod 4)) + s9 (fld c 22 9))).
Lemma cell_step c m a b n i j : 0 <= n ->
  mat_cell c m a b (n + 1) i j = mat_cell c m a b n i j + tile c m (a + 256 * n) (b + 256 * n) i j.
Proof.
  intros Hn. unfold mat_cell, tile. replace (Z.to_nat (32 * (n + 1))) with (Z.to_nat (32 * n) + 32)%nat by lia. rewrite sum_app. f_equal.
  apply sum_ext. intros k Hk. rewrite Z2Nat.id by lia. unfold mat_left, mat_right.
  assert (E1 : (32 * n + k) / 32 = n) by (rewrite Z.mul_comm, Z.div_add_l, Z.div_small by lia; lia).
  assert (E2 : (32 * n + k) mod 32 = k) by (rewrite Z.add_comm, Z.mul_comm, Z_mod_plus_full; apply Z.mod_small; lia).
  assert (E3 : (32 * n + k) / 4 = 8 * n + k / 4) by (replace (32 * n) with (8 * n * 4) by lia; now rewrite Z.div_add_l by lia).
  assert (E4 : (32 * n + k) mod 4 = k mod 4) by (rewrite Z.add_comm; replace (32 * n) with (8 * n * 4) by lia; apply Z_mod_plus_full).
  rewrite E1, E2, E3, E4. replace (b + 32 * (8 * n + k / 4)) with (b + 256 * n + 32 * (k / 4)) by lia. reflexivity.
Qed.
Lemma row_range r q : 0 <= r < 8 -> 0 <= q < 8 -> 0 <= row_of r q < 8 /\ 0 <= word_of r q < 8.
Proof.
  intros Hr Hq. unfold row_of, word_of, swap12. pose proof (Z.mod_pos_bound r 4 ltac:(lia)). pose proof (Z.mod_pos_bound q 2 ltac:(lia)).
  pose proof (Z_div_mod_eq_full r 4). pose proof (Z_div_mod_eq_full q 2).
  destruct (r mod 4 =? 1) eqn:E1; [lia|]. destruct (r mod 4 =? 2) eqn:E2; lia.
Qed.
Lemma conv_tile c rf m a b r q : mat_command c -> 0 <= r < 8 -> 0 <= q < 8 ->
  (forall i j, 0 <= i < 8 -> 0 <= j < 32 -> rf i j = m (a + 32 * i + j)) ->
  (forall i j, 0 <= i < 8 -> 0 <= j < 32 -> rf (32 + i) j = m (b + 32 * i + j)) ->
  conv_sum c rf 0 32 r q = tile c m a b (row_of r q) (word_of r q).
Proof.
  intros (_ & C2 & C3) Hr Hq HA HB. destruct (row_range r q Hr Hq) as [Hi Hj].
  unfold conv_sum, tile. unfold conv_len. rewrite C2, C3. change (Z.to_nat (7 - 0 + 1)) with 8%nat. change 32%nat with (4 * 8)%nat. rewrite sum_by_4.
  apply sum_ext. intros k Hk. apply sum_ext. intros t Ht. unfold conv_term. rewrite C2.
  set (i := row_of r q) in *. set (j := word_of r q) in *. clearbody i j. rewrite !Z.add_0_l.
  assert (E1 : (4 * k + t) / 4 = k) by (rewrite Z.mul_comm, Z.div_add_l, Z.div_small by lia; lia).
  assert (E2 : (4 * k + t) mod 4 = t) by (rewrite Z.add_comm, Z.mul_comm, Z_mod_plus_full; apply Z.mod_small; lia).
  rewrite E1, E2. rewrite HA, HB by lia. replace (b + 32 * k + (4 * j + t)) with (b + 32 * k + 4 * j + t) by lia. reflexivity.
Qed.
Lemma command_legal c : mat_command c -> conv_legal c.
Proof. intros (C1 & C2 & C3). unfold conv_legal. lia. Qed.

Section Kernel.
  Context {S : Type}.
  Notation arch := (arch (C := core S)).
  Variable d : decoder.
  Variable zbb : Z -> option act.
  Variable sys : act -> Z -> arch -> (Z -> Z) -> arch * (Z -> Z) * Z * option Z.
  Variable junk : Z -> Z -> vbytes.
  Variable ljunk : Z -> Z.
  Notation exec := (exec1 d zbb sys junk ljunk).
  Variables (p : Z) (mem0 : Z -> Z) (out : Z).
  Hypothesis Hd : decoder_ok d.
  Hypothesis Hpp : 0 <= p /\ p + 48 <= top_address.
  Hypothesis Hbytes : forall x, 0 <= mem0 x < 256.
  Hypothesis Hcode : placed mem0 p mat_kernel.
  Definition mwindow (A : Z) : Prop := out <= A < out + 256.
  Hypothesis HW : forall A, p <= A < p + 48 -> ~ mwindow A.
  Definition minside (st : mach (C := core S)) : Prop := p <= m_pc st <= p + 44 /\ forall A, ~ mwindow A -> m_mem st A = mem0 A.

  Lemma mone i w m s : (forall A, ~ mwindow A -> m A = mem0 A) -> nth_error mat_kernel i = Some w ->
    let a := p + 4 * Z.of_nat i in let f := exec w a s m in
    minside (Mach a s m) /\ ref_step exec (Mach a s m) = Mach (f_pc f) (f_arch f) (f_mem f) /\ ref_halt exec (Mach a s m) = f_halt f /\
    next a = p + 4 * (Z.of_nat i + 1).
  Proof.
    intros H Hi a f. assert (L : (i < 12)%nat) by (change 12%nat with (List.length mat_kernel); apply nth_error_Some; congruence).
    split; [split; [cbn [m_pc]; lia|exact H]|].
    assert (F : uval 4 m (p + 4 * Z.of_nat i) = w).
    { rewrite <- (Hcode i w Hi). apply uval_ext. intros j Hj. apply H, HW. lia. }
    destruct (do_step exec a s m w F) as [E1 E2].
    { intros ->. apply nth_error_In in Hi. unfold mat_kernel, ebreak in Hi. cbn [In] in Hi. clear - Hi. lia. }
    split; [exact E1|]. split; [exact E2|]. unfold next, u32, a. unfold top_address in Hpp. rewrite Z.mod_small by lia. lia.
  Qed.
  Lemma x0_of (s s' : arch) : mframe s s' -> a_regs s 0 = 0 -> a_regs s' 0 = 0.
  Proof. intros (_ & X & _) H. rewrite X; [exact H|lia|unfold mat_x; lia]. Qed.
  Lemma vmono (s s' : arch) (P Q : Z -> Prop) : vsame s s' P -> (forall r, P r -> Q r) -> vsame s s' Q.
  Proof. intros H I r j Hr N. apply H; auto. Qed.

  (** One load. *)
  Lemma run_ldb i w v x B s : nth_error mat_kernel i = Some w ->
    In (w, v, x) [(0x1005003f, 0, 10); (0x1005013f, 4, 10); (0x1005883f, 32, 11); (0x1005893f, 36, 11)] ->
    a_regs s 0 = 0 -> a_regs s x mod 2 ^ 31 = B -> B + 128 <= top_address ->
    exists s', runs exec minside (Mach (p + 4 * Z.of_nat i) s mem0) 1 (Mach (p + 4 * (Z.of_nat i + 1)) s' mem0) /\
      mframe s s' /\ k_acc (a_csr s') = k_acc (a_csr s) /\ xsame s s' x /\ a_regs s' x = B + 128 /\ vsame s s' (fun r => v <= r < v + 4) /\
      forall g j, 0 <= g < 4 -> 0 <= j < 32 -> vbyte s' (v + g) j = mem0 (B + 32 * g + j).
  Proof.
    intros Hi Hv H0 HB Ht. destruct (mone i w mem0 s (fun _ _ => eq_refl) Hi) as (I & R & T & N).
    destruct (step_ldb d zbb sys junk ljunk Hd w v x B (p + 4 * Z.of_nat i) s mem0 Hv Hbytes H0 HB Ht) as (E1 & E2 & E3 & E4 & E5 & E6 & E7 & E8).
    set (f := exec w (p + 4 * Z.of_nat i) s mem0) in *. rewrite E1, E2, N in R. rewrite E3 in T.
    exists (f_arch f). split; [apply runs_1; [exact I|exact T|]; rewrite R; apply runs_0|].
    split. { apply (mframe_of s _ x (fun r => v <= r < v + 4)); [now apply keeps_calm|exact E5| |exact E7|];
      clear - Hv; cbn [In] in Hv; (destruct Hv as [Hv|[Hv|[Hv|[Hv|[]]]]]; injection Hv as <- <- <-); unfold mat_x, mat_v; [..|intros r Hr|intros r Hr|intros r Hr|intros r Hr]; lia. }
    split; [exact (proj1 E4)|]. auto.
  Qed.

  Lemma iteration s n A B : a_regs s 0 = 0 -> mat_command (a_regs s 9) -> a_regs s 12 = n -> 1 <= n < 2 ^ 32 ->
    a_regs s 10 mod 2 ^ 31 = A -> a_regs s 11 mod 2 ^ 31 = B -> A + 256 <= top_address -> B + 256 <= top_address ->
    acc_wf (k_acc (a_csr s)) ->
    exists s', runs exec minside (Mach (p + 4) s mem0) 7 (Mach (if n - 1 =? 0 then p + 32 else p + 4) s' mem0) /\
      mframe s s' /\ a_regs s' 10 = A + 256 /\ a_regs s' 11 = B + 256 /\ a_regs s' 14 = a_regs s 14 /\ a_regs s' 12 = n - 1 /\
      acc_wf (k_acc (a_csr s')) /\
      forall r q, 0 <= r < 8 -> 0 <= q < 8 ->
        k_acc (a_csr s') r q = (k_acc (a_csr s) r q + tile (a_regs s 9) mem0 A B (row_of r q) (word_of r q)) mod 2 ^ 32.
  Proof.
    intros H0 Hc H12 Hn H10 H11 LA LB Ha. unfold top_address in LA, LB.
    assert (A0 : 0 <= A) by (rewrite <- H10; apply Z.mod_pos_bound; lia). assert (B0 : 0 <= B) by (rewrite <- H11; apply Z.mod_pos_bound; lia).
    destruct (run_ldb 1 _ 0 10 A s eq_refl ltac:(left; reflexivity) H0 H10 ltac:(unfold top_address; lia)) as (s1 & R1 & G1 & K1 & X1 & Y1 & V1 & L1).
    pose proof (x0_of _ _ G1 H0) as H01.
    destruct (run_ldb 2 _ 4 10 (A + 128) s1 eq_refl ltac:(right; left; reflexivity) H01 ltac:(rewrite Y1; apply Z.mod_small; lia) ltac:(unfold top_address; lia))
      as (s2 & R2 & G2 & K2 & X2 & Y2 & V2 & L2).
    pose proof (x0_of _ _ G2 H01) as H02.
    assert (E11 : a_regs s2 11 = a_regs s 11) by (rewrite X2, X1 by lia; reflexivity).
    destruct (run_ldb 3 _ 32 11 B s2 eq_refl ltac:(right; right; left; reflexivity) H02 ltac:(now rewrite E11) ltac:(unfold top_address; lia))
      as (s3 & R3 & G3 & K3 & X3 & Y3 & V3 & L3).
    pose proof (x0_of _ _ G3 H02) as H03.
    destruct (run_ldb 4 _ 36 11 (B + 128) s3 eq_refl ltac:(right; right; right; left; reflexivity) H03 ltac:(rewrite Y3; apply Z.mod_small; lia) ltac:(unfold top_address; lia))
      as (s4 & R4 & G4 & K4 & X4 & Y4 & V4 & L4).
    pose proof (x0_of _ _ G4 H03) as H04.
    assert (NA : forall i j, 0 <= i < 8 -> 0 <= j < 32 -> vbyte s4 i j = mem0 (A + 32 * i + j)).
    { intros i j Hi Hj. rewrite V4, V3 by lia. destruct (Z_lt_dec i 4) as [L|L].
      - rewrite V2 by lia. exact (L1 i j ltac:(lia) Hj).
      - replace i with (4 + (i - 4)) at 1 by lia. rewrite L2 by lia. f_equal. lia. }
    assert (NB : forall i j, 0 <= i < 8 -> 0 <= j < 32 -> vbyte s4 (32 + i) j = mem0 (B + 32 * i + j)).
    { intros i j Hi Hj. destruct (Z_lt_dec i 4) as [L|L].
      - rewrite V4 by lia. exact (L3 i j ltac:(lia) Hj).
      - replace (32 + i) with (36 + (i - 4)) by lia. rewrite L4 by lia. f_equal. lia. }
    assert (G : mframe s s4) by (do 3 (eapply mframe_trans; [eassumption|]); exact G4).
    assert (Q9 : a_regs s4 9 = a_regs s 9) by (apply (proj1 (proj2 G)); [lia|unfold mat_x; lia]).
    assert (Q10 : a_regs s4 10 = A + 256) by (rewrite X4, X3, Y2 by lia; lia).
    assert (Q12 : a_regs s4 12 = n) by (rewrite X4, X3, X2, X1 by lia; exact H12).
    assert (Q14 : a_regs s4 14 = a_regs s 14) by (rewrite X4, X3, X2, X1 by lia; reflexivity).
    assert (QA : k_acc (a_csr s4) = k_acc (a_csr s)) by congruence.
    assert (RR : runs exec minside (Mach (p + 4) s mem0) 4 (Mach (p + 20) s4 mem0)).
    { pose proof (runs_app _ _ _ _ _ _ _ R1 (runs_app _ _ _ _ _ _ _ R2 (runs_app _ _ _ _ _ _ _ R3 R4))) as RR.
      change (p + 4 * Z.of_nat 1) with (p + 4) in RR. change (p + 4 * (Z.of_nat 4 + 1)) with (p + 20) in RR. exact RR. }
    clear R1 R2 R3 R4 G1 G2 G3 G4 K1 K2 K3 K4 X1 X2 X3 X4 Y1 Y2 Y3 V1 V2 V3 V4 L1 L2 L3 L4 H01 H02 H03 E11. clear s1 s2 s3.
    (* aconv *)
    destruct (mone 5 _ mem0 s4 (fun _ _ => eq_refl) eq_refl) as (I5 & R5 & T5 & N5).
    destruct (step_conv d zbb sys junk ljunk Hd (p + 4 * Z.of_nat 5) s4 mem0 H04) as (E1 & E2 & E3 & E4 & E5 & E6 & E7 & E8).
    { now rewrite QA. } { rewrite Q9. now apply command_legal. }
    set (f := exec 0x80902c05 (p + 4 * Z.of_nat 5) s4 mem0) in *. rewrite E1, E2, N5 in R5. rewrite E3 in T5.
    assert (G5 : mframe s4 (f_arch f)).
    { split; [exact E4|]. split; [intros i Hi _; now apply E5|]. apply (vmono _ _ _ _ E6). intros r []. }
    rewrite <- (E5 10 ltac:(lia)) in Q10. rewrite <- (E5 11 ltac:(lia)) in Y4. rewrite <- (E5 12 ltac:(lia)) in Q12. rewrite <- (E5 14 ltac:(lia)) in Q14.
    assert (C5 : forall r q, 0 <= r < 8 -> 0 <= q < 8 ->
        k_acc (a_csr (f_arch f)) r q = (k_acc (a_csr s) r q + tile (a_regs s 9) mem0 A B (row_of r q) (word_of r q)) mod 2 ^ 32).
    { intros r q Hr Hq. rewrite E8 by assumption. rewrite Q9, QA. rewrite (conv_tile _ _ mem0 A B) by assumption. reflexivity. }
    pose proof (mframe_trans _ _ _ G G5) as G6. set (s5 := f_arch f) in *. clearbody s5. clear f E1 E2 E3 E4 E5 E6 E8 N5 G G5 NA NB Q9 QA H04.
    (* addi *)
    destruct (mone 6 _ mem0 s5 (fun _ _ => eq_refl) eq_refl) as (I6 & R6 & T6 & N6).
    destruct (step_addi d zbb sys junk ljunk Hd (p + 4 * Z.of_nat 6) s5 mem0) as (E1 & E2 & E3 & E4 & E5 & E6 & E8).
    set (f := exec 0xfff60613 (p + 4 * Z.of_nat 6) s5 mem0) in *. rewrite E1, E2, N6 in R6. rewrite E3 in T6.
    assert (G7 : mframe s5 (f_arch f)) by (apply (mframe_of s5 _ 12 (fun _ => False)); [now apply keeps_calm|exact E5|unfold mat_x; lia|exact E8|intros r []]).
    rewrite Q12, (Z.mod_small n), Z.mod_small in E6 by lia.
    rewrite <- (E5 10) in Q10 by lia. rewrite <- (E5 11) in Y4 by lia. rewrite <- (E5 14) in Q14 by lia. destruct E4 as [EA _]. rewrite <- EA in E7.
    assert (C6 : forall r q, 0 <= r < 8 -> 0 <= q < 8 ->
        k_acc (a_csr (f_arch f)) r q = (k_acc (a_csr s) r q + tile (a_regs s 9) mem0 A B (row_of r q) (word_of r q)) mod 2 ^ 32).
    { intros r q Hr Hq. rewrite EA. now apply C5. }
    pose proof (mframe_trans _ _ _ G6 G7) as G. set (s6 := f_arch f) in *. clearbody s6. clear f E1 E2 E3 EA E5 E8 N6 G6 G7 C5 Q12.
    (* bne *)
    destruct (mone 7 _ mem0 s6 (fun _ _ => eq_refl) eq_refl) as (I7 & R7 & T7 & N7).
    destruct (step_bne d zbb sys junk ljunk Hd (p + 4 * Z.of_nat 7) s6 mem0) as (E1 & E2 & E3 & E4 & E5).
    set (f := exec 0xfe0614e3 (p + 4 * Z.of_nat 7) s6 mem0) in *. rewrite E6, Z.mod_small, N7 in E2 by lia.
    replace ((p + 4 * Z.of_nat 7 + (2 ^ 32 - 24)) mod 2 ^ 32) with (p + 4) in E2.
    2:{ change (4 * Z.of_nat 7) with 28. replace (p + 28 + (2 ^ 32 - 24)) with (p + 4 + 1 * 2 ^ 32) by lia. rewrite Z_mod_plus_full. symmetry. apply Z.mod_small. unfold top_address in Hpp. lia. }
    rewrite E1, E2 in R7. rewrite E3 in T7.
    assert (G7 : mframe s6 (f_arch f)).
    { split; [now apply keeps_calm|]. split; [intros i _ _; now rewrite E5|]. intros r j _ _ _. unfold vbyte. now rewrite E5. }
    destruct E4 as [EA _]. exists (f_arch f). split.
    { change 7%nat with (4 + 3)%nat. apply (runs_app _ _ _ _ _ _ _ RR). change (p + 20) with (p + 4 * Z.of_nat 5).
      apply runs_1; [exact I5|exact T5|]. rewrite R5. apply runs_1; [exact I6|exact T6|]. change (p + 4 * (Z.of_nat 5 + 1)) with (p + 4 * Z.of_nat 6). rewrite R6.
      apply runs_1; [exact I7|exact T7|]. change (p + 4 * (Z.of_nat 6 + 1)) with (p + 4 * Z.of_nat 7). rewrite R7. apply runs_0. }
    split; [exact (mframe_trans _ _ _ G G7)|]. rewrite E5, EA. split; [exact Q10|]. split; [rewrite Y4; lia|]. split; [exact Q14|]. split; [exact E6|]. split; assumption.
  Qed.

  Variables (c n a b : Z).
  Hypothesis Hc : mat_command c.
  Hypothesis Hn : 1 <= n.
  Hypothesis La : 0 <= a /\ a + 256 * n <= top_address.
  Hypothesis Lb : 0 <= b /\ b + 256 * n <= top_address.
  Hypothesis Lo : 0 <= out /\ out + 256 <= top_address.
  Definition sums (s : arch) (t : Z) : Prop := forall r q, 0 <= r < 8 -> 0 <= q < 8 ->
    k_acc (a_csr s) r q = mat_cell c mem0 a b t (row_of r q) (word_of r q) mod 2 ^ 32.

  Lemma mloop : forall (k : nat) s t, n = t + Z.of_nat k + 1 -> 0 <= t ->
    a_regs s 0 = 0 -> a_regs s 9 = c -> a_regs s 12 = n - t ->
    a_regs s 10 mod 2 ^ 31 = a + 256 * t -> a_regs s 11 mod 2 ^ 31 = b + 256 * t -> acc_wf (k_acc (a_csr s)) -> sums s t ->
    exists s', runs exec minside (Mach (p + 4) s mem0) (7 * (k + 1)) (Mach (p + 32) s' mem0) /\
      mframe s s' /\ a_regs s' 10 = a + 256 * n /\ a_regs s' 11 = b + 256 * n /\ a_regs s' 14 = a_regs s 14 /\ a_regs s' 12 = 0 /\
      acc_wf (k_acc (a_csr s')) /\ sums s' n.
  Proof.
    unfold top_address in La, Lb. induction k as [|k IH]; intros s t Hk Ht H0 H9 H12 H10 H11 Ha Hs.
    - assert (E : t = n - 1) by lia.
      destruct (iteration s (n - t) (a + 256 * t) (b + 256 * t)) as (s' & R & G & X10 & X11 & X14 & X12 & A' & C'); try assumption; try (unfold top_address; lia); [now rewrite H9|].
      exists s'. replace (n - t - 1 =? 0) with true in R by lia. split; [exact R|]. split; [exact G|]. split; [lia|]. split; [lia|]. split; [exact X14|]. split; [lia|].
      split; [exact A'|]. intros r q Hr Hq. rewrite C' by assumption. rewrite (Hs r q Hr Hq), H9. replace n with (t + 1) by lia. rewrite cell_step by lia. apply Zplus_mod_idemp_l.
    - destruct (iteration s (n - t) (a + 256 * t) (b + 256 * t)) as (s1 & R & G & X10 & X11 & X14 & X12 & A' & C'); try assumption; try (unfold top_address; lia); [now rewrite H9|].
      replace (n - t - 1 =? 0) with false in R by lia.
      destruct (IH s1 (t + 1)) as (s' & R' & G' & Y10 & Y11 & Y14 & Y12 & A2 & C2); try assumption; try lia.
      { exact (x0_of _ _ G H0). }
      { rewrite <- H9. apply (proj1 (proj2 G)); [lia|unfold mat_x; lia]. }
      { intros r q Hr Hq. rewrite C' by assumption. rewrite (Hs r q Hr Hq), H9. rewrite cell_step by lia. apply Zplus_mod_idemp_l. }
      exists s'. split.
      { replace (7 * (Datatypes.S k + 1))%nat with (7 + 7 * (k + 1))%nat by lia. exact (runs_app exec _ _ _ _ _ _ R R'). }
      split; [exact (mframe_trans _ _ _ G G')|]. split; [exact Y10|]. split; [exact Y11|]. split; [congruence|]. split; [exact Y12|]. split; assumption.
  Qed.

  Theorem mat_runs s :
    a_regs s 0 = 0 -> a_regs s 9 = c -> a_regs s 12 = n -> a_regs s 10 mod 2 ^ 31 = a -> a_regs s 11 mod 2 ^ 31 = b -> a_regs s 14 mod 2 ^ 31 = out ->
    acc_wf (k_acc (a_csr s)) ->
    let steps := Z.to_nat (7 * n + 5) in
    let m0 := Mach p s mem0 in
    let m' := ref exec steps m0 in
    halts_at exec m0 steps RUserRequest /\
    (forall i, (i < steps)%nat -> minside (ref exec i m0)) /\
    m_pc m' = p + 48 /\ mframe s (m_arch m') /\
    a_regs (m_arch m') 10 = a + 256 * n /\ a_regs (m_arch m') 11 = b + 256 * n /\ a_regs (m_arch m') 14 = out + 256 /\ a_regs (m_arch m') 12 = 0 /\
    (forall r q, 0 <= r < 8 -> 0 <= q < 8 -> k_acc (a_csr (m_arch m')) r q = 0) /\
    (forall x, ~ mwindow x -> m_mem m' x = mem0 x) /\
    (forall i j, 0 <= i < 8 -> 0 <= j < 8 -> uval 4 (m_mem m') (out + mat_place i j) = mat_cell c mem0 a b n i j mod 2 ^ 32).
  Proof.
    intros H0 H9 H12 H10 H11 H14 Ha steps m0 m'. unfold top_address in La, Lb, Lo.
    (* vcget *)
    destruct (mone 0 _ mem0 s (fun _ _ => eq_refl) eq_refl) as (I0 & R0 & T0 & N0). cbn [Z.of_nat] in I0, R0, T0, N0. rewrite Z.mul_0_r, Z.add_0_r in I0, R0, T0, N0.
    destruct (step_vcget d zbb sys junk ljunk Hd p s mem0 H0 Ha) as (E1 & E2 & E3 & E4 & E5 & E6 & E7 & E8).
    set (f := exec 0x50000c1f p s mem0) in *. rewrite E1, E2, N0 in R0. rewrite E3 in T0. change (p + 4 * (0 + 1)) with (p + 4) in R0.
    assert (G0 : mframe s (f_arch f)).
    { split; [exact E4|]. split; [intros i Hi _; now apply E5|]. apply (vmono _ _ _ _ E6). intros r Hr. unfold mat_v. lia. }
    assert (S0 : sums (f_arch f) 0).
    { intros r q Hr Hq. rewrite (proj1 (E8 r q Hr Hq)). reflexivity. }
    rewrite <- (E5 9) in H9 by lia. rewrite <- (E5 12) in H12 by lia. rewrite <- (E5 10) in H10 by lia. rewrite <- (E5 11) in H11 by lia. rewrite <- (E5 14) in H14 by lia.
    pose proof (x0_of _ _ G0 H0) as H01.
    set (s1 := f_arch f) in *. clearbody s1. clear f E1 E2 E3 E4 E5 E6 E8 N0.
    destruct (mloop (Z.to_nat (n - 1)) s1 0) as (s2 & R1 & G1 & Y10 & Y11 & Y14 & Y12 & A2 & S2); try assumption; try lia.
    pose proof (mframe_trans _ _ _ G0 G1) as G. pose proof (x0_of _ _ G1 H01) as H02. clear G0 G1 S0 H01 H9 H12 H10 H11 E7. rewrite <- Y14 in H14. clear Y14.
    (* vcget *)
    destruct (mone 8 _ mem0 s2 (fun _ _ => eq_refl) eq_refl) as (I8 & R8 & T8 & N8).
    destruct (step_vcget d zbb sys junk ljunk Hd (p + 4 * Z.of_nat 8) s2 mem0 H02 A2) as (E1 & E2 & E3 & E4 & E5 & E6 & E7 & E8).
    set (f := exec 0x50000c1f (p + 4 * Z.of_nat 8) s2 mem0) in *. rewrite E1, E2, N8 in R8. rewrite E3 in T8.
    assert (G8 : mframe s2 (f_arch f)).
    { split; [exact E4|]. split; [intros i Hi _; now apply E5|]. apply (vmono _ _ _ _ E6). intros r Hr. unfold mat_v. lia. }
    rewrite <- (E5 10) in Y10 by lia. rewrite <- (E5 11) in Y11 by lia. rewrite <- (E5 12) in Y12 by lia. rewrite <- (E5 14) in H14 by lia.
    assert (Z8 : forall r q, 0 <= r < 8 -> 0 <= q < 8 -> k_acc (a_csr (f_arch f)) r q = 0) by (intros r q Hr Hq; exact (proj1 (E8 r q Hr Hq))).
    assert (V8 : forall r q, 0 <= r < 8 -> 0 <= q < 8 -> uval 4 (vbyte (f_arch f) (48 + r)) (4 * q) = mat_cell c mem0 a b n (row_of r q) (word_of r q) mod 2 ^ 32).
    { intros r q Hr Hq. rewrite (proj2 (E8 r q Hr Hq)). now apply S2. }
    pose proof (mframe_trans _ _ _ G G8) as G2. pose proof (x0_of _ _ G8 H02) as H03.
    set (s3 := f_arch f) in *. clearbody s3. clear f E1 E2 E3 E4 E5 E6 E7 E8 N8 G G8 S2 A2 H02.
    (* vst *)
    destruct (mone 9 _ mem0 s3 (fun _ _ => eq_refl) eq_refl) as (I9 & R9 & T9 & N9).
    destruct (step_stb d zbb sys junk ljunk Hd 0x30070c3f 48 out (p + 4 * Z.of_nat 9) s3 mem0 ltac:(left; reflexivity) H03 H14 ltac:(unfold top_address; lia))
      as (E2 & E3 & E4 & E5 & E6 & E7 & E8 & E9).
    set (f := exec 0x30070c3f (p + 4 * Z.of_nat 9) s3 mem0) in *. rewrite E2, N9 in R9. rewrite E3 in T9.
    assert (G9 : mframe s3 (f_arch f)) by (apply (mframe_of s3 _ 14 (fun _ => False)); [now apply keeps_calm|exact E5|unfold mat_x; lia|exact E7|intros r []]).
    rewrite <- (E5 10) in Y10 by lia. rewrite <- (E5 11) in Y11 by lia. rewrite <- (E5 12) in Y12 by lia. pose proof (x0_of _ _ G9 H03) as H04.
    assert (Z9 : forall r q, 0 <= r < 8 -> 0 <= q < 8 -> k_acc (a_csr (f_arch f)) r q = 0) by (rewrite (proj1 E4); exact Z8).
    pose proof (mframe_trans _ _ _ G2 G9) as G3. set (s4 := f_arch f) in *. set (m4 := f_mem f) in *. clearbody s4 m4. clear f E2 E3 E4 E5 N9 G2 G9 Z8 H03 H14.
    assert (M4 : forall x, ~ mwindow x -> m4 x = mem0 x) by (intros x Hx; apply E8; unfold mwindow in Hx; lia).
    (* vst *)
    destruct (mone 10 _ m4 s4 M4 eq_refl) as (I10 & R10 & T10 & N10).
    destruct (step_stb d zbb sys junk ljunk Hd 0x30070d3f 52 (out + 128) (p + 4 * Z.of_nat 10) s4 m4 ltac:(right; left; reflexivity) H04
      ltac:(rewrite E6; apply Z.mod_small; lia) ltac:(unfold top_address; lia)) as (F2 & F3 & F4 & F5 & F6 & F7 & F8 & F9).
    set (f := exec 0x30070d3f (p + 4 * Z.of_nat 10) s4 m4) in *. rewrite F2, N10 in R10. rewrite F3 in T10.
    assert (G10 : mframe s4 (f_arch f)) by (apply (mframe_of s4 _ 14 (fun _ => False)); [now apply keeps_calm|exact F5|unfold mat_x; lia|exact F7|intros r []]).
    rewrite <- (F5 10) in Y10 by lia. rewrite <- (F5 11) in Y11 by lia. rewrite <- (F5 12) in Y12 by lia.
    assert (Z10 : forall r q, 0 <= r < 8 -> 0 <= q < 8 -> k_acc (a_csr (f_arch f)) r q = 0) by (rewrite (proj1 F4); exact Z9).
    pose proof (mframe_trans _ _ _ G3 G10) as G4. set (s5 := f_arch f) in *. set (m5 := f_mem f) in *. clearbody s5 m5. clear f F2 F3 F4 F5 N10 G3 G10 Z9 H04.
    assert (M5 : forall x, ~ mwindow x -> m5 x = mem0 x) by (intros x Hx; rewrite F8 by (unfold mwindow in Hx; lia); now apply M4).
    assert (B5 : forall r j, 0 <= r < 8 -> 0 <= j < 32 -> m5 (out + 32 * r + j) = vbyte s3 (48 + r) j).
    { intros r j Hr Hj. destruct (Z_lt_dec r 4) as [L|L].
      - rewrite F8 by lia. apply E9; lia.
      - replace (out + 32 * r + j) with (out + 128 + 32 * (r - 4) + j) by lia. rewrite F9 by lia. rewrite E7 by (lia || exact (fun h => h)).
        f_equal. lia. }
    (* mpause *)
    destruct (mone 11 _ m5 s5 M5 eq_refl) as (I11 & R11 & T11 & N11).
    destruct (step_mpause d zbb sys junk ljunk Hd (p + 4 * Z.of_nat 11) s5 m5) as (P1 & P2 & P3 & P4 & P5).
    set (f := exec 0x08000073 (p + 4 * Z.of_nat 11) s5 m5) in *. rewrite P1, P2, N11 in R11. rewrite P3 in T11.
    assert (G11 : mframe s5 (f_arch f)).
    { split; [now apply keeps_calm|]. split; [intros i _ _; now rewrite P5|]. intros r j _ _ _. unfold vbyte. now rewrite P5. }
    assert (RR : runs exec minside m0 (1 + (7 * (Z.to_nat (n - 1) + 1) + 3)) (Mach (p + 4 * Z.of_nat 11) s5 m5)).
    { unfold m0. apply runs_1; [exact I0|exact T0|]. rewrite R0. apply (runs_app _ _ _ _ _ _ _ R1). change (p + 32) with (p + 4 * Z.of_nat 8).
      apply runs_1; [exact I8|exact T8|]. rewrite R8. change (p + 4 * (Z.of_nat 8 + 1)) with (p + 4 * Z.of_nat 9).
      apply runs_1; [exact I9|exact T9|]. rewrite R9. change (p + 4 * (Z.of_nat 9 + 1)) with (p + 4 * Z.of_nat 10).
      apply runs_1; [exact I10|exact T10|]. rewrite R10. apply runs_0. }
    set (N := (1 + (7 * (Z.to_nat (n - 1) + 1) + 3))%nat) in *.
    assert (ES : steps = Datatypes.S N) by (unfold steps, N; lia). clearbody steps N. subst steps. destruct RR as [R RI].
    assert (Em : m' = Mach (p + 48) (f_arch f) m5).
    { unfold m'. cbn [ref]. rewrite R, R11. reflexivity. }
    rewrite Em. cbn [m_pc m_arch m_mem]. rewrite P5, (proj1 P4).
    split.
    { split; [lia|]. split; rewrite Nat.sub_1_r; cbn [Nat.pred].
      - intros i Hi. now apply RI.
      - rewrite R. exact T11. }
    split. { intros i Hi. destruct (Nat.eq_dec i N) as [->|Ne]; [rewrite R; exact I11|apply RI; lia]. }
    split; [reflexivity|]. split; [exact (mframe_trans _ _ _ G4 G11)|].
    split; [exact Y10|]. split; [exact Y11|]. split; [lia|]. split; [exact Y12|]. split; [exact Z10|]. split; [exact M5|].
    intros i j Hi Hj. destruct (place_cell i j Hi Hj) as (r & q & Hr & Hq & <- & <- & ->).
    rewrite <- V8 by assumption. apply uval_ext. intros t Ht. replace (out + (32 * r + 4 * q) + t) with (out + 32 * r + (4 * q + t)) by lia. apply B5; lia.
  Qed.
End Kernel.

(** ** No overflow *)
Lemma factor_bound c (sg : bool) v lo : 0 <= v < 256 -> -510 <= bval sg v + s9 (fld c lo 9) <= 510.
Proof.
  intros H. unfold bval, s9, fld. assert (0 <= (c / 2 ^ lo) mod 2 ^ 9 < 512) by (apply Z.mod_pos_bound; lia).
  set (z := (c / 2 ^ lo) mod 2 ^ 9) in *. clearbody z. destruct (z <? 256) eqn:E1, sg, (128 <=? v) eqn:E2; cbn [andb]; lia.
Qed.
Lemma cell_bound c m a b n i j : (forall x, 0 <= m x < 256) -> 0 <= n <= 258 -> - 2 ^ 31 <= mat_cell c m a b n i j < 2 ^ 31.
Proof.
  intros Hm Hn. unfold mat_cell.
  pose proof (sum_bound (Z.to_nat (32 * n)) (fun k => mat_left c m a i k * mat_right c m b k j) 260100) as H.
  rewrite Z2Nat.id in H by lia. set (x := sum _ _) in *.
  assert (K : - (32 * n * 260100) <= x <= 32 * n * 260100); [|lia].
  apply H. intros k _. unfold mat_left, mat_right.
  pose proof (factor_bound c (fld c 21 1 =? 1) _ 12 (Hm (a + 256 * (k / 32) + 32 * i + k mod 32))) as L.
  pose proof (factor_bound c (fld c 31 1 =? 1) _ 22 (Hm (b + 32 * (k / 4) + 4 * j + k mod 4))) as R.
  set (u := bval _ _ + _) in *. set (v := bval _ _ + s9 (fld c 22 9)) in *. clearbody u v. nia.
Qed.
Lemma s32_back v : - 2 ^ 31 <= v < 2 ^ 31 -> ConvSpec.s32 (v mod 2 ^ 32) = v.
Proof.
  intros H. unfold ConvSpec.s32. destruct (Z_lt_dec v 0) as [L|L].
  - replace (v mod 2 ^ 32) with (v + 2 ^ 32).
    + replace (v + 2 ^ 32 <? 2 ^ 31) with false by lia. lia.
    + rewrite <- (Z_mod_plus_full v 1). rewrite Z.mod_small by lia. lia.
  - rewrite Z.mod_small by lia. now replace (v <? 2 ^ 31) with true by lia.
Qed.
Lemma places i j : 0 <= i < 8 -> 0 <= j < 8 ->
  0 <= mat_place i j <= 252 /\ mat_place i j mod 4 = 0 /\
  forall i' j', 0 <= i' < 8 -> 0 <= j' < 8 -> mat_place i' j' = mat_place i j -> i' = i /\ j' = j.
Proof.
  intros Hi Hj. destruct (place_cell i j Hi Hj) as (r & q & Hr & Hq & Er & Ew & ->). split; [lia|]. split.
  - replace (32 * r + 4 * q) with (0 + (8 * r + q) * 4) by lia. apply Z_mod_plus_full.
  - intros i' j' Hi' Hj' E. destruct (place_cell i' j' Hi' Hj') as (r' & q' & Hr' & Hq' & Er' & Ew' & E'). assert (r' = r /\ q' = q) as [-> ->] by lia. lia.
Qed.
