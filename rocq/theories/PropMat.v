(** * Property C81: a matrix product on the whole V1 core *)
From Coq Require Import ZArith List Bool String Lia.
From Verif Require Import CInt VecModel VecSpec ConvModel ConvSpec MemModel MemSpec LogModel.
From Verif Require Import DecodeTypes DecodeModel DecodeSpec DecodeProofs.
From Verif Require Import V2DecModel V1ScalModel TopModel TopSpec CliSpec MachModel MachSpec MatSpec MatProofs MatProofs2 PropMach.
Import ListNotations.
Open Scope Z_scope.

Section Mat.
  Context {S : Type}.
  Notation arch := (arch (C := core S)).
  Variable d : decoder.
  Variable zbb : Z -> option act.
  Variable sys : act -> Z -> arch -> (Z -> Z) -> arch * (Z -> Z) * Z * option Z.
  Variable junk : Z -> Z -> vbytes.
  Variable ljunk : Z -> Z.
  Notation exec := (exec1 d zbb sys junk ljunk).

  (** For every depth, command, placement and contents: the program halts after 7n + 5
      instructions with the product in memory, the accumulators clear, and nothing else
      changed but x10-x12, x14, v0-v7, v32-v39 and v48-v55. *)
  Theorem C81_matrix_product p mem0 out c n a b s :
    decoder_ok d -> 0 <= p /\ p + 48 <= top_address -> (forall x, 0 <= mem0 x < 256) -> placed mem0 p mat_kernel ->
    let window x := out <= x < out + 256 in
    (forall x, p <= x < p + 48 -> ~ window x) -> mat_command c -> 1 <= n ->
    0 <= a /\ a + 256 * n <= top_address -> 0 <= b /\ b + 256 * n <= top_address -> 0 <= out /\ out + 256 <= top_address ->
    a_regs s 0 = 0 -> a_regs s 9 = c -> a_regs s 12 = n -> a_regs s 10 mod 2 ^ 31 = a -> a_regs s 11 mod 2 ^ 31 = b -> a_regs s 14 mod 2 ^ 31 = out ->
    acc_wf (k_acc (a_csr s)) ->
    let steps := Z.to_nat (7 * n + 5) in
    let m0 := Mach p s mem0 in
    let m' := ref exec steps m0 in
    halts_at exec m0 steps RUserRequest /\ m_pc m' = p + 48 /\
    (forall i j, 0 <= i < 8 -> 0 <= j < 8 -> uval 4 (m_mem m') (out + mat_place i j) = mat_cell c mem0 a b n i j mod 2 ^ 32) /\
    (forall x, ~ window x -> m_mem m' x = mem0 x) /\
    (forall r q, 0 <= r < 8 -> 0 <= q < 8 -> k_acc (a_csr (m_arch m')) r q = 0) /\
    a_regs (m_arch m') 10 = a + 256 * n /\ a_regs (m_arch m') 11 = b + 256 * n /\ a_regs (m_arch m') 14 = out + 256 /\ a_regs (m_arch m') 12 = 0 /\
    (forall i, i < 64 -> ~ (10 <= i <= 12 \/ i = 14) -> a_regs (m_arch m') i = a_regs s i) /\
    (forall r j, 0 <= r -> ~ (0 <= r < 8 \/ 32 <= r < 40 \/ 48 <= r < 56) -> 0 <= j < 32 -> vbyte (m_arch m') r j = vbyte s r j) /\
    k_dw (a_csr (m_arch m')) = k_dw (a_csr s) /\ k_log (a_csr (m_arch m')) = k_log (a_csr s) /\
    k_wrong (a_csr (m_arch m')) = k_wrong (a_csr s) /\ k_sys (a_csr (m_arch m')) = k_sys (a_csr s).
  Proof.
    intros Hd Hpp Hbytes Hcode window HW Hc Hn La Lb Lo H0 H9 H12 H10 H11 H14 Ha.
    destruct (MatProofs2.mat_runs d zbb sys junk ljunk p mem0 out Hd Hpp Hbytes Hcode HW c n a b Hc Hn La Lb Lo s H0 H9 H12 H10 H11 H14 Ha)
      as (A & _ & B & ((K1 & K2 & K3 & K4) & G2 & G3) & X10 & X11 & X14 & X12 & Z & M & P).
    split; [exact A|]. split; [exact B|]. split; [exact P|]. split; [exact M|]. split; [exact Z|]. split; [exact X10|]. split; [exact X11|].
    split; [exact X14|]. split; [exact X12|]. split; [exact G2|]. split; [exact G3|]. split; [exact K1|]. split; [exact K2|]. split; [exact K3|exact K4].
  Qed.
End Mat.
(** Up to a depth of 8256 no entry overflows: read as a signed word it is the product. *)
Theorem C81_exact c m a b n i j : (forall x, 0 <= m x < 256) -> 0 <= n <= 258 ->
  ConvSpec.s32 (mat_cell c m a b n i j mod 2 ^ 32) = mat_cell c m a b n i j.
Proof. intros Hm Hn. exact (MatProofs2.s32_back _ (MatProofs2.cell_bound c m a b n i j Hm Hn)). Qed.
(** The places of the 64 entries are the 64 words of the window. *)
Theorem C81_places i j : 0 <= i < 8 -> 0 <= j < 8 ->
  0 <= mat_place i j <= 252 /\ mat_place i j mod 4 = 0 /\
  forall i' j', 0 <= i' < 8 -> 0 <= j' < 8 -> mat_place i' j' = mat_place i j -> i' = i /\ j' = j.
Proof. exact (MatProofs2.places i j). Qed.
Print Assumptions C81_matrix_product.
Print Assumptions C81_exact.
Print Assumptions C81_places.

(** Two tiles; signed bytes with bias 5 by unsigned bytes with bias -3. *)
Definition mat_cmd : Z := 7 * 2 ^ 7 + 5 * 2 ^ 12 + 2 ^ 21 + 509 * 2 ^ 22.
Definition mat_mem : Z -> Z := words_at 0x40 mat_kernel m_bytes.
Definition mat_regs : list (Z * Z) := [(9, mat_cmd); (10, 2 ^ 31 + 0x400); (11, 0x730); (12, 2); (14, 0x300)].
Example C81_case :
  let m := ref m_exec 19 (Mach 0x40 (m_arch0 mat_regs) mat_mem) in
  halts_at m_exec (Mach 0x40 (m_arch0 mat_regs) mat_mem) 19 RUserRequest /\ m_pc m = 0x70 /\
  map (a_regs (m_arch m)) [9; 10; 11; 12; 14; 5] = [mat_cmd; 0x600; 0x930; 0; 0x400; 83] /\
  uval 4 (m_mem m) (0x300 + 88) = mat_cell mat_cmd mat_mem 0x400 0x730 2 3 1 mod 2 ^ 32 /\ mat_place 3 1 = 88 /\
  mat_cell mat_cmd mat_mem 0x400 0x730 2 3 1 = 72480 /\
  mat_cell (7 * 2 ^ 7 + 255 * 2 ^ 12 + 255 * 2 ^ 22) (fun _ => 255) 0 0 259 0 0 = 2155708800.
Proof.
  pose proof (C81_matrix_product first_match (fun _ => None) m_sys (fun _ _ _ => 170) (fun _ => 0) 0x40 mat_mem 0x300 mat_cmd 2 0x400 0x730 (m_arch0 mat_regs)
    PropDecode.first_match_ok) as K. fold m_exec in K.
  assert (B : forall x, 0 <= mat_mem x < 256) by (intros x; unfold mat_mem, words_at, m_bytes; destruct (_ && _); apply Z.mod_pos_bound; lia).
  assert (C : placed mat_mem 0x40 mat_kernel).
  { intros i w H. do 12 (destruct i as [|i]; [injection H as <-; vm_compute; reflexivity|]). destruct i; discriminate H. }
  destruct K as (K1 & K2 & K3 & _ & _ & R1 & R2 & R3 & R4 & R5 & _);
    [split; vm_compute; discriminate|exact B|exact C|intros x; lia|repeat split|lia|split; vm_compute; discriminate|split; vm_compute; discriminate|split; vm_compute; discriminate
    |reflexivity|reflexivity|reflexivity|reflexivity|reflexivity|reflexivity|intros r c _ _; change (0 <= 7 < 2 ^ 32); lia|].
  change (Z.to_nat (7 * 2 + 5)) with 19%nat in *. intros m. fold m in K2, K3, R1, R2, R3, R4, R5. clearbody m.
  split; [exact K1|]. split; [exact K2|]. split; [cbn [map]; rewrite R1, R2, R3, R4, (R5 9), (R5 5) by lia; reflexivity|].
  split; [exact (K3 3 1 ltac:(lia) ltac:(lia))|]. split; [vm_compute; reflexivity|]. split; vm_compute; reflexivity.
Qed.
