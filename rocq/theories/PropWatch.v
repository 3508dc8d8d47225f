(** * Watching a program that ends: C85 *)
From Coq Require Import ZArith List Bool String Lia.
From Verif Require Import CInt LaneSpec VecModel VecSpec ConvModel MemModel MemSpec LogModel.
From Verif Require Import DecodeTypes DecodeTable DecodeModel DecodeSpec V2DecTypes V2DecModel V2DecSpec V1ScalModel V1ScalSpec.
From Verif Require Import TopModel TopSpec CliSpec RvSpec MachModel MachSpec FootSpec WatchSpec TopToy.
From Verif Require WatchProofs KernWatch FootProofs3 MachProofs3 MachProofs4 PropMach PropFoot PropDecode.
From Coq Require Import ZifyBool ZifyNat.
Import ListNotations.
Open Scope string_scope.
Open Scope list_scope.
Open Scope Z_scope.

Section Any.
  Context {C : Type}.
  Variable exec : Z -> Z -> arch (C := C) -> (Z -> Z) -> effect (C := C).
  Variable evicted : Z -> Z -> bool.
  Variable reg_id : string -> option Z.
  Variable reg_size : Z -> Z.
  Variable csr_id : string -> option Z.
  Variable csr_get : Z -> C -> Z.
  Variable csr_set : Z -> Z -> C -> C.
  Notation history := (history exec evicted reg_id reg_size csr_id csr_get csr_set).
  Notation ref := (ref exec).
  Notation start m := (fresh (m_arch m) (m_mem m) (m_pc m)).

  (** C85. A program that halts with its instruction number [steps], watched with
      breakpoints, steps and reads: it never gets past its end, always shows one of
      its own states, and the halt is reported exactly when the last one is shown. *)
  Theorem C85_watched code m0 steps last fin h s :
    bytes_ok (m_mem m0) -> 0 <= m_pc m0 < 2 ^ 32 -> halts_at exec m0 steps fin -> m_pc (ref (steps - 1) m0) = last -> fin <> RNone ->
    (forall i, (i < steps)%nat -> clean exec code (ref i m0)) ->
    history (watch code m0 last fin) (start m0) h s ->
    exists i, (i <= steps)%nat /\ shows s (ref i m0) /\ t_status s = Halted /\ (t_reason s = fin <-> i = steps).
  Proof.
    intros H1 H2 H3 H4 H5 H6 H7. exact (proj2 (WatchProofs.watched exec evicted reg_id reg_size csr_id csr_get csr_set code m0 steps last fin H1 H2 H3 H4 H5 H6 h s H7)).
  Qed.
  (** C85. From wherever it was watched, repeated Runs get to the end: at most one more
      of them than the program has instructions, a single one without breakpoints. *)
  Theorem C85_ends code m0 steps last fin h s fuel :
    bytes_ok (m_mem m0) -> 0 <= m_pc m0 < 2 ^ 32 -> halts_at exec m0 steps fin -> m_pc (ref (steps - 1) m0) = last -> fin <> RNone ->
    (forall i, (i < steps)%nat -> clean exec code (ref i m0)) ->
    history (watch code m0 last fin) (start m0) h s -> (steps <= fuel)%nat ->
    exists n s', (n <= steps + 1)%nat /\ runs exec evicted fuel n s s' /\ t_reason s' = fin /\ shows s' (ref steps m0) /\
      t_bps s' = t_bps s /\ (t_bps s = [] -> (n <= 1)%nat).
  Proof.
    intros H1 H2 H3 H4 H5 H6 H7 H8. exact (WatchProofs.watched_ends exec evicted reg_id reg_size csr_id csr_get csr_set code m0 steps last fin H1 H2 H3 H4 H5 H6 h s fuel H7 H8).
  Qed.
End Any.

Section Kernel.
  Context {S : Type}.
  Notation arch := (arch (C := core S)).
  Variable d : decoder.
  Variable zbb : Z -> option act.
  Variable sys : act -> Z -> arch -> (Z -> Z) -> arch * (Z -> Z) * Z * option Z.
  Variable junk : Z -> Z -> vbytes.
  Variable ljunk : Z -> Z.
  Notation exec := (exec1 d zbb sys junk ljunk).

  (** C85. The strip-mined kernel of C73 on the V1 core, watched with breakpoints on
      its first seven instructions, steps and reads: every stop shows one of the states
      it has undebugged, repeated Runs reach its end, and when that is reported the
      result array is there, and all else as it was apart from the breakpoints. *)
  Theorem C85_kernel evicted reg_id reg_size csr_id csr_get csr_set k op p e o T mem0 n a b out s0 h s :
    decoder_ok d -> sys_quiet sys -> zbb_quiet zbb -> 0 <= k <= 2 ->
    parse d op = Some e -> meaning (e_name e) = Some (SmVec (VEl o T) false true) -> bits T = 8 * 2 ^ k -> ~ reads_dest o ->
    f_vd op = 8 /\ f_vs1 op = 0 /\ f_vs2 op = 4 -> 0 <= p /\ p + 32 <= top_address -> p mod 4 = 0 -> placed mem0 p (kernel k op) -> bytes_ok mem0 ->
    0 <= n < 2 ^ 32 -> 0 <= a /\ a + n * 2 ^ k <= top_address -> 0 <= b /\ b + n * 2 ^ k <= top_address -> 0 <= out /\ out + n * 2 ^ k <= top_address ->
    let window x := out <= x < out + n * 2 ^ k in
    let code x := p <= x < p + 32 in
    (forall x, code x -> ~ window x /\ ~ (a <= x < a + n * 2 ^ k) /\ ~ (b <= x < b + n * 2 ^ k)) ->
    apart_from out a (n * 2 ^ k) -> apart_from out b (n * 2 ^ k) ->
    (forall i, 0 <= i < n -> lane_pre o T (elem T mem0 a i) (elem T mem0 b i)) ->
    a_regs s0 0 = 0 -> a_regs s0 12 = n -> a_regs s0 10 mod 2 ^ 31 = a -> a_regs s0 11 mod 2 ^ 31 = b -> a_regs s0 14 mod 2 ^ 31 = out ->
    let steps := Z.to_nat (7 * Z.max 1 ((n * 2 ^ k + 127) / 128) + 1) in
    let m0 := Mach p s0 mem0 in
    let done (x : top) := t_reason x = RUserRequest in
    let result (x : top) :=
      t_pc x = p + 32 /\
      (forall i old, 0 <= i < n -> lane_spec o T old (elem T mem0 a i) (elem T mem0 b i) (elem (dst_ty o T) (t_mem x) out i)) /\
      (forall A, ~ window A -> ~ under_bp (t_bps x) A -> t_mem x A = mem0 A) /\
      (forall i, i < 64 -> ~ 10 <= i <= 14 -> a_regs (t_arch x) i = a_regs s0 i) /\
      (forall r j, 0 <= r -> ~ r < 12 -> 0 <= j < 32 -> vbyte (t_arch x) r j = vbyte s0 r j) in
    history exec evicted reg_id reg_size csr_id csr_get csr_set (watch code m0 (p + 28) RUserRequest) (fresh s0 mem0 p) h s ->
    (exists i, (i <= steps)%nat /\ shows s (ref exec i m0) /\ t_status s = Halted) /\
    (done s -> result s) /\
    forall fuel, (steps <= fuel)%nat -> exists c s', (c <= steps + 1)%nat /\ runs exec evicted fuel c s s' /\ done s' /\ result s' /\ t_bps s' = t_bps s.
  Proof.
    intros Hd Hs Hz Hk Hp Hm HT Hr Hf Hpp Hal Hcode HB Hn La Lb Lo window code HC Ha Hb HL H0 H12 H10 H11 H14 steps m0 done result HH.
    destruct (MachProofs4.kernel_runs d zbb sys junk ljunk k op p e o T Hd Hk Hp Hm HT Hr Hf Hpp mem0 n a b out Hcode Hn La Lb Lo (fun A HA => proj1 (HC A HA)) Ha Hb HL s0 H0 H12 H10 H11 H14)
      as (K1 & (K2 & K3) & K4 & (_ & G2 & G3) & _ & _ & _ & _ & K5 & K6). fold steps m0 in K1, K2, K3, K4, G2, G3, K5, K6.
    assert (P32 : 0 <= m_pc m0 < 2 ^ 32) by (cbn [m0 m_pc]; unfold top_address in Hpp; lia).
    assert (CL : forall i, (i < steps)%nat -> clean exec code (ref exec i m0)).
    { intros i Hi. apply (FootProofs3.foot_clean d zbb sys junk ljunk Hd Hs Hz).
      refine (KernWatch.inside_leaves d k op p e o T Hd Hk Hp Hm Hpp Hal mem0 _ _ Hcode (fun A HA => proj1 (HC A HA)) _ _ _ _ (K2 i Hi)).
      - intros A HA [X|X]; [exact (proj1 (proj2 (HC A HA)) X)|exact (proj2 (proj2 (HC A HA)) X)].
      - intros A X. exact (Z.lt_le_trans _ _ _ (proj2 X) (proj2 Lo)).
      - intros A [X|X]; [exact (Z.lt_le_trans _ _ _ (proj2 X) (proj2 La))|exact (Z.lt_le_trans _ _ _ (proj2 X) (proj2 Lb))]. }
    assert (FN : RUserRequest <> RNone) by discriminate.
    destruct (WatchProofs.watched exec evicted reg_id reg_size csr_id csr_get csr_set code m0 steps (p + 28) RUserRequest HB P32 K1 K3 FN CL h s HH) as (BP & i & Li & Sh & St & Fi).
    assert (RES : forall x, shows x (ref exec steps m0) -> (forall q, In q (t_bps x) -> word_in_code code q) -> result x).
    { intros x (X1 & X2 & X3 & _) XB. unfold result. rewrite X1, X2.
      assert (LD : lanebytes (dst_ty o T) = 2 ^ k).
      { unfold lanebytes. replace (bits (dst_ty o T)) with (bits T) by (clear; now destruct o, T). rewrite HT. rewrite Z.mul_comm. apply Z.div_mul. lia. }
      assert (Pk : 0 < 2 ^ k) by (apply Z.pow_pos_nonneg; lia).
      split; [exact K4|]. split.
      - intros j old Hj. replace (elem (dst_ty o T) (t_mem x) out j) with (elem (dst_ty o T) (m_mem (ref exec steps m0)) out j); [now apply K6|].
        apply MachProofs3.elem_ext. rewrite LD. intros t Ht. symmetry. apply X3. intros (q & Hq & Hu).
        assert (W : window (out + j * 2 ^ k + t)) by (unfold window; clear - Hj Ht Pk; set (z := 2 ^ k) in *; clearbody z; nia).
        assert (Cd : code (out + j * 2 ^ k + t)).
        { pose proof (XB q Hq (out + j * 2 ^ k + t - q) ltac:(lia)) as Y. replace (q + (out + j * 2 ^ k + t - q)) with (out + j * 2 ^ k + t) in Y by lia. exact Y. }
        exact (proj1 (HC _ Cd) W).
      - split; [|split; [exact G2|exact G3]]. intros A NA NB. rewrite X3 by exact NB. now apply K5. }
    split; [exists i; auto|]. split.
    - intros D. apply Fi in D. rewrite D in Sh. exact (RES s Sh BP).
    - intros fuel Hfu.
      destruct (WatchProofs.watched_ends exec evicted reg_id reg_size csr_id csr_get csr_set code m0 steps (p + 28) RUserRequest HB P32 K1 K3 FN CL h s fuel HH Hfu) as (c & s' & Hc & HR & HF & Sh' & EB & _).
      exists c, s'. split; [exact Hc|]. split; [exact HR|]. split; [exact HF|]. split; [apply (RES s' Sh'); rewrite EB; exact BP|exact EB].
  Qed.
End Kernel.
Print Assumptions C85_watched.
Print Assumptions C85_ends.
Print Assumptions C85_kernel.

(** ** Cases *)
(** The words 1 2 5 7: three instructions and a halt. *)
Definition short : list Z := [1; 2; 5; 7].
Definition short_code (x : Z) : Prop := 0 <= x < 16.
Lemma short_clean i : (i < 4)%nat -> clean toy_exec short_code (ref toy_exec i (toy_m0 short)).
Proof.
  intros Hi. assert (D : i = 0%nat \/ i = 1%nat \/ i = 2%nat \/ i = 3%nat) by lia. clear Hi.
  assert (HP : forall m, In (m_pc m) [0; 4; 8; 12] -> In (word_at m) [1; 2; 5; 7] -> clean toy_exec short_code m).
  { intros m P W. cbn [In] in P, W. split; [lia|]. split; [destruct P as [<-|[<-|[<-|[<-|[]]]]]; reflexivity|]. split; [intros j Hj; unfold short_code; lia|]. cbn zeta.
    unfold toy_exec. cbn [f_mem f_arch f_pc f_halt]. split; [|split].
    - intros mem SD. split; [|split; [|repeat split]].
      + intros x Hx. unfold short_code in Hx. destruct (_ =? 5); [|reflexivity]. unfold upd1. now replace (x =? 100) with false by lia.
      + intros x Hx. destruct (_ =? 5); [|now apply SD]. unfold upd1. destruct (x =? 100); [reflexivity|now apply SD].
    - destruct (_ =? 9); [lia|]. apply Z.mod_pos_bound. lia.
    - intros r. destruct (_ =? 7); [intros [= <-]; split; discriminate|discriminate]. }
  apply HP; destruct D as [->|[->|[->| ->]]]; vm_compute; auto.
Qed.
(** Stopped at a breakpoint on the store; then two more Runs end the program. *)
Definition short_calls : list call := [CStep 1; CSetBp 8; CRun 9; CReadReg "x1"; CSetBp 4].
Example C85_case :
  exists rs s, toy_history (watch short_code (toy_m0 short) 12 (ROther 1)) (toy_fresh short) (combine short_calls rs) s /\
    rs = [RVal 1; ROk; ROk; RVal 12; ROk] /\ t_reason s = RSwBreakpoint /\ t_pc s = 8 /\
    bytes_ok (toy_words short) /\ halts_at toy_exec (toy_m0 short) 4 (ROther 1) /\ m_pc (ref toy_exec 3 (toy_m0 short)) = 12 /\
    (forall i, (i < 4)%nat -> clean toy_exec short_code (ref toy_exec i (toy_m0 short))) /\
    exists n s', (n <= 5)%nat /\ runs toy_exec never 4 n s s' /\ t_reason s' = ROther 1 /\ t_pc s' = 16 /\ a_regs (t_arch s') 1 = 1257.
Proof.
  destruct (play short_calls (toy_fresh short)) as [[[rs s]| |]|] eqn:E; try (vm_compute in E; discriminate E).
  assert (X : seen (play short_calls (toy_fresh short)) = Some (rs, t_pc s, a_regs (t_arch s) 1, t_reason s)) by (rewrite E; reflexivity).
  assert (V : seen (play short_calls (toy_fresh short)) = Some ([RVal 1; ROk; ROk; RVal 12; ROk], 8, 12, RSwBreakpoint)) by (vm_compute; reflexivity).
  rewrite V in X. injection X as X1 X2 _ X3. clear V.
  assert (HA : halts_at toy_exec (toy_m0 short) 4 (ROther 1)).
  { split; [lia|]. split; [|vm_compute; reflexivity]. intros i Hi. assert (D : i = 0%nat \/ i = 1%nat \/ i = 2%nat) by lia. destruct D as [->|[->| ->]]; vm_compute; reflexivity. }
  assert (HH : toy_history (watch short_code (toy_m0 short) 12 (ROther 1)) (toy_fresh short) (combine short_calls rs) s).
  { apply (play_history _ _ _ _ _ E). intros l1 c l2 rs1 s1 EL EP.
    destruct l1 as [|c1 l1]; [injection EL as <- _; vm_compute in EP; injection EP as _ <-; cbn [watch]|injection EL as <- EL]. { split; discriminate. }
    destruct l1 as [|c1 l1]; [injection EL as <- _; vm_compute in EP; injection EP as _ <-; cbn [watch]|injection EL as <- EL]. { split; [|discriminate]. split; [lia|]. split; [reflexivity|]. split; [intros i Hi; unfold short_code; lia|vm_compute; discriminate]. }
    destruct l1 as [|c1 l1]; [injection EL as <- _; vm_compute in EP; injection EP as _ <-; cbn [watch]|injection EL as <- EL]. { discriminate. }
    destruct l1 as [|c1 l1]; [injection EL as <- _; vm_compute in EP; injection EP as _ <-; cbn [watch]|injection EL as <- EL]. { exact I. }
    destruct l1 as [|c1 l1]; [injection EL as <- _; vm_compute in EP; injection EP as _ <-; cbn [watch]|injection EL as <- EL]. { split; [|discriminate]. split; [lia|]. split; [reflexivity|]. split; [intros i Hi; unfold short_code; lia|vm_compute; discriminate]. }
    destruct l1; discriminate EL. }
  exists rs, s. split; [exact HH|]. split; [now rewrite <- X1|]. split; [now rewrite <- X3|]. split; [now rewrite <- X2|]. split; [apply toy_bytes|]. split; [exact HA|]. split; [reflexivity|]. split; [exact short_clean|].
  destruct (C85_ends toy_exec never toy_reg toy_size toy_csr (fun _ _ => 0) (fun _ _ c => c) short_code (toy_m0 short) 4 12 (ROther 1) _ s 4
    (toy_bytes _) ltac:(vm_compute; intuition congruence) HA eq_refl ltac:(discriminate) short_clean HH ltac:(lia)) as (n & s' & Hn & HR & HF & (P1 & P2 & _) & _).
  exists n, s'. split; [exact Hn|]. split; [exact HR|]. split; [exact HF|]. rewrite P1, P2. split; vm_compute; reflexivity.
Qed.
(** The addition of two arrays of 40 words with a breakpoint on the store of the
    result: repeated Runs end with the sums in memory. *)
Import PropMach.
Definition k_code (x : Z) : Prop := 0 <= x < 0 + 32.
Definition k_start : mach (C := core unit) := Mach 0 (m_arch0 k_regs) k_mem.
Example C85_kernel_case :
  exists s, history m_exec never (fun _ => None) (fun _ => 4) (fun _ => None) (fun _ _ => 0) (fun _ _ c => c) (watch k_code k_start (0 + 28) RUserRequest) (fresh (m_arch0 k_regs) k_mem 0) [(CSetBp 16, ROk)] s /\
    t_bps s = [16] /\
    exists n s', (n <= 16)%nat /\ runs m_exec never 20 n s s' /\ t_reason s' = RUserRequest /\ t_pc s' = 32 /\
      is_mod 32 true (elem I32 k_mem 0x100 39 + elem I32 k_mem 0x210 39) (elem I32 (t_mem s') 0x300 39) /\ t_mem s' (0x300 + 160) = k_mem (0x300 + 160).
Proof.
  assert (E : match parse first_match vaddw with Some e => Some (meaning (e_name e)) | None => None end = Some (Some (SmVec (VEl OAdd I32) false true))) by (vm_compute; reflexivity).
  destruct (parse first_match vaddw) as [e|] eqn:P; [|discriminate E]. injection E as E.
  destruct (do_call m_exec never (fun _ => None) (fun _ => 4) (fun _ => None) (fun _ _ => 0) (fun _ _ c => c) (CSetBp 16) (fresh (m_arch0 k_regs) k_mem 0)) as [[[r s]| |]|] eqn:D;
    cbn [do_call set_breakpoint guarded fresh is_halted t_status has_bp t_bps existsb] in D; try discriminate D.
  assert (Er : r = ROk) by (injection D as <- _; reflexivity). assert (Eb : t_bps s = [16]) by (injection D as _ <-; reflexivity). subst r.
  assert (HH : history m_exec never (fun _ => None) (fun _ => 4) (fun _ => None) (fun _ _ => 0) (fun _ _ c => c) (watch k_code k_start (0 + 28) RUserRequest) (fresh (m_arch0 k_regs) k_mem 0) [(CSetBp 16, ROk)] s).
  { econstructor; [|exact D|constructor]. cbn [watch]. split; [|discriminate]. split; [lia|]. split; [reflexivity|]. split; [intros i Hi; unfold k_code; lia|vm_compute; discriminate]. }
  exists s. split; [exact HH|]. split; [exact Eb|].
  assert (C : placed k_mem 0 (kernel 2 vaddw)).
  { intros i w H. do 8 (destruct i as [|i]; [injection H as <-; vm_compute; reflexivity|]). destruct i; discriminate H. }
  assert (HB : bytes_ok k_mem).
  { intros x. unfold k_mem, words_at. destruct (_ && _); [apply Z.mod_pos_bound; reflexivity|]. unfold m_bytes. apply Z.mod_pos_bound. reflexivity. }
  pose proof (C85_kernel first_match (fun _ => None) m_sys (fun _ _ _ => 170) (fun _ => 0) never (fun _ => None) (fun _ => 4) (fun _ => None) (fun _ _ => 0) (fun _ _ c => c)
    2 vaddw 0 e OAdd I32 k_mem 40 0x100 0x210 0x300 (m_arch0 k_regs) [(CSetBp 16, ROk)] s
    PropDecode.first_match_ok PropFoot.m_sys_quiet PropFoot.no_zbb ltac:(lia) P E) as K. fold m_exec in K.
  destruct K as (_ & _ & K);
    [reflexivity|intros H; exact H|repeat apply conj; vm_compute; reflexivity|split; vm_compute; discriminate|reflexivity|exact C|exact HB|lia
    |split; vm_compute; discriminate|split; vm_compute; discriminate|split; vm_compute; discriminate|intros x; change (40 * 2 ^ 2) with 160; lia
    |right; vm_compute; discriminate|right; vm_compute; discriminate|intros i _; exact I|reflexivity|reflexivity|reflexivity|reflexivity|reflexivity|exact HH|].
  change (Z.to_nat (7 * Z.max 1 ((40 * 2 ^ 2 + 127) / 128) + 1)) with 15%nat in K.
  destruct (K 20%nat ltac:(lia)) as (n & s' & Hn & HR & HF & (R1 & R2 & R3 & _) & EB).
  exists n, s'. split; [exact Hn|]. split; [exact HR|]. split; [exact HF|]. split; [exact R1|]. split; [exact (R2 39 0 ltac:(lia))|].
  apply R3; [change (40 * 2 ^ 2) with 160; lia|]. rewrite EB, Eb. intros (q & [<-|[]] & Hq). lia.
Qed.
(** C85. Why the last instruction has no breakpoint: a Run that resumes there executes
    it and goes on past the end of the program. *)
Definition longer : list Z := [1; 2; 5; 7; 1; 7].
Theorem C85_last_refuted :
  halts_at toy_exec (toy_m0 longer) 4 (ROther 1) /\
  seen (play [CSetBp 12; CRun 9; CRun 9] (toy_fresh longer)) = Some ([ROk; ROk; ROk], 24, 125717, ROther 1) /\
  m_pc (ref toy_exec 4 (toy_m0 longer)) = 16.
Proof.
  split; [|split; vm_compute; reflexivity]. split; [lia|]. split; [|vm_compute; reflexivity].
  intros i Hi. assert (D : i = 0%nat \/ i = 1%nat \/ i = 2%nat) by lia. destruct D as [->|[->| ->]]; vm_compute; reflexivity.
Qed.
Print Assumptions C85_last_refuted.
