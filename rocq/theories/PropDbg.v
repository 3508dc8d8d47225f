(** * The debugger as a whole: C84 *)
From Coq Require Import ZArith List Bool String Lia.
From Verif Require Import CInt TopModel TopSpec DbgSpec TopToy.
From Verif Require DbgProofs.
From Coq Require Import ZifyBool ZifyNat.
Import ListNotations.
Open Scope Z_scope.

Section P.
  Context {C : Type}.
  Variable exec : Z -> Z -> arch (C := C) -> (Z -> Z) -> effect (C := C).
  Variable reg_id : string -> option Z.
  Variable reg_size : Z -> Z.
  Variable csr_id : string -> option Z.
  Variable csr_get : Z -> C -> Z.
  Variable csr_set : Z -> Z -> C -> C.
  Notation do evicted := (do_call exec evicted reg_id reg_size csr_id csr_get csr_set).
  Notation history evicted := (history exec evicted reg_id reg_size csr_id csr_get csr_set).
  Notation ideal_calls := (ideal_calls exec reg_id reg_size csr_id csr_get csr_set).
  Notation permitted := (permitted exec).
  Notation ref := (ref exec).
  Notation start m := (fresh (m_arch m) (m_mem m) (m_pc m)).
  Notation idle m := (Ideal m [] RNone 0).
  (** Every call made is one the ideal debugger permits where it is made. *)
  Definition all_permitted (code : Z -> Prop) (m0 : mach (C := C)) (h : list (call * ret)) : Prop :=
    forall h1 c r h2 d, h = h1 ++ (c, r) :: h2 -> ideal_calls (idle m0) h1 d -> permitted code m0 d c.

  (** C84. Any sequence of permitted calls gets from the simulator, call by call, the
      answers of the ideal debugger, which has no breakpoints in memory and no decode
      cache, and ends in what the ideal debugger shows: registers, memory,
      breakpoints, reason to halt and both counters. *)
  Theorem C84_refines evicted P code m0 h s :
    bytes_ok (m_mem m0) -> 0 <= m_pc m0 < 2 ^ 32 -> history evicted P (start m0) h s -> all_permitted code m0 h ->
    exists d, ideal_calls (idle m0) h d /\ mirrors s d.
  Proof.
    intros HB HP HH HA. destruct (DbgProofs.calls_R exec evicted reg_id reg_size csr_id csr_get csr_set code m0 HB P _ h s HH (idle m0) (DbgProofs.fresh_R code m0 HP) HA) as (d & H1 & H2).
    exists d. split; [exact H1|exact (DbgProofs.R_mirrors _ _ _ _ H2)].
  Qed.

  (** C84. The ideal debugger's answers and state are determined by the calls. *)
  Theorem C84_deterministic d cs rs1 d1 rs2 d2 : length rs1 = length cs -> length rs2 = length cs ->
    ideal_calls d (combine cs rs1) d1 -> ideal_calls d (combine cs rs2) d2 -> rs1 = rs2 /\ d1 = d2.
  Proof. exact (DbgProofs.ideal_calls_det exec (fun _ _ => false) reg_id reg_size csr_id csr_get csr_set (fun _ => True) cs d rs1 d1 rs2 d2). Qed.

  (** C84. After permitted calls another permitted call is never undefined and never
      aborts, and returns unless it is a Run and the program neither halts nor
      reaches a breakpoint: then it gets past any number of instructions. *)
  Theorem C84_progress evicted P code m0 h s d c :
    bytes_ok (m_mem m0) -> 0 <= m_pc m0 < 2 ^ 32 -> history evicted P (start m0) h s -> all_permitted code m0 h ->
    ideal_calls (idle m0) h d -> permitted code m0 d c ->
    match do evicted c s with
    | Some (Ok _) => True
    | Some _ => False
    | None => exists fuel, c = CRun fuel /\
        let k := if reason_eqb (d_reason d) RSwBreakpoint then 1%nat else 0%nat in
        forall i, (i < fuel)%nat -> ~ In (m_pc (ref (k + i) (d_mach d))) (d_bps d) /\ ref_halt exec (ref (k + i) (d_mach d)) = None
    end.
  Proof.
    intros HB HP HH HA HI Hc. destruct (DbgProofs.calls_R exec evicted reg_id reg_size csr_id csr_get csr_set code m0 HB P _ h s HH (idle m0) (DbgProofs.fresh_R code m0 HP) HA) as (d' & H1 & H2).
    assert (E : d' = d).
    { assert (L1 : length (map snd h) = length (map fst h)) by now rewrite !map_length.
      assert (Eh : combine (map fst h) (map snd h) = h) by (clear; induction h as [|[c r] h IH]; [reflexivity|cbn [map combine fst snd]; now rewrite IH]).
      exact (proj2 (C84_deterministic (idle m0) (map fst h) (map snd h) d' (map snd h) d L1 L1 ltac:(now rewrite Eh) ltac:(now rewrite Eh))). }
    rewrite E in H2. exact (DbgProofs.progress exec evicted reg_id reg_size csr_id csr_get csr_set code m0 HB d s c H2 Hc).
  Qed.

  (** C84. So the state of the decode cache is never seen: whichever entries it drops
      and whenever, the same calls get the same answers and the same visible state. *)
  Theorem C84_cache_unseen ev1 ev2 P1 P2 code m0 cs rs1 s1 rs2 s2 :
    bytes_ok (m_mem m0) -> 0 <= m_pc m0 < 2 ^ 32 -> length rs1 = length cs -> length rs2 = length cs ->
    history ev1 P1 (start m0) (combine cs rs1) s1 -> history ev2 P2 (start m0) (combine cs rs2) s2 ->
    all_permitted code m0 (combine cs rs1) -> all_permitted code m0 (combine cs rs2) ->
    rs1 = rs2 /\ exists d, mirrors s1 d /\ mirrors s2 d.
  Proof.
    intros HB HP L1 L2 H1 H2 A1 A2. destruct (C84_refines ev1 P1 code m0 _ s1 HB HP H1 A1) as (d1 & I1 & M1). destruct (C84_refines ev2 P2 code m0 _ s2 HB HP H2 A2) as (d2 & I2 & M2).
    destruct (C84_deterministic _ cs rs1 d1 rs2 d2 L1 L2 I1 I2) as [E1 E2]. split; [exact E1|]. exists d1. split; [exact M1|rewrite E2; exact M2].
  Qed.
End P.
Print Assumptions C84_refines.
Print Assumptions C84_deterministic.
Print Assumptions C84_progress.
Print Assumptions C84_cache_unseen.

(** ** Cases *)
Notation toy_ideals := (ideal_calls toy_exec toy_reg toy_size toy_csr (fun _ _ => 0) (fun _ _ c => c)).
Notation toy_permitted := (all_permitted toy_exec toy_reg toy_size toy_csr (fun _ _ => 0) (fun _ _ c => c)).
(** Two steps, breakpoints on the store and on the word behind it, runs from one to
    the other, and looks at a register, the breakpoint's bytes and the stored byte. *)
Definition dbg_calls : list call :=
  [CStep 2; CSetBp 8; CSetBp 8; CRun 9; CReadReg "x1"; CSetBp 12; CRun 9; CReadMem 12 4; CReadMem 100 1; CRun 9; CHasBp 12; CDisasm 8; CReadReg "x1"].
Lemma dbg_permitted rs : length rs = length dbg_calls -> toy_permitted toy_code (toy_m0 toy_prog) (combine dbg_calls rs).
Proof.
  intros L. assert (OK : forall h d0 d, toy_ideals d0 h d -> (forall c r, In (c, r) h -> In c dbg_calls) -> toy_ok (d_mach d0) -> toy_ok (d_mach d)).
  { induction 1 as [d0|d0 c r d1 h d2 Hc _ IH]; intros Hi H0; [exact H0|]. apply IH; [intros c' r' H'; apply (Hi c' r'); now right|].
    destruct Hc as [d0 c r d1 _ Hc|d0 c _].
    - destruct Hc; cbn [d_mach] in *; try exact H0; now apply toy_ref.
    - specialize (Hi c _ (or_introl eq_refl)). cbn [dbg_calls In] in Hi. repeat (destruct Hi as [<-|Hi]; [exact H0|]). destruct Hi. }
  intros h1 c r h2 d E HI.
  assert (K : toy_ok (d_mach d)).
  { apply (OK _ _ _ HI); [|exact toy_start]. intros c' r' H'. apply (in_combine_l dbg_calls rs c' r'). rewrite E. apply in_or_app. now left. }
  assert (CL : forall i, clean toy_exec toy_code (ref toy_exec i (d_mach d))) by (intros i; now apply toy_clean, toy_ref).
  assert (WC : forall a, In a [8; 12] -> word_in_code toy_code a) by (cbn [In]; intros a Ha i Hi; unfold toy_code; lia).
  destruct h1 as [|[c1 r1] h1].
  - destruct rs as [|r0 rs]; [discriminate L|]. injection E as <- _ _. inversion HI. subst d. split; [discriminate|]. intros i _ _. apply CL.
  - destruct rs as [|r0 rs]; [discriminate L|]. injection E as _ _ E.
    assert (Hc : In c (tl dbg_calls)) by (apply (in_combine_l _ rs c r); change (combine (tl dbg_calls) rs = h1 ++ (c, r) :: h2) in E; rewrite E; apply in_or_app; right; now left).
    cbn [dbg_calls tl In] in Hc.
    repeat (destruct Hc as [<-|Hc]; [cbn [permitted]; first [exact I|intros i _; apply CL|lia|
      (split; [lia|split; [reflexivity|]]; first [apply WC; cbn [In]; tauto|split; [apply WC; cbn [In]; tauto|vm_compute; discriminate]])]|]). destruct Hc.
Qed.
Example C84_refines_case :
  exists rs s, play dbg_calls (toy_fresh toy_prog) = Some (Ok (rs, s)) /\
    rs = [RVal 2; ROk; RErr EAlreadyExists; ROk; RVal 12; ROk; ROk; RBytes [0x73; 0; 0x10; 0]; RBytes [12]; ROk; RVal 1; RVal 5; RVal 1253912] /\
    bytes_ok (m_mem (toy_m0 toy_prog)) /\ toy_history (fun _ _ => True) (toy_fresh toy_prog) (combine dbg_calls rs) s /\
    toy_permitted toy_code (toy_m0 toy_prog) (combine dbg_calls rs) /\
    exists d, toy_ideals (Ideal (toy_m0 toy_prog) [] RNone 0) (combine dbg_calls rs) d /\ mirrors s d.
Proof.
  destruct (play dbg_calls (toy_fresh toy_prog)) as [[[rs s]| |]|] eqn:E; try (vm_compute in E; discriminate E).
  assert (ER : option_map (fun x => match x with Ok (rs, _) => rs | _ => [] end) (play dbg_calls (toy_fresh toy_prog)) = Some rs) by (rewrite E; reflexivity).
  vm_compute in ER. injection ER as ER.
  exists rs, s. split; [reflexivity|]. split; [now rewrite <- ER|]. split; [apply toy_bytes|].
  assert (H : toy_history (fun _ _ => True) (toy_fresh toy_prog) (combine dbg_calls rs) s) by (apply (play_history _ _ _ _ _ E); auto).
  assert (A : toy_permitted toy_code (toy_m0 toy_prog) (combine dbg_calls rs)) by (apply dbg_permitted; now rewrite <- ER).
  split; [exact H|]. split; [exact A|]. apply (C84_refines _ _ _ _ _ _ _ _ toy_code (toy_m0 toy_prog) _ _ (toy_bytes _)) in H; [exact H| |exact A]. vm_compute. intuition congruence.
Qed.
(** A program that halts in its third instruction and has no code behind it: Run is
    permitted, the words it would find there are not looked at. *)
Definition end_code (x : Z) : Prop := 0 <= x < 12.
Example C84_halting_case :
  toy_permitted end_code (toy_m0 [1; 2; 7]) [(CRun 9, ROk)] /\ ~ clean toy_exec end_code (ref toy_exec 3 (toy_m0 [1; 2; 7])) /\
  exists s, toy_history (fun _ _ => True) (toy_fresh [1; 2; 7]) [(CRun 9, ROk)] s /\ t_pc s = 12 /\ t_reason s = ROther 1 /\ t_insts s = 3.
Proof.
  split; [|split].
  - intros h1 c r h2 d E HI. destruct h1 as [|x [|y h1]]; [|discriminate E|discriminate E]. injection E as <- _ _. inversion HI. subst d. cbn [permitted d_bps d_reason d_mach].
    intros i [G _]. destruct (Nat.lt_ge_cases i 3) as [Hi|Hi].
    + assert (D : i = 0%nat \/ i = 1%nat \/ i = 2%nat) by lia. clear - D.
      assert (HP : forall m, In (m_pc m) [0; 4; 8] -> In (word_at m) [1; 2; 7] -> clean toy_exec end_code m).
      { intros m P W. cbn [In] in P, W. split; [lia|]. split; [destruct P as [<-|[<-|[<-|[]]]]; reflexivity|]. split; [intros j Hj; unfold end_code; lia|]. cbn zeta.
        assert (N5 : word_at m =? 5 = false) by lia. unfold toy_exec. rewrite N5. cbn [f_mem f_arch f_pc f_halt]. split; [|split].
        - intros mem SD. split; [reflexivity|]. split; [exact SD|repeat split].
        - destruct (_ =? 9); [lia|]. apply Z.mod_pos_bound. lia.
        - intros r. destruct (_ =? 7); [intros [= <-]; split; discriminate|discriminate]. }
      apply HP; destruct D as [->|[->| ->]]; vm_compute; auto.
    + destruct (G 2%nat ltac:(lia)) as [[X _]|[_ X]]; vm_compute in X; discriminate X.
  - intros (_ & _ & W & _). specialize (W 0 ltac:(lia)). vm_compute in W. destruct W as [_ W]. discriminate W.
  - destruct (play [CRun 9] (toy_fresh [1; 2; 7])) as [[[rs s]| |]|] eqn:E; try (vm_compute in E; discriminate E).
    assert (X : seen (play [CRun 9] (toy_fresh [1; 2; 7])) = Some (rs, t_pc s, a_regs (t_arch s) 1, t_reason s)) by (rewrite E; reflexivity).
    assert (Y : match play [CRun 9] (toy_fresh [1; 2; 7]) with Some (Ok (_, s)) => t_insts s | _ => 0 end = t_insts s) by (rewrite E; reflexivity).
    vm_compute in X, Y. injection X as X1 X2 _ X3. exists s. split; [|split; [exact (eq_sym X2)|split; [exact (eq_sym X3)|exact (eq_sym Y)]]].
    change [(CRun 9, ROk)] with (combine [CRun 9] [ROk]). rewrite X1. apply (play_history _ _ _ _ _ E). auto.
Qed.
(** The same calls with a decode cache that drops every entry at once. *)
Definition always (t a : Z) : bool := true.
Example C84_cache_case :
  toy_call (CRun 9) (toy_fresh toy_prog) = None /\
  match do_call toy_exec always toy_reg toy_size toy_csr (fun _ _ => 0) (fun _ _ c => c) (CSetBp 8) (toy_fresh toy_prog) with
  | Some (Ok (ROk, s)) => match do_call toy_exec always toy_reg toy_size toy_csr (fun _ _ => 0) (fun _ _ c => c) (CRun 9) s, toy_call (CSetBp 8) (toy_fresh toy_prog) with
      | Some (Ok (r, s1)), Some (Ok (_, s')) => match toy_call (CRun 9) s' with Some (Ok (r', s1')) => r = r' /\ t_pc s1 = t_pc s1' /\ t_insts s1 = 3 /\ t_insts s1' = 3 | _ => False end
      | _, _ => False end
  | _ => False end.
Proof. vm_compute. auto. Qed.
