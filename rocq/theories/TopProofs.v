(** * Proofs about breakpoints, Step and Run *)
From Coq Require Import ZArith List Bool String Lia.
From Verif Require Import CInt TopModel TopSpec.
From Coq Require Import ZifyBool ZifyNat.
Import ListNotations.
Open Scope Z_scope.
Ltac Zify.zify_post_hook ::= Z.div_mod_to_equations.

Lemma reason_eqb_eq a b : reason_eqb a b = true <-> a = b.
Proof.
  destruct a, b; cbn; split; intros H; try discriminate; try reflexivity.
  - now apply Z.eqb_eq in H as ->.
  - injection H as ->. apply Z.eqb_refl.
Qed.
Lemma reason_eqb_neq a b : reason_eqb a b = false <-> a <> b.
Proof. rewrite <- reason_eqb_eq. destruct (reason_eqb a b); split; congruence. Qed.

Definition byte4 (w i : Z) : Z := (w / 2 ^ (8 * i)) mod 2 ^ 8.
Lemma store32_in m a w i : 0 <= i < 4 -> store32 m a w (a + i) = byte4 w i.
Proof.
  intros H. unfold store32, byte4. replace ((a <=? a + i) && (a + i <? a + 4)) with true by lia.
  now replace (a + i - a) with i by lia.
Qed.
Lemma store32_out m a w x : ~ a <= x < a + 4 -> store32 m a w x = m x.
Proof. intros H. unfold store32. replace ((a <=? x) && (x <? a + 4)) with false by lia. reflexivity. Qed.
Lemma load32_ext m m' a : (forall i, 0 <= i < 4 -> m (a + i) = m' (a + i)) -> load32 m a = load32 m' a.
Proof.
  intros H. unfold load32. rewrite <- (Z.add_0_r a) at 1 5. rewrite !H by lia. reflexivity.
Qed.
Lemma load32_store m a w : 0 <= w < 2 ^ 32 -> load32 (store32 m a w) a = w.
Proof.
  intros H. unfold load32. rewrite <- (Z.add_0_r a) at 2. rewrite !store32_in by lia. unfold byte4.
  change (8 * 0) with 0. change (8 * 1) with 8. change (8 * 2) with 16. change (8 * 3) with 24.
  change (2 ^ 0) with 1. change (2 ^ 8) with 256. change (2 ^ 16) with 65536. change (2 ^ 24) with 16777216.
  change (2 ^ 32) with 4294967296 in H. lia.
Qed.
Lemma byte4_load m a i : (forall i, 0 <= i < 4 -> 0 <= m (a + i) < 256) -> 0 <= i < 4 -> byte4 (load32 m a) i = m (a + i).
Proof.
  intros H Hi. pose proof (H 0 ltac:(lia)) as H0. pose proof (H 1 ltac:(lia)). pose proof (H 2 ltac:(lia)). pose proof (H 3 ltac:(lia)).
  rewrite Z.add_0_r in H0. unfold byte4, load32.
  change (2 ^ 8) with 256. change (2 ^ 16) with 65536. change (2 ^ 24) with 16777216.
  assert (C : i = 0 \/ i = 1 \/ i = 2 \/ i = 3) by lia.
  destruct C as [-> |[-> |[-> | ->]]].
  - change (2 ^ (8 * 0)) with 1. rewrite Z.add_0_r. lia.
  - change (2 ^ (8 * 1)) with 256. lia.
  - change (2 ^ (8 * 2)) with 65536. lia.
  - change (2 ^ (8 * 3)) with 16777216. lia.
Qed.

Definition al (a : Z) : Prop := 0 <= a /\ a mod 4 = 0.
Lemma al_apart a b x y : al a -> al b -> a <= x < a + 4 -> b <= y < b + 4 -> x = y -> a = b.
Proof. unfold al. lia. Qed.

Section P.
  Context {C : Type}.
  Notation arch := (arch (C := C)).
  Notation top := (top (C := C)).
  Notation mach := (mach (C := C)).
  Variable exec : Z -> Z -> arch -> (Z -> Z) -> effect (C := C).
  Variable evicted : Z -> Z -> bool.
  Variable code : Z -> Prop.
  Variable m0 : mach.
  Hypothesis bytes0 : bytes_ok (m_mem m0).

  Notation clean := (clean exec code).
  Notation ref_step := (ref_step exec).
  Notation ref := (ref exec).
  Notation fetch := (fetch evicted).
  Notation execute := (execute exec).
  Notation step_past := (step_past exec evicted).
  Notation iteration := (iteration exec evicted).
  Notation wic := (word_in_code code).

  (** Memory [mem] is [m] with ebreak planted at the addresses [P]. *)
  Definition planted (P : Z -> Prop) (mem m : Z -> Z) : Prop :=
    (forall x, ~ (exists a, P a /\ a <= x < a + 4) -> mem x = m x) /\
    (forall a i, P a -> 0 <= i < 4 -> mem (a + i) = byte4 ebreak i).
  Record J (P : Z -> Prop) (m : mach) (s : top) : Prop := {
    j_arch : t_arch s = m_arch m;
    j_mem : planted P (t_mem s) (m_mem m);
    j_P : forall a, P a -> al a /\ wic a;
    j_code : forall x, code x -> m_mem m x = m_mem m0 x;
    j_map : forall a w, t_map s a = Some w -> w = load32 (m_mem m0) a;
    j_coh : forall a w, al a -> wic a -> t_cache s a = Some w -> w = load32 (t_mem s) a }.
  (** Fields that a fetch or a memory patch leaves alone. *)
  Definition ctl (s s' : top) : Prop :=
    t_pc s' = t_pc s /\ t_status s' = t_status s /\ t_reason s' = t_reason s /\ t_halted s' = t_halted s /\
    t_need s' = t_need s /\ t_bps s' = t_bps s /\ t_insts s' = t_insts s.
  Lemma ctl_refl s : ctl s s. Proof. repeat split. Qed.
  Lemma ctl_trans a b c : ctl a b -> ctl b c -> ctl a c.
  Proof. unfold ctl. intuition congruence. Qed.

  Lemma fetch_ok P m s a : J P m s -> al a -> wic a ->
    exists s', fetch a s = (load32 (t_mem s) a, s') /\ J P m s' /\ ctl s s' /\ t_map s' = t_map s /\ t_mem s' = t_mem s.
  Proof.
    intros HJ Ha Hw. unfold TopModel.fetch.
    destruct (if evicted (t_tick s) a then None else t_cache s a) as [w|] eqn:E.
    - destruct (evicted (t_tick s) a); [discriminate|].
      rewrite (j_coh _ _ _ HJ a w Ha Hw E). exists (tick s). split; [reflexivity|].
      split; [destruct HJ; constructor; assumption|]. repeat split.
    - eexists. split; [reflexivity|]. split; [|repeat split].
      destruct HJ. constructor; try assumption. cbn [t_cache t_mem tick set_cache]. intros b w Hb Hwb. unfold upd1.
      destruct (Z.eqb_spec b a) as [-> |]; [intros X; now injection X as <-|]. now apply j_coh0.
  Qed.

  Lemma wic_bytes m a : wic a -> (forall x, code x -> m x = m_mem m0 x) ->
    (forall i, 0 <= i < 4 -> 0 <= m (a + i) < 256) /\ load32 m a = load32 (m_mem m0) a.
  Proof.
    intros Hw H. split.
    - intros i Hi. rewrite H by (apply Hw; lia). apply bytes0.
    - apply load32_ext. intros i Hi. apply H, Hw, Hi.
  Qed.

  Lemma write_original_ok P m s a w : J P m s -> al a -> wic a -> t_map s a = Some w ->
    let s' := write_original a s in
    J (fun x => P x /\ x <> a) m s' /\ ctl s s' /\ t_map s' = t_map s.
  Proof.
    intros HJ Ha Hw Hm. unfold write_original. rewrite Hm. cbn zeta. split; [|repeat split].
    destruct (wic_bytes (m_mem m) a Hw (j_code _ _ _ HJ)) as [B L].
    assert (W : w = load32 (m_mem m) a) by (rewrite L; now apply (j_map _ _ _ HJ)).
    destruct HJ as [A [M1 M2] PP CO MA CH]. constructor; cbn [t_arch t_mem t_map t_cache set_cache set_mem]; try assumption.
    - split.
      + intros x Hx. destruct (Z_le_dec a x) as [L1|L1]; [destruct (Z_lt_dec x (a + 4)) as [L2|L2]|].
        * replace x with (a + (x - a)) by lia. rewrite store32_in by lia. rewrite W. apply byte4_load; [exact B|lia].
        * rewrite store32_out by lia. apply M1. intros (b & Hb & Hbx). apply Hx. exists b. split; [split; [exact Hb|lia]|lia].
        * rewrite store32_out by lia. apply M1. intros (b & Hb & Hbx). apply Hx. exists b. split; [split; [exact Hb|lia]|lia].
      + intros b i [Hb Hne] Hi. rewrite store32_out; [now apply M2|]. intros K.
        apply Hne. destruct (PP b Hb) as [Ab _]. eapply (al_apart b a (b + i) (b + i)); (eassumption || lia || reflexivity).
    - intros b [Hb _]. now apply PP.
    - intros b v Hb Hwb. unfold upd1. destruct (Z.eqb_spec b a) as [-> |Hne]; [discriminate|]. intros X.
      rewrite (CH b v Hb Hwb X). apply load32_ext. intros i Hi. rewrite store32_out; [reflexivity|]. intros K. apply Hne.
      eapply (al_apart b a (b + i) (b + i)); (eassumption || lia || reflexivity).
  Qed.

  Lemma write_breakpoint_ok P m s a : J P m s -> al a -> wic a -> ~ P a ->
    let s' := write_breakpoint a s in
    J (fun x => P x \/ x = a) m s' /\ ctl s s' /\ t_map s' a <> None /\
    (forall b, t_map s b <> None -> t_map s' b <> None).
  Proof.
    intros HJ Ha Hw Hn. unfold write_breakpoint.
    set (s1 := match t_map s a with None => set_map (upd1 (t_map s) a (Some (load32 (t_mem s) a))) s | Some _ => s end).
    assert (L : load32 (t_mem s) a = load32 (m_mem m0) a).
    { destruct (wic_bytes (m_mem m) a Hw (j_code _ _ _ HJ)) as [_ <-]. apply load32_ext. intros i Hi.
      apply (proj1 (j_mem _ _ _ HJ)). intros (b & Hb & Hbx). apply Hn.
      destruct (j_P _ _ _ HJ b Hb) as [Ab _]. replace a with b; [exact Hb|].
      eapply (al_apart b a (a + i) (a + i)); (eassumption || lia || reflexivity). }
    assert (J1 : J P m s1 /\ ctl s s1 /\ t_map s1 a <> None /\ (forall b, t_map s b <> None -> t_map s1 b <> None)).
    { unfold s1. destruct (t_map s a) as [w|] eqn:E; [split; [exact HJ|split; [apply ctl_refl|split; [congruence|auto]]]|].
      split; [|split; [repeat split|]].
      - destruct HJ. constructor; try assumption. cbn [t_map set_map]. intros b w. unfold upd1.
        destruct (Z.eqb_spec b a) as [-> |]; [intros X; now injection X as <-|apply j_map0].
      - cbn [t_map set_map]. unfold upd1. rewrite Z.eqb_refl. split; [discriminate|]. intros b. destruct (b =? a); [discriminate|auto]. }
    clearbody s1. destruct J1 as (HJ1 & HC & HN & HM). clear HJ.
    cbn zeta. split; [|split; [|split; [exact HN|exact HM]]].
    2: { destruct HC as (?&?&?&?&?&?&?). repeat split; assumption. }
    destruct HJ1 as [A [M1 M2] PP CO MA CH]. constructor; cbn [t_arch t_mem t_map t_cache set_cache set_mem]; try assumption.
    - split.
      + intros x Hx. rewrite store32_out; [apply M1|].
        * intros (b & Hb & Hbx). apply Hx. exists b. tauto.
        * intros K. apply Hx. exists a. tauto.
      + intros b i [Hb| ->] Hi; [|now apply store32_in].
        rewrite store32_out; [now apply M2|]. intros K. apply Hn. destruct (PP b Hb) as [Ab _].
        replace a with b; [exact Hb|]. eapply (al_apart b a (b + i) (b + i)); (eassumption || lia || reflexivity).
    - intros b [Hb| ->]; [now apply PP|auto].
    - intros b v Hb Hwb. unfold upd1. destruct (Z.eqb_spec b a) as [-> |Hne]; [discriminate|]. intros X.
      rewrite (CH b v Hb Hwb X). apply load32_ext. intros i Hi. rewrite store32_out; [reflexivity|]. intros K. apply Hne.
      eapply (al_apart b a (b + i) (b + i)); (eassumption || lia || reflexivity).
  Qed.

  Lemma load_planted P m s a : J P m s -> al a -> wic a ->
    (P a -> load32 (t_mem s) a = ebreak) /\ (~ P a -> load32 (t_mem s) a = load32 (m_mem m) a).
  Proof.
    intros HJ Ha Hw. destruct (j_mem _ _ _ HJ) as [M1 M2]. split; intros HP.
    - rewrite (load32_ext _ (store32 (t_mem s) a ebreak)); [apply load32_store; unfold ebreak; lia|].
      intros i Hi. rewrite store32_in by lia. now apply M2.
    - apply load32_ext. intros i Hi. apply M1. intros (b & Hb & Hbx). apply HP.
      destruct (j_P _ _ _ HJ b Hb) as [Ab _]. replace a with b; [exact Hb|].
      eapply (al_apart b a (a + i) (a + i)); (eassumption || lia || reflexivity).
  Qed.

  (** Executing the program's instruction at the pc of [m]. *)
  Lemma execute_ok P m s : J P m s -> clean m ->
    has_bp (m_pc m) s = false \/ word_at m <> ebreak ->
    let s' := execute (word_at m) (m_pc m) s in
    J P (ref_step m) s' /\ t_pc s' = m_pc (ref_step m) /\ t_bps s' = t_bps s /\ t_map s' = t_map s /\
    t_status s' = t_status s /\ t_need s' = t_need s /\ t_insts s' = t_insts s + 1 /\
    match ref_halt exec m with
    | Some r => t_halted s' = true /\ t_reason s' = r /\ r <> RSwBreakpoint /\ r <> RActionPoint
    | None => t_halted s' = t_halted s /\ t_reason s' = t_reason s
    end.
  Proof.
    intros HJ HC HE. unfold TopModel.execute, TopSpec.ref_step, ref_halt.
    destruct HC as (Rpc & Apc & Wpc & Hx & Rn & Hh). cbv zeta in Hx, Rn, Hh. unfold has_bp in *. cbn [t_bps set_pc set_pcv].
    destruct (Z.eqb_spec (word_at m) ebreak) as [EQ|NE].
    - destruct HE as [HE|]; [|contradiction]. rewrite HE. cbn [request_halt reason_eqb orb].
      split; [|repeat split; discriminate].
      destruct HJ. constructor; assumption.
    - cbn [t_arch t_mem set_pc set_pcv]. destruct HJ as [A [M1 M2] PP CO MA CH].
      rewrite A in *.
      assert (SD : same_data code (t_mem s) (m_mem m)).
      { intros x Hn. apply M1. intros (b & Hb & Hbx). apply Hn. destruct (PP b Hb) as [_ W].
        replace x with (b + (x - b)) by lia. apply W. lia. }
      destruct (Hx (t_mem s) SD) as (X1 & X2 & X3 & X4 & X5).
      set (f := exec (word_at m) (m_pc m) (m_arch m) (t_mem s)) in *.
      set (f0 := exec (word_at m) (m_pc m) (m_arch m) (m_mem m)) in *.
      destruct (Hx (m_mem m) (fun _ _ => eq_refl)) as (Y1 & _). fold f0 in Y1.
      assert (JJ : forall s1, t_arch s1 = f_arch f -> t_mem s1 = f_mem f -> t_map s1 = t_map s -> t_cache s1 = t_cache s ->
        J P (Mach (f_pc f0) (f_arch f0) (f_mem f0)) s1).
      { intros s1 E1 E2 E3 E4. constructor; cbn [m_arch m_mem]; rewrite ?E1, ?E2, ?E3, ?E4; try assumption.
        - split.
          + intros x Hn. 
            (* inside the code region both are unchanged, outside they agree *)
            assert (D : forall (Q : Prop), (code x -> Q) -> (~ code x -> Q) -> ~ ~ Q) by tauto.
            destruct (Z.eq_dec (f_mem f x) (f_mem f0 x)) as [|NQ]; [assumption|]. exfalso.
            apply (D (f_mem f x = f_mem f0 x)); [| |exact NQ].
            * intros Cx. rewrite X1, Y1 by exact Cx. now apply M1.
            * intros Cx. now apply X2.
          + intros a i HP Hi. rewrite X1; [now apply M2|]. destruct (PP a HP) as [_ W]. now apply W.
        - intros x Cx. rewrite Y1 by exact Cx. now apply CO.
        - intros a w Ha Hw Hcw. rewrite (CH a w Ha Hw Hcw). apply load32_ext. intros i Hi. symmetry. apply X1, Hw, Hi. }
      rewrite <- X5. destruct (f_halt f) as [r|] eqn:EH.
      + symmetry in X5. destruct (Hh r X5) as [N1 N2].
        assert (Q : reason_eqb r RSwBreakpoint || reason_eqb r RActionPoint = false)
          by (apply orb_false_iff; split; now apply reason_eqb_neq).
        unfold request_halt. rewrite Q. split; [apply JJ; reflexivity|]. cbn. rewrite X4. auto 10.
      + split; [apply JJ; reflexivity|]. cbn. rewrite X4. auto 10.
  Qed.

  Lemma J_set P m s s' : J P m s -> t_arch s' = t_arch s -> t_mem s' = t_mem s -> t_map s' = t_map s -> t_cache s' = t_cache s -> J P m s'.
  Proof. intros [A B D E F G] E1 E2 E3 E4. constructor; rewrite ?E1, ?E2, ?E3, ?E4; assumption. Qed.
  Lemma J_iff P Q m s : (forall a, P a <-> Q a) -> J P m s -> J Q m s.
  Proof.
    intros HQ [A [M1 M2] PP E F G]. constructor; try assumption.
    - split.
      + intros x Hx. apply M1. intros (a & Ha & Hax). apply Hx. exists a. rewrite <- HQ. auto.
      + intros a i Ha. apply M2. now apply HQ.
    - intros a Ha. apply PP. now apply HQ.
  Qed.

  Lemma ref_step_range m : clean m -> 0 <= m_pc (ref_step m) < 2 ^ 32.
  Proof.
    intros (_ & _ & _ & _ & R & _). unfold TopSpec.ref_step. destruct (word_at m =? ebreak); cbn [m_pc]; [lia|exact R].
  Qed.
  Definition bset (s : top) : Z -> Prop := fun a => In a (t_bps s).
  Lemma has_bp_iff a (s : top) : has_bp a s = true <-> In a (t_bps s).
  Proof.
    unfold has_bp. rewrite existsb_exists. split.
    - intros (x & Hx & E). now apply Z.eqb_eq in E as ->.
    - intros H. exists a. split; [exact H|apply Z.eqb_refl].
  Qed.
  Lemma has_bp_no a (s : top) : ~ In a (t_bps s) -> has_bp a s = false.
  Proof. intros H. destruct (has_bp a s) eqn:E; [apply has_bp_iff in E; contradiction|reflexivity]. Qed.

  (** The invariant around loops: breakpoints planted, all with saved originals. *)
  Record K (m : mach) (s : top) : Prop := {
    k_J : J (bset s) m s;
    k_pc : t_pc s = m_pc m;
    k_range : 0 <= m_pc m < 2 ^ 32;
    k_bp : forall a, In a (t_bps s) -> bp_ok code m0 a;
    k_saved : forall a, In a (t_bps s) -> t_map s a <> None }.
  Lemma K_flags m s s' : K m s -> t_arch s' = t_arch s -> t_mem s' = t_mem s -> t_map s' = t_map s -> t_cache s' = t_cache s ->
    t_bps s' = t_bps s -> t_pc s' = t_pc s -> K m s'.
  Proof.
    intros [A B R D E] E1 E2 E3 E4 E5 E6. constructor; unfold bset; rewrite ?E3, ?E5, ?E6; try assumption.
    apply (J_set _ _ s); assumption.
  Qed.
  Lemma bp_word m s a : K m s -> In a (t_bps s) -> load32 (m_mem m) a <> ebreak.
  Proof.
    intros HK Ha. destruct (k_bp _ _ HK a Ha) as (_ & _ & W & NE).
    destruct (wic_bytes (m_mem m) a W (j_code _ _ _ (k_J _ _ HK))) as [_ ->]. exact NE.
  Qed.
  Lemma bp_al m s a : K m s -> In a (t_bps s) -> al a /\ wic a.
  Proof. intros HK Ha. destruct (k_bp _ _ HK a Ha) as (R & A & W & _). split; [split; assumption|exact W]. Qed.

  Lemma bp_dec (s : top) a : In a (t_bps s) \/ ~ In a (t_bps s).
  Proof. destruct (in_dec Z.eq_dec a (t_bps s)); auto. Qed.

  Definition halt_effect (m : mach) (s s' : top) : Prop :=
    match ref_halt exec m with
    | Some r => t_halted s' = true /\ t_reason s' = r /\ r <> RSwBreakpoint /\ r <> RActionPoint
    | None => t_halted s' = t_halted s /\ t_reason s' = t_reason s
    end.

  (** Stepping past the breakpoint at the pc is one program step. *)
  Lemma step_past_ok m s : K m s -> clean m -> In (t_pc s) (t_bps s) ->
    let s' := step_past s in
    K (ref_step m) s' /\ t_bps s' = t_bps s /\ t_status s' = t_status s /\ t_need s' = t_need s /\
    t_insts s' = t_insts s + 1 /\ halt_effect m s s'.
  Proof.
    intros HK HC Hin. unfold TopModel.step_past. pose proof (k_pc _ _ HK) as Epc. rewrite Epc in *.
    set (a := m_pc m) in *. destruct (bp_al _ _ _ HK Hin) as [Aa Wa].
    destruct (t_map s a) as [w|] eqn:Em; [|now destruct (k_saved _ _ HK a Hin)].
    destruct (write_original_ok _ _ _ a w (k_J _ _ HK) Aa Wa Em) as (J1 & C1 & M1).
    set (s1 := write_original a s) in *. cbv zeta.
    destruct (fetch_ok _ _ _ a J1 Aa Wa) as (s2 & E2 & J2 & C2 & M2 & N2). rewrite E2.
    destruct (load_planted _ _ _ a J1 Aa Wa) as [_ L].
    assert (EW : load32 (t_mem s1) a = word_at m) by (apply L; tauto). rewrite EW.
    assert (NE : word_at m <> ebreak) by (apply (bp_word _ _ _ HK Hin)).
    destruct (execute_ok _ _ _ J2 HC (or_intror NE)) as (J3 & P3 & B3 & M3 & S3 & N3 & I3 & H3).
    fold a in J3, P3, B3, M3, S3, N3, I3, H3. set (s3 := execute (word_at m) a s2) in *.
    destruct (write_breakpoint_ok _ _ _ a J3 Aa Wa) as (J4 & C4 & M4 & M4'); [tauto|].
    set (s4 := write_breakpoint a s3) in *.
    destruct C1 as (c1 & c2 & c3 & c4 & c5 & c6 & c7). destruct C2 as (d1 & d2 & d3 & d4 & d5 & d6 & d7).
    destruct C4 as (e1 & e2 & e3 & e4 & e5 & e6 & e7).
    assert (EB : t_bps s4 = t_bps s) by congruence.
    split; [|split; [exact EB|]].
    - constructor.
      + eapply J_iff; [|exact J4]. intros b. unfold bset. rewrite EB. cbn.
        destruct (Z.eq_dec b a) as [-> |]; tauto.
      + congruence.
      + now apply ref_step_range.
      + rewrite EB. apply (k_bp _ _ HK).
      + rewrite EB. intros b Hb. apply M4'. rewrite M3, M2, M1. now apply (k_saved _ _ HK).
    - split; [congruence|]. split; [congruence|]. split; [lia|].
      unfold halt_effect. destruct (ref_halt exec m) as [r|].
      + destruct H3 as (q1 & q2 & q3). split; [congruence|]. split; [congruence|exact q3].
      + destruct H3. split; congruence.
  Qed.

  (** An iteration at a breakpoint stops there, elsewhere it is one program step. *)
  Lemma iteration_bp b m s : K m s -> In (m_pc m) (t_bps s) ->
    let '(go, np, s') := iteration b (m_pc m) s in
    go = false /\ K m (set_pcv (m_pc m) s') /\ t_bps s' = t_bps s /\ t_status s' = t_status s /\
    t_reason s' = RSwBreakpoint /\ t_need s' = true /\ t_halted s' = true /\ t_insts s' = t_insts s + 1.
  Proof.
    intros HK Hin. unfold TopModel.iteration. set (a := m_pc m) in *.
    destruct (bp_al _ _ _ HK Hin) as [Aa Wa].
    destruct (fetch_ok _ _ _ a (k_J _ _ HK) Aa Wa) as (s2 & E2 & J2 & C2 & M2 & N2). rewrite E2.
    destruct (load_planted _ _ _ a (k_J _ _ HK) Aa Wa) as [L _]. rewrite (L Hin).
    unfold TopModel.execute. rewrite Z.eqb_refl.
    destruct C2 as (c1 & c2 & c3 & c4 & c5 & c6 & c7).
    assert (HB : has_bp a (set_pc (a + 4) s2) = true) by (apply has_bp_iff; cbn; now rewrite c6). rewrite HB.
    cbn [t_halted t_reason t_pc request_halt reason_eqb orb set_need set_halted set_reason count1 negb andb set_pc set_pcv t_bps t_status t_need t_insts].
    split; [reflexivity|]. split; [|repeat split; try assumption; lia].
    constructor.
    - apply (J_set _ _ s2); try reflexivity. eapply J_iff; [|exact J2]. intros x. unfold bset. cbn. rewrite c6. tauto.
    - reflexivity.
    - apply (k_range _ _ HK).
    - cbn. rewrite c6. apply (k_bp _ _ HK).
    - cbn. rewrite c6, M2. apply (k_saved _ _ HK).
  Qed.
  Lemma iteration_step b m s : K m s -> clean m -> ~ In (m_pc m) (t_bps s) -> t_halted s = false ->
    let '(go, np, s') := iteration b (m_pc m) s in
    K (ref_step m) s' /\ np = t_pc s' /\ t_bps s' = t_bps s /\ t_status s' = t_status s /\ t_need s' = t_need s /\
    t_insts s' = t_insts s + 1 /\ halt_effect m s s' /\
    go = match ref_halt exec m with Some _ => false | None => true end.
  Proof.
    intros HK HC Hin Hh. unfold TopModel.iteration. set (a := m_pc m) in *.
    destruct HC as (R & A & W & HC') eqn:EC. pose proof (conj R (conj A (conj W HC'))) as HC2. clear EC.
    assert (Aa : al a) by (split; [unfold a; lia|exact A]).
    destruct (fetch_ok _ _ _ a (k_J _ _ HK) Aa W) as (s2 & E2 & J2 & C2 & M2 & N2). rewrite E2.
    destruct (load_planted _ _ _ a (k_J _ _ HK) Aa W) as [_ L].
    assert (EW : load32 (t_mem s) a = word_at m) by (apply L; exact Hin). rewrite EW.
    destruct C2 as (d1 & d2 & d3 & d4 & d5 & d6 & d7).
    assert (HB : has_bp (m_pc m) s2 = false) by (apply has_bp_no; now rewrite d6).
    destruct (execute_ok _ _ _ J2 HC2 (or_introl HB)) as (J3 & P3 & B3 & M3 & S3 & N3 & I3 & H3).
    fold a in J3, P3, B3, M3, S3, N3, I3, H3. set (s3 := execute (word_at m) a s2) in *.
    assert (HK3 : K (ref_step m) s3).
    { constructor.
      - unfold bset in *. rewrite B3, d6. exact J3.
      - exact P3.
      - now apply ref_step_range.
      - rewrite B3, d6. apply (k_bp _ _ HK).
      - rewrite B3, d6, M3, M2. apply (k_saved _ _ HK). }
    assert (HE : halt_effect m s s3).
    { unfold halt_effect. destruct (ref_halt exec m); destruct H3 as [h1 h2]; split; (congruence || tauto). }
    destruct (t_halted s3) eqn:Eh; cbn [negb].
    - unfold halt_effect in HE. destruct (ref_halt exec m) as [r|] eqn:Er; [|destruct HE; congruence].
      destruct HE as (h1 & h2 & h3 & h4). assert (NA : reason_eqb (t_reason s3) RActionPoint = false)
        by (apply reason_eqb_neq; congruence). rewrite NA.
      split; [exact HK3|]. split; [reflexivity|]. split; [congruence|]. split; [congruence|]. split; [congruence|].
      split; [lia|]. split; [|reflexivity]. unfold halt_effect. rewrite Er. auto.
    - split; [exact HK3|]. split; [reflexivity|]. split; [congruence|]. split; [congruence|]. split; [congruence|].
      split; [lia|]. split; [exact HE|]. unfold halt_effect in HE. destruct (ref_halt exec m) as [r|]; [destruct HE; congruence|reflexivity].
  Qed.
End P.
