(** * Watching a program that ends *)
From Coq Require Import ZArith List Bool String Lia.
From Verif Require Import CInt TopModel TopSpec DbgSpec CliSpec WatchSpec TopProofs TopProofs2 TopProofs3 TopProofs4 TopCor DbgProofs.
From Coq Require Import ZifyBool ZifyNat.
Import ListNotations.
Open Scope Z_scope.

Section P.
  Context {C : Type}.
  Notation top := (top (C := C)).
  Notation mach := (mach (C := C)).
  Variable exec : Z -> Z -> arch (C := C) -> (Z -> Z) -> effect (C := C).
  Variable evicted : Z -> Z -> bool.
  Variable reg_id : string -> option Z.
  Variable reg_size : Z -> Z.
  Variable csr_id : string -> option Z.
  Variable csr_get : Z -> C -> Z.
  Variable csr_set : Z -> Z -> C -> C.
  Notation call_ := (do_call exec evicted reg_id reg_size csr_id csr_get csr_set).
  Notation history := (history exec evicted reg_id reg_size csr_id csr_get csr_set).
  Notation ref := (ref exec).
  Notation ref_halt := (ref_halt exec).
  Notation permitted := (permitted exec).
  Notation after := (after reg_id reg_size csr_id csr_set).
  Variable code : Z -> Prop.
  Variable m0 : mach.
  Variable steps : nat.
  Variable last : Z.
  Variable fin : reason.
  Hypothesis bytes0 : bytes_ok (m_mem m0).
  Hypothesis pc0 : 0 <= m_pc m0 < 2 ^ 32.
  Hypothesis halts : halts_at exec m0 steps fin.
  Hypothesis last_pc : m_pc (ref (steps - 1) m0) = last.
  Hypothesis fin_some : fin <> RNone.
  Hypothesis all_clean : forall i, (i < steps)%nat -> clean exec code (ref i m0).
  Notation R := (R code m0).

  Lemma ref_comp i j (m : mach) : ref j (ref i m) = ref (i + j) m.
  Proof. induction j as [|j IH]; [now rewrite Nat.add_0_r|]. rewrite Nat.add_succ_r. cbn [TopSpec.ref]. now rewrite IH. Qed.
  Lemma steps_pos : (0 < steps)%nat.
  Proof. exact (proj1 halts). Qed.
  Lemma fin_bp : fin <> RSwBreakpoint.
  Proof.
    destruct halts as (P & _ & H). destruct (all_clean (steps - 1) ltac:(clear - P; lia)) as (_ & _ & _ & _ & _ & Q).
    unfold TopSpec.ref_halt in H. destruct (_ =? ebreak) in H; [injection H as <-; discriminate|]. exact (proj1 (Q _ H)).
  Qed.

  (** Where the program is, and its breakpoints. *)
  Record W (d : ideal) (i : nat) : Prop := {
    w_mach : d_mach d = ref i m0;
    w_le : (i <= steps)%nat;
    w_fin : d_reason d = fin <-> i = steps;
    w_bps : ~ In last (d_bps d) }.
  (** The last instruction bounds every way on. *)
  Lemma pass bps i j : (i < steps)%nat -> (forall a, (a < j)%nat -> (~ In (m_pc (ref a (ref i m0))) bps) /\ ref_halt (ref a (ref i m0)) = None) -> (i + j < steps)%nat.
  Proof.
    intros Hi H. destruct (Nat.lt_ge_cases (i + j) steps) as [L|L]; [exact L|exfalso].
    destruct (H (steps - 1 - i)%nat ltac:(lia)) as [_ Q]. rewrite ref_comp in Q. replace (i + (steps - 1 - i))%nat with (steps - 1)%nat in Q by lia.
    destruct halts as (_ & _ & E). congruence.
  Qed.
  Lemma stop bps i n r : (i < steps)%nat -> first_stop exec bps (ref i m0) 0 n r ->
    (i + n <= steps)%nat /\ (r = fin <-> (i + n)%nat = steps) /\ (r = fin \/ r = RSwBreakpoint).
  Proof.
    intros Hi (A & B & D). destruct D as [(-> & D1 & _ & D2)|(D1 & D2)].
    - assert (L : (i + n < steps)%nat) by (apply (pass bps); [exact Hi|]; intros a Ha; split; [apply A; lia|now apply D2]).
      split; [lia|]. split; [|now right]. pose proof fin_bp. split; [congruence|lia].
    - assert (L : (i + (n - 1) < steps)%nat) by (apply (pass bps); [exact Hi|]; intros a Ha; split; [apply A; lia|apply B; lia]).
      rewrite ref_comp in D2. destruct halts as (_ & E1 & E2).
      destruct (Nat.eq_dec (i + (n - 1)) (steps - 1)) as [E|E]; [|rewrite E1 in D2 by lia; discriminate].
      rewrite E, E2 in D2. injection D2 as <-. split; [lia|]. split; [|now left]. split; [lia|reflexivity].
  Qed.
  Lemma not_last d s i : R d s -> W d i -> d_reason d = RSwBreakpoint -> (i < steps)%nat -> (i + 1 < steps)%nat.
  Proof.
    intros HR [E _ _ B] Q Hi. destruct (Nat.eq_dec i (steps - 1)) as [->|N]; [exfalso|lia].
    assert (I : TopProofs3.Inv code m0 (d_mach d) s) by exact (r_inv _ _ _ _ HR).
    assert (N : t_need s = true) by (apply (i_need _ _ _ _ I); rewrite (r_reason _ _ _ _ HR); exact Q).
    pose proof (i_at _ _ _ _ I N) as At. rewrite (k_pc _ _ _ _ (i_K _ _ _ _ I)), (r_bps _ _ _ _ HR), E, last_pc in At. contradiction.
  Qed.
  Lemma gets_clean d s i j : R d s -> W d i -> (i < steps)%nat -> gets_to exec (d_bps d) (reason_eqb (d_reason d) RSwBreakpoint) (d_mach d) j ->
    clean exec code (ref j (d_mach d)).
  Proof.
    intros HR HW Hi [G _]. rewrite (w_mach _ _ HW) in *. rewrite ref_comp. apply all_clean.
    destruct (Nat.lt_ge_cases (i + j) steps) as [L|L]; [exact L|exfalso].
    destruct (G (steps - 1 - i)%nat ltac:(lia)) as [[Q1 Q2]|[_ Q]].
    - apply reason_eqb_eq in Q1. pose proof (not_last d s i HR HW Q1 Hi). lia.
    - rewrite ref_comp in Q. replace (i + (steps - 1 - i))%nat with (steps - 1)%nat in Q by lia. destruct halts as (_ & _ & E). congruence.
  Qed.
  Lemma watch_permitted d s i c : R d s -> W d i -> watch code m0 last fin c s -> permitted code m0 d c.
  Proof.
    intros HR HW H. pose proof (r_reason _ _ _ _ HR) as E.
    assert (L : t_reason s <> fin -> (i < steps)%nat) by (intros N; rewrite E in N; pose proof (w_le _ _ HW); pose proof (proj2 (w_fin _ _ HW)); destruct (Nat.eq_dec i steps); [tauto|lia]).
    destruct c; cbn [watch DbgSpec.permitted] in *; rewrite ?E in H; try exact H; try exact Logic.I; try contradiction.
    - destruct H as [H1 H2]. split; [exact H1|]. intros j _ G. apply (gets_clean d s i j HR HW); [apply L; congruence|]. now rewrite (proj2 (reason_eqb_neq _ _) H1).
    - intros j G. apply (gets_clean d s i j HR HW); [apply L; congruence|exact G].
    - exact (proj1 H).
    - rewrite (k_pc _ _ _ _ (i_K _ _ _ _ (r_inv _ _ _ _ HR))) in H. exact H.
  Qed.
  Lemma go_W d s i c r d' : R d s -> W d i -> watch code m0 last fin c s -> ideal_go exec d c r d' ->
    exists i', W d' i' /\ (i <= i')%nat /\
      (forall fuel, c = CRun fuel -> (d_reason d' = fin \/ d_reason d' = RSwBreakpoint) /\ (d_reason d = RSwBreakpoint -> (i < i')%nat) /\ (d_reason d' = RSwBreakpoint -> d_bps d <> [])).
  Proof.
    intros HR HW H G. pose proof (r_reason _ _ _ _ HR) as E. pose proof (fun Q => not_last d s i HR HW Q) as NL. destruct HW as [H1 H2 H3 H4].
    assert (L : t_reason s <> fin -> (i < steps)%nat) by (intros N; rewrite E in N; destruct (Nat.eq_dec i steps); [tauto|lia]).
    destruct G as [m bps r0 k fuel n r Hr FS|m bps k fuel n r FS|d num Hn|m bps r0 k num n Hn Hr En HA|m bps r0 k num n r Hn Hr FS Hle];
      cbn [d_mach d_bps d_reason d_count watch] in *.
    - rewrite H1 in *. destruct (stop bps i n r (L H) FS) as (S1 & S2 & S3). exists (i + n)%nat. split; [constructor; cbn [d_mach d_bps d_reason]; [now rewrite ref_comp|exact S1|exact S2|exact H4]|].
      split; [lia|]. intros f _. split; [exact S3|]. split; [congruence|]. intros Q. destruct FS as (_ & _ & [(_ & B & _)|(N0 & B)]); [intros X; rewrite X in B; exact B|].
      rewrite ref_comp in B. exfalso. pose proof fin_bp. destruct S3 as [S3|S3]; [congruence|]. destruct (Nat.eq_dec (i + n) steps) as [D|D]; [apply S2 in D; congruence|].
      assert (X : ref_halt (ref (i + (n - 1)) m0) = None); [|congruence]. apply (proj1 (proj2 halts)). specialize (L H). lia.
    - rewrite H1 in *. specialize (NL eq_refl (L H)). rewrite ref_comp in FS. destruct (stop bps (i + 1) n r NL FS) as (S1 & S2 & S3). exists (i + 1 + n)%nat.
      split; [constructor; cbn [d_mach d_bps d_reason]; [rewrite ref_comp; f_equal; lia|exact S1|exact S2|exact H4]|].
      split; [lia|]. intros f _. split; [exact S3|]. split; [lia|]. intros Q. destruct FS as (_ & _ & [(_ & B & _)|(N0 & B)]); [intros X; rewrite X in B; exact B|].
      rewrite ref_comp in B. exfalso. pose proof fin_bp. destruct (Nat.eq_dec (i + 1 + n) steps) as [D|D]; [apply S2 in D; congruence|].
      assert (X : ref_halt (ref (i + 1 + (n - 1)) m0) = None); [|congruence]. apply (proj1 (proj2 halts)). lia.
    - exists i. split; [now constructor|]. split; [lia|discriminate].
    - rewrite H1 in *. destruct H as [_ H]. pose proof (pass bps i n (L H) HA) as P. exists (i + n)%nat. split; [constructor; cbn [d_mach d_bps d_reason]; [now rewrite ref_comp|lia| |exact H4]|split; [lia|discriminate]].
      split; [congruence|lia].
    - rewrite H1 in *. destruct H as [_ H]. destruct (stop bps i n r (L H) FS) as (S1 & S2 & S3). exists (i + n)%nat. split; [constructor; cbn [d_mach d_bps d_reason]; [now rewrite ref_comp|exact S1|exact S2|exact H4]|split; [lia|discriminate]].
  Qed.
  Lemma call_W d s i c r s' : R d s -> W d i -> watch code m0 last fin c s -> call_ c s = Some (Ok (r, s')) ->
    exists d' i', R d' s' /\ W d' i' /\ (i <= i')%nat /\
      (forall fuel, c = CRun fuel -> r = ROk /\ (t_reason s' = fin \/ t_reason s' = RSwBreakpoint) /\ (t_reason s = RSwBreakpoint -> (i < i')%nat) /\ (t_reason s' = RSwBreakpoint -> t_bps s <> []) /\ t_bps s' = t_bps s).
  Proof.
    intros HR HW H HD. pose proof (watch_permitted d s i c HR HW H) as HP. destruct (goes c) eqn:Hg.
    - destruct (go_R exec evicted reg_id reg_size csr_id csr_get csr_set code m0 bytes0 d s c r s' HR HP Hg HD) as (d' & G & HR').
      destruct (go_W d s i c r d' HR HW H G) as (i' & HW' & L & Q). exists d', i'. split; [exact HR'|]. split; [exact HW'|]. split; [exact L|].
      intros fuel E. destruct (Q fuel E) as (Q1 & Q2 & Q3). rewrite (r_reason _ _ _ _ HR), (r_reason _ _ _ _ HR'), (r_bps _ _ _ _ HR), (r_bps _ _ _ _ HR').
      assert (X : r = ROk /\ d_bps d' = d_bps d) by (subst c; inversion G; split; reflexivity). destruct X as [X1 X2]. auto.
    - destruct (other_R exec evicted reg_id reg_size csr_id csr_get csr_set code m0 bytes0 d s c r s' HR HP Hg HD) as (_ & HR').
      exists (after c d), i. split; [exact HR'|]. split; [|split; [lia|intros fuel ->; discriminate Hg]].
      destruct HW as [H1 H2 H3 H4]. destruct c; try discriminate Hg; try contradiction; constructor; cbn [DbgSpec.after d_mach d_bps d_reason poke]; try assumption; cbn [watch] in H.
      + destruct (listed _ _); [exact H4|]. intros [X|X]; [exact (proj2 H X)|contradiction].
      + intros X. apply filter_In in X. tauto.
      + intros [].
  Qed.
  Lemma fresh_W : exists d, R d (fresh (m_arch m0) (m_mem m0) (m_pc m0)) /\ W d 0.
  Proof.
    exists (Ideal m0 [] RNone 0). split; [now apply fresh_R|]. pose proof steps_pos. constructor; cbn [d_mach d_bps d_reason]; [reflexivity|lia| |intros []].
    split; [congruence|lia].
  Qed.
  Lemma history_W h s : history (watch code m0 last fin) (fresh (m_arch m0) (m_mem m0) (m_pc m0)) h s -> exists d i, R d s /\ W d i.
  Proof.
    intros H. destruct fresh_W as (d & HR & HW).
    enough (Q : forall P s0 h s, history P s0 h s -> P = watch code m0 last fin -> forall d i, R d s0 -> W d i -> exists d i, R d s /\ W d i)
      by exact (Q _ _ _ _ H eq_refl _ _ HR HW).
    clear H HR HW d h s. induction 1 as [s|s c r s1 h s2 Hc HD HH IH]; intros -> d i HR HW; [now exists d, i|].
    destruct (call_W d s i c r s1 HR HW Hc HD) as (d1 & i1 & HR1 & HW1 & _). exact (IH eq_refl d1 i1 HR1 HW1).
  Qed.
  (** Another Run returns. *)
  Lemma run_returns d s i fuel : R d s -> W d i -> t_reason s <> fin -> (steps <= fuel)%nat -> exists s', run exec evicted fuel s = Some (Ok (ROk, s')).
  Proof.
    intros HR HW N Hf. pose proof (watch_permitted d s i (CRun fuel) HR HW N) as HP.
    pose proof (progress exec evicted reg_id reg_size csr_id csr_get csr_set code m0 bytes0 d s (CRun fuel) HR HP) as Q. cbn [do_call] in Q.
    destruct (run exec evicted fuel s) as [[[r s']|k|]|] eqn:E; [|contradiction|contradiction|exfalso].
    - destruct (call_W d s i (CRun fuel) r s' HR HW N E) as (d1 & i1 & _ & _ & _ & X). destruct (X fuel eq_refl) as (-> & _). now exists s'.
    - destruct Q as (f & [= <-] & Q). cbv zeta in Q. rewrite (w_mach _ _ HW) in Q.
      assert (L : (i < steps)%nat) by (rewrite (r_reason _ _ _ _ HR) in N; pose proof (w_le _ _ HW); pose proof (proj2 (w_fin _ _ HW)); destruct (Nat.eq_dec i steps); [tauto|lia]).
      assert (X : exists a, (a < fuel)%nat /\ ref_halt (ref ((if reason_eqb (d_reason d) RSwBreakpoint then 1 else 0) + a) (ref i m0)) = Some fin).
      { destruct (reason_eqb (d_reason d) RSwBreakpoint) eqn:B.
        - apply reason_eqb_eq in B. pose proof (not_last d s i HR HW B L). exists (steps - 1 - (i + 1))%nat. split; [lia|]. rewrite ref_comp. replace (i + _)%nat with (steps - 1)%nat by lia. apply halts.
        - exists (steps - 1 - i)%nat. split; [lia|]. rewrite ref_comp. replace (i + _)%nat with (steps - 1)%nat by lia. apply halts. }
      destruct X as (a & Ha & X). destruct (Q a Ha) as [_ Y]. congruence.
  Qed.
  Lemma ends k : forall d s i fuel, R d s -> W d i -> (steps <= fuel)%nat -> (steps - i + (if reason_eqb (t_reason s) RSwBreakpoint then 0 else 1) <= k)%nat ->
    exists n s', (n <= k)%nat /\ runs exec evicted fuel n s s' /\ t_bps s' = t_bps s /\ t_reason s' = fin /\ exists d', R d' s' /\ W d' steps.
  Proof.
    induction k as [|k IH]; intros d s i fuel HR HW Hf Hk.
    - exists 0%nat, s. split; [lia|]. split; [constructor|]. assert (i = steps) by (pose proof (w_le _ _ HW); lia). subst i.
      rewrite (r_reason _ _ _ _ HR). split; [reflexivity|]. split; [apply (w_fin _ _ HW); reflexivity|now exists d].
    - destruct (Nat.eq_dec i steps) as [->|Ni].
      + exists 0%nat, s. split; [lia|]. split; [constructor|]. rewrite (r_reason _ _ _ _ HR). split; [reflexivity|]. split; [apply (w_fin _ _ HW); reflexivity|now exists d].
      + assert (N : t_reason s <> fin) by (rewrite (r_reason _ _ _ _ HR); intros X; apply (w_fin _ _ HW) in X; contradiction).
        destruct (run_returns d s i fuel HR HW N Hf) as (s1 & E).
        destruct (call_W d s i (CRun fuel) ROk s1 HR HW N E) as (d1 & i1 & HR1 & HW1 & L & X). destruct (X fuel eq_refl) as (_ & X1 & X2 & _ & X4).
        destruct (IH d1 s1 i1 fuel HR1 HW1 Hf) as (n & s' & Hn & HRn & Q0 & Q).
        { pose proof (w_le _ _ HW1). pose proof (w_le _ _ HW). destruct X1 as [X1|X1].
          - rewrite (r_reason _ _ _ _ HR1) in X1. apply (w_fin _ _ HW1) in X1. subst i1. destruct (reason_eqb (t_reason s) _) eqn:B.
            + destruct (reason_eqb (t_reason s1) _) eqn:B1; [lia|]. apply reason_eqb_eq in B. specialize (X2 B).
              rewrite (r_reason _ _ _ _ HR) in B. pose proof (not_last d s i HR HW B ltac:(lia)). lia.
            + destruct (reason_eqb (t_reason s1) _); lia.
          - rewrite X1. change (reason_eqb RSwBreakpoint RSwBreakpoint) with true. cbv iota. destruct (reason_eqb (t_reason s) _) eqn:B; [|lia].
            apply reason_eqb_eq in B. specialize (X2 B). lia. }
        exists (S n), s'. split; [lia|]. split; [econstructor; eassumption|]. split; [congruence|exact Q].
  Qed.

  Lemma R_bps d s : R d s -> forall a, In a (t_bps s) -> word_in_code code a.
  Proof. intros HR a Ha. exact (proj2 (bp_al _ _ _ _ a (i_K _ _ _ _ (r_inv _ _ _ _ HR)) Ha)). Qed.
  Theorem watched h s : history (watch code m0 last fin) (fresh (m_arch m0) (m_mem m0) (m_pc m0)) h s ->
    (forall a, In a (t_bps s) -> word_in_code code a) /\
    exists i, (i <= steps)%nat /\ shows s (ref i m0) /\ t_status s = Halted /\ (t_reason s = fin <-> i = steps).
  Proof.
    intros H. destruct (history_W h s H) as (d & i & HR & HW). split; [exact (R_bps d s HR)|]. exists i. rewrite (r_reason _ _ _ _ HR). destruct HW as [E L F _]. rewrite <- E.
    split; [exact L|]. split; [exact (Inv_shows _ _ _ _ (r_inv _ _ _ _ HR))|]. split; [exact (i_status _ _ _ _ (r_inv _ _ _ _ HR))|exact F].
  Qed.
  Theorem watched_ends h s fuel : history (watch code m0 last fin) (fresh (m_arch m0) (m_mem m0) (m_pc m0)) h s -> (steps <= fuel)%nat ->
    exists n s', (n <= steps + 1)%nat /\ runs exec evicted fuel n s s' /\ t_reason s' = fin /\ shows s' (ref steps m0) /\
      t_bps s' = t_bps s /\ (t_bps s = [] -> (n <= 1)%nat).
  Proof.
    intros H Hf. destruct (history_W h s H) as (d & i & HR & HW).
    destruct (reason_eqb (t_reason s) fin) eqn:Q.
    { apply reason_eqb_eq in Q. exists 0%nat, s. split; [lia|]. split; [constructor|]. split; [exact Q|]. split; [|split; [reflexivity|lia]].
      rewrite (r_reason _ _ _ _ HR) in Q. apply (w_fin _ _ HW) in Q. subst i. rewrite <- (w_mach _ _ HW). exact (Inv_shows _ _ _ _ (r_inv _ _ _ _ HR)). }
    apply reason_eqb_neq in Q. destruct (t_bps s) as [|b bps] eqn:EB.
    - destruct (run_returns d s i fuel HR HW Q Hf) as (s1 & E).
      destruct (call_W d s i (CRun fuel) ROk s1 HR HW Q E) as (d1 & i1 & HR1 & HW1 & L & X). destruct (X fuel eq_refl) as (_ & [X1|X1] & _ & X3 & X4); [|now destruct (X3 X1)].
      exists 1%nat, s1. split; [lia|]. split; [econstructor; [exact E|constructor]|]. split; [exact X1|]. split; [|split; [congruence|lia]].
      rewrite (r_reason _ _ _ _ HR1) in X1. apply (w_fin _ _ HW1) in X1. subst i1. rewrite <- (w_mach _ _ HW1). exact (Inv_shows _ _ _ _ (r_inv _ _ _ _ HR1)).
    - destruct (ends (steps + 1) d s i fuel HR HW Hf) as (n & s' & Hn & HRn & F0 & F & d' & HR' & HW').
      { pose proof (w_le _ _ HW). destruct (reason_eqb _ _); lia. }
      exists n, s'. split; [exact Hn|]. split; [exact HRn|]. split; [exact F|]. split; [|split; [congruence|discriminate]]. rewrite <- (w_mach _ _ HW'). exact (Inv_shows _ _ _ _ (r_inv _ _ _ _ HR')).
  Qed.
End P.
