(** * Proofs about what a V1 run prints *)
From Coq Require Import ZArith List Bool String Lia ZifyBool ZifyNat.
From Verif Require Import CInt LaneSpec VecModel VecSpec ConvModel ConvSpec MemModel MemSpec LogModel LogSpec.
From Verif Require Import DecodeTypes DecodeTable DecodeModel DecodeSpec V2DecTypes V2DecModel V2DecSpec V1ScalModel V1ScalSpec.
From Verif Require Import TopModel TopSpec CliModel CliSpec MachModel MachSpec RvSpec ConsModel ConsSpec.
From Verif Require LogProofs DecodeProofs CliProofs MachProofs2 MachProofs3 MachProofs5 MachProofs6.
Import ListNotations.
Open Scope Z_scope.
Open Scope list_scope.

(** ** Lines *)
Lemma positional_fun b s v v' : positional b s v -> positional b s v' -> v = v'.
Proof.
  intros H. revert v'. induction H as [|s v c d H IH Hd Hl]; intros v' H'.
  - symmetry. exact (LogProofs.positional_nil_inv b v' H').
  - apply LogProofs.positional_snoc_inv in H'. destruct H' as (u & d' & -> & Hu & Hd' & _).
    rewrite (IH u Hu). rewrite Hd in Hd'. now injection Hd' as ->.
Qed.
Lemma positional_chars b s v : positional b s v -> Forall (fun c => c <> 32) s.
Proof.
  intros H. induction H as [|s v c d H IH Hd Hl]; [constructor|]. apply Forall_app. split; [exact IH|].
  constructor; [|constructor]. intros ->. discriminate Hd.
Qed.
Lemma cut h : Forall (fun c => c <> 32) h -> forall h' r r', Forall (fun c => c <> 32) h' -> h ++ 32 :: r = h' ++ 32 :: r' -> h = h' /\ r = r'.
Proof.
  induction 1 as [|c h Hc H IH]; intros [|c' h'] r r' F E; cbn [app] in E.
  - now injection E as ->.
  - injection E as <- _. inversion F. congruence.
  - injection E as -> _. congruence.
  - injection E as -> E. inversion F; subst. destruct (IH h' r r' ltac:(assumption) E) as [-> ->]. auto.
Qed.
Lemma tells_one p x y : tells p x -> tells p y -> x = y.
Proof.
  assert (I : forall pre a b h h', numeral 16 a h -> numeral 16 b h' -> (SErr, pre ++ h ++ [10]) = (SErr, pre ++ h' ++ [10]) -> a = b).
  { intros pre a b h h' [H _] [H' _] E. injection E as E. apply app_inv_head in E. apply app_inj_tail in E as [E _]. rewrite E in H. exact (positional_fun _ _ _ _ H H'). }
  assert (J : forall pre a b h h' t t', numeral 16 a h -> numeral 16 b h' ->
    (SErr, pre ++ h ++ chars " as: " ++ t ++ [10]) = (SErr, pre ++ h' ++ chars " as: " ++ t' ++ [10]) -> a = b /\ t = t').
  { intros pre a b h h' t t' [H _] [H' _] E. injection E as E. apply app_inv_head in E.
    change (chars " as: " ++ t ++ [10]) with (32 :: ([97; 115; 58; 32] ++ t ++ [10])) in E. change (chars " as: " ++ t' ++ [10]) with (32 :: ([97; 115; 58; 32] ++ t' ++ [10])) in E.
    apply cut in E; [|eapply positional_chars; exact H|eapply positional_chars; exact H']. destruct E as [E1 E2]. injection E2 as E2. apply app_inj_tail in E2 as [E2 _].
    rewrite E1 in H. split; [exact (positional_fun _ _ _ _ H H')|exact E2]. }
  intros H K. destruct x, y; cbn [tells] in H, K; try reflexivity;
    repeat match goal with X : exists _, _ |- _ => destruct X as (? & ? & ?) end; subst; try discriminate;
    try (match goal with X : _ = _ |- _ => exfalso; apply (f_equal snd) in X; vm_compute in X; discriminate X end);
    match goal with X : (_, _) = (_, _), A : numeral 16 _ _, B : numeral 16 _ _ |- _ =>
      first [pose proof (I _ _ _ _ _ A B X); congruence | destruct (J _ _ _ _ _ _ _ A B X); congruence] end.
Qed.

(** ** Runs *)
Section Runs.
  Context {C : Type}.
  Variable exec : Z -> Z -> arch (C := C) -> (Z -> Z) -> effect (C := C).
  Variable evicted : Z -> Z -> bool.
  Variable says : Z -> Z -> arch (C := C) -> (Z -> Z) -> list print.
  Notation ref := (ref exec).
  Notation reached := (reached exec).
  Notation m_says := (m_says says).
  Notation said := (said exec says).

  (** Printing changes nothing. *)
  Lemma p_step_past_erase (s : top) : snd (p_step_past exec evicted says s) = step_past exec evicted s.
  Proof. unfold p_step_past, step_past. destruct (fetch evicted (t_pc s) (write_original (t_pc s) s)) as [w s']. reflexivity. Qed.
  Lemma p_iteration_erase b np (s : top) : snd (p_iteration exec evicted says b np s) = iteration exec evicted b np s.
  Proof.
    unfold p_iteration, iteration. destruct (fetch evicted np s) as [w s1]. destruct (negb _); [reflexivity|]. destruct (reason_eqb _ _); [|reflexivity].
    rewrite <- p_step_past_erase. destruct (p_step_past exec evicted says (execute exec w np s1)) as [o s2]. reflexivity.
  Qed.
  Lemma p_loop_erase fuel : forall out pc np (s : top), snd (p_run_loop exec evicted says fuel out pc np s) = run_loop exec evicted fuel pc np s.
  Proof.
    induction fuel as [|f IH]; intros out pc np s; cbn [p_run_loop run_loop].
    - destruct (negb (t_halted s)); reflexivity.
    - destruct (negb (t_halted s)); [|reflexivity]. rewrite <- p_iteration_erase. destruct (p_iteration exec evicted says false np s) as [o [[go np'] s']]. cbn [snd].
      destruct go; [apply IH|reflexivity].
  Qed.
  Theorem p_run_erase fuel (s : top) : snd (p_run exec evicted says fuel s) = run exec evicted fuel s.
  Proof.
    unfold p_run, run. destruct (is_running (t_status s)); [reflexivity|].
    assert (E : snd (if t_need s then p_step_past exec evicted says (set_need false s) else ([], s)) = if t_need s then step_past exec evicted (set_need false s) else s)
      by (destruct (t_need s); [apply p_step_past_erase|reflexivity]).
    destruct (if t_need s then p_step_past exec evicted says (set_need false s) else ([], s)) as [o s1]. cbn [snd] in E. rewrite <- E. cbv zeta.
    rewrite <- (p_loop_erase fuel o). destruct (p_run_loop exec evicted says fuel o None _ _) as [o' [[[p np] s2]|]]; reflexivity.
  Qed.

  Lemma said_S m n : said m (S n) = said m n ++ m_says (ref n m).
  Proof. unfold ConsSpec.said. rewrite seq_S, flat_map_app. cbn [flat_map]. now rewrite app_nil_r. Qed.
  Lemma p_loop_ok m : unmodified exec m -> regular exec m -> forall fuel k s pc out, reached m k -> CliProofs.sim exec m k s ->
    match p_run_loop exec evicted says fuel out pc (m_pc (ref k m)) s with
    | (o, None) => reached m (k + fuel) /\ exists o', o = out ++ o' /\ said m k ++ o' = said m (k + fuel)
    | (o, Some _) => exists n r o', (k < n <= k + fuel)%nat /\ halts_at exec m n r /\ o = out ++ o' /\ said m k ++ o' = said m n
    end.
  Proof.
    intros U G. induction fuel as [|f IH]; intros k s pc out R S; cbn [p_run_loop].
    - destruct S as (-> & _). cbn [negb]. rewrite Nat.add_0_r. split; [exact R|]. exists []. now rewrite !app_nil_r.
    - assert (Hh : t_halted s = false) by apply S. rewrite Hh. cbn [negb].
      pose proof S as (S1 & S2 & S3 & S4 & S5 & S6 & S7 & S8 & S9).
      destruct (CliProofs.fetch_ok exec evicted (fun _ => 0) (fun _ _ c => c) 0 (fun _ _ => None) [] m k s U R S) as (s1 & E & F1 & F2 & F4 & F5 & F6 & F7 & F8 & F9).
      destruct (G k R) as [Gp Gr].
      pose proof (CliProofs.execute_ok exec m k s1 _ Gp eq_refl F1 F2 F4 F5 F6) as X. cbv zeta in X.
      unfold p_iteration. rewrite E.
      assert (Eo : top_says says (word_at (ref k m)) (m_pc (ref k m)) s1 = m_says (ref k m)).
      { unfold top_says, ConsSpec.m_says. rewrite F4, F5. unfold has_bp. rewrite F2. reflexivity. }
      rewrite Eo. cbv zeta. set (s2 := execute exec (word_at (ref k m)) (m_pc (ref k m)) s1) in *.
      destruct X as (X1 & X2 & X3 & X4 & X5 & X6 & X7 & X8).
      destruct (ref_halt exec (ref k m)) as [r|] eqn:Er.
      + destruct X8 as [Y1 Y2]. rewrite Y1. cbn [negb]. destruct (reason_eqb (t_reason s2) RActionPoint) eqn:Ea.
        * apply CliProofs.reason_eqb_ok in Ea. destruct (Gr r eq_refl) as [N _]. congruence.
        * exists (Datatypes.S k), r, (m_says (ref k m)). split; [lia|]. split.
          { split; [lia|]. replace (Datatypes.S k - 1)%nat with k by lia. split; [exact R|exact Er]. }
          split; [reflexivity|]. now rewrite said_S.
      + destruct X8 as [Y1 Y2]. rewrite Y1. cbn [negb]. rewrite X1.
        assert (R' : reached m (Datatypes.S k)) by (apply (CliProofs.reached_S exec evicted (fun _ => 0) (fun _ _ c => c) 0 (fun _ _ => None) []); auto).
        assert (S' : CliProofs.sim exec m (Datatypes.S k) s2).
        { unfold CliProofs.sim. rewrite X5, X6, F7, F8, X7. repeat (split; [first [assumption|lia]|]). exact F9. }
        pose proof (IH (Datatypes.S k) s2 (Some (m_pc (ref k m))) (out ++ m_says (ref k m)) R' S') as I.
        destruct (p_run_loop exec evicted says f (out ++ m_says (ref k m)) (Some (m_pc (ref k m))) (m_pc (ref (Datatypes.S k) m)) s2) as [o [x|]].
        * destruct I as (n & r & o' & Hn & Hh' & -> & Eo'). exists n, r, (m_says (ref k m) ++ o'). split; [lia|]. split; [exact Hh'|].
          split; [now rewrite app_assoc|]. rewrite <- Eo', said_S. now rewrite app_assoc.
        * destruct I as (I & o' & -> & Eo'). replace (k + Datatypes.S f)%nat with (Datatypes.S k + f)%nat by lia. split; [exact I|].
          exists (m_says (ref k m) ++ o'). split; [now rewrite app_assoc|]. rewrite <- Eo', said_S. now rewrite app_assoc.
  Qed.
  (** A Run from the first state of a program. *)
  Theorem p_run_ok boot fuel s : CliProofs.loaded boot s -> 0 <= t_pc s < 2 ^ 32 ->
    let m := Mach (t_pc s) boot (t_mem s) in unmodified exec m -> regular exec m ->
    match p_run exec evicted says fuel s with
    | (o, None) => reached m fuel /\ o = said m fuel
    | (o, Some x) => exists n r s', x = Ok (ROk, s') /\ (n <= fuel)%nat /\ halts_at exec m n r /\ o = said m n /\
        t_reason s' = r /\ t_cycles s' = Z.of_nat n /\ t_arch s' = m_arch (ref n m) /\ t_mem s' = m_mem (ref n m) /\ t_pc s' = m_pc (ref n m)
    end.
  Proof.
    intros (L1 & L2 & L3 & L4 & L5 & L6 & L7 & L8 & L9) Hp m U G.
    unfold p_run. rewrite L2, L5. cbn [is_running].
    set (s1 := set_halted false (set_status Running s)).
    assert (S : CliProofs.sim exec m 0 s1).
    { unfold CliProofs.sim, s1, m. cbn. repeat (split; [first [reflexivity|assumption]|]). intros a w Ha. rewrite L7 in Ha. discriminate. }
    assert (R : reached m 0) by (intros i Hi; lia).
    pose proof (p_loop_ok m U G fuel 0 s1 None [] R S) as X. change (m_pc (ref 0 m)) with (t_pc s1) in X.
    pose proof (CliProofs.run_loop_ok exec evicted (fun _ => 0) (fun _ _ c => c) 0 (fun _ _ => None) [] m U G fuel 0 s1 None R S) as L.
    change (m_pc (ref 0 m)) with (t_pc s1) in L. rewrite <- (p_loop_erase fuel []) in L.
    destruct (p_run_loop exec evicted says fuel [] None (t_pc s1) s1) as [o [[[p np] s2]|]]; cbn [snd] in L.
    - destruct X as (n & r & o' & Hn & Hh & -> & Eo). destruct L as (n' & r' & Hn' & Hh' & Enp & Ea & Em & Er & Ei & Ec & Eb).
      assert (EQ : n' = n).
      { destruct Hh as (H0 & Hr & Hx), Hh' as (H0' & Hr' & Hx'). destruct (Nat.lt_trichotomy n n') as [K|[K|K]]; [|auto|].
        - rewrite (Hr' (n - 1)%nat) in Hx by lia. discriminate.
        - rewrite (Hr (n' - 1)%nat) in Hx' by lia. discriminate. }
      subst n'. assert (r' = r) by (destruct Hh as (_ & _ & Hx), Hh' as (_ & _ & Hx'); congruence). subst r'.
      destruct (G (n - 1)%nat (proj1 (proj2 Hh))) as [Gp Gr]. destruct Hh as (H0 & Hr & Hx).
      replace (Datatypes.S (n - 1)) with n in Gp by lia. destruct (Gr r Hx) as [_ N].
      destruct (reason_eqb (t_reason s2) RSwBreakpoint) eqn:E; [apply CliProofs.reason_eqb_ok in E; congruence|].
      exists n, r, (set_status Halted (set_pc np s2)). split; [reflexivity|]. split; [lia|]. split; [split; [exact H0|split; assumption]|].
      split; [exact Eo|]. cbn [set_status set_pc set_pcv t_reason t_cycles t_arch t_mem t_pc]. rewrite Enp, Z.mod_small by exact Gp. auto 9.
    - destruct X as (X & o' & -> & Eo). split; [exact X|exact Eo].
  Qed.
End Runs.
