(** * Step and Run as program steps *)
From Coq Require Import ZArith List Bool String Lia.
From Verif Require Import CInt TopModel TopSpec TopProofs.
From Coq Require Import ZifyBool ZifyNat.
Import ListNotations.
Open Scope Z_scope.
Ltac Zify.zify_post_hook ::= Z.div_mod_to_equations.

Ltac spl := repeat match goal with |- _ /\ _ => split end.

Section P.
  Context {C : Type}.
  Notation arch := (arch (C := C)).
  Notation top := (top (C := C)).
  Notation mach := (mach (C := C)).
  Variable exec : Z -> Z -> arch -> (Z -> Z) -> effect (C := C).
  Variable evicted : Z -> Z -> bool.

  (** ** The instruction counter never goes back *)
  Lemma request_insts r (s : top) : t_insts (request_halt r s) = t_insts s.
  Proof. unfold request_halt. now destruct (_ || _). Qed.
  Lemma execute_insts w a (s : top) : t_insts (execute exec w a s) = t_insts s + 1.
  Proof.
    unfold execute. cbn [t_insts count1]. destruct (w =? ebreak).
    - destruct (has_bp _ _); now rewrite ?request_insts.
    - destruct (f_halt _); now rewrite ?request_insts.
  Qed.
  Lemma fetch_insts a (s : top) : t_insts (snd (fetch evicted a s)) = t_insts s.
  Proof. unfold fetch. now destruct (if evicted _ _ then _ else _). Qed.
  Lemma original_insts a (s : top) : t_insts (write_original a s) = t_insts s.
  Proof. unfold write_original. now destruct (t_map s a). Qed.
  Lemma breakpoint_insts a (s : top) : t_insts (write_breakpoint a s) = t_insts s.
  Proof. unfold write_breakpoint. now destruct (t_map s a). Qed.
  Lemma step_past_insts (s : top) : t_insts (step_past exec evicted s) = t_insts s + 1.
  Proof.
    unfold step_past. pose proof (fetch_insts (t_pc s) (write_original (t_pc s) s)) as F.
    destruct (fetch _ _ _) as [w s1]. cbn [snd] in F. rewrite breakpoint_insts, execute_insts, F, original_insts. reflexivity.
  Qed.
  Lemma iteration_insts b np (s : top) : t_insts s + 1 <= t_insts (snd (iteration exec evicted b np s)).
  Proof.
    unfold iteration. pose proof (fetch_insts np s) as F. destruct (fetch _ np s) as [w s1]. cbn [snd] in F.
    pose proof (execute_insts w np s1) as G. destruct (negb _); [cbn [snd]; lia|].
    destruct (reason_eqb _ _); [|cbn [snd]; lia].
    assert (H := step_past_insts (execute exec w np s1)).
    destruct b; cbn [snd t_insts set_need set_reason set_halted]; lia.
  Qed.
  Lemma run_loop_insts fuel : forall pc np (s : top) p' np' s',
    run_loop exec evicted fuel pc np s = Some (p', np', s') -> t_insts s <= t_insts s'.
  Proof.
    induction fuel as [|f IH]; intros pc np s p' np' s'; cbn [run_loop]; destruct (negb _); try discriminate;
      try (intros X; injection X as <- <- <-; lia).
    pose proof (iteration_insts false np s) as G. destruct (iteration _ _ _ _ s) as [[go n1] s1]. cbn [snd] in G.
    destruct go; [|intros X; injection X as <- <- <-; lia]. intros X. apply IH in X. lia.
  Qed.
  Lemma step_loop_insts fuel : forall num count pc np (s : top) c' p' np' s',
    step_loop exec evicted fuel num count pc np s = (c', p', np', s') -> t_insts s <= t_insts s'.
  Proof.
    induction fuel as [|f IH]; intros num count pc np s c' p' np' s'; cbn [step_loop]; destruct (_ && _);
      try (intros X; injection X as <- <- <- <-; lia).
    pose proof (iteration_insts true np s) as G. destruct (iteration _ _ _ _ s) as [[go n1] s1]. cbn [snd] in G.
    destruct go; [|intros X; injection X as <- <- <- <-; lia]. intros X. apply IH in X. lia.
  Qed.

  (** ** Run assigns pc before it reads it; so does Step unless at a breakpoint *)
  Lemma run_loop_pc fuel : forall pc np (s : top) p' np' s',
    run_loop exec evicted fuel pc np s = Some (p', np', s') -> t_halted s = false \/ pc <> None -> p' <> None.
  Proof.
    induction fuel as [|f IH]; intros pc np s p' np' s'; cbn [run_loop]; destruct (t_halted s); cbn [negb]; try discriminate;
      try (intros X; injection X as <- <- <-; intros [|]; congruence).
    destruct (iteration _ _ _ _ s) as [[go n1] s1].
    destruct go; [|intros X; injection X as <- <- <-; congruence]. intros X _. apply IH in X; [exact X|]. right. discriminate.
  Qed.
  Lemma run_defined fuel s k : run exec evicted fuel s <> Some (UB k) /\ run exec evicted fuel s <> Some Crash.
  Proof.
    unfold run. destruct (is_running _); [split; discriminate|].
    set (s1 := set_halted false _). destruct (run_loop _ _ fuel None (t_pc s1) s1) as [[[p np] s2]|] eqn:E; [|split; discriminate].
    apply run_loop_pc in E; [|left; reflexivity]. destruct (reason_eqb _ _); [|split; discriminate].
    destruct p; [split; discriminate|contradiction].
  Qed.
  Lemma step_loop_pc fuel : forall num count pc np (s : top) c' p' np' s',
    step_loop exec evicted fuel num count pc np s = (c', p', np', s') ->
    (t_halted s = false /\ count < num /\ fuel <> O) \/ pc <> None -> p' <> None.
  Proof.
    induction fuel as [|f IH]; intros num count pc np s c' p' np' s'; cbn [step_loop].
    - destruct (_ && _); intros X; injection X as <- <- <- <-; tauto.
    - destruct (negb (t_halted s) && (count <? num)) eqn:E.
      + destruct (iteration _ _ _ _ s) as [[go n1] s1]. destruct go.
        * intros X _. apply IH in X; [exact X|]. right; discriminate.
        * intros X; injection X as <- <- <- <-. discriminate.
      + intros X; injection X as <- <- <- <-. intros [(A & B & _)|]; [|assumption]. rewrite A in E. cbn [negb andb] in E. lia.
  Qed.
  Lemma step_defined num (s : top) k : t_need s = false -> step exec evicted num s <> UB k /\ step exec evicted num s <> Crash.
  Proof.
    intros Hn. unfold step. destruct (Z.leb_spec num 0) as [|Hp]; [split; discriminate|]. destruct (negb _); [split; discriminate|].
    cbn [t_need set_halted set_status]. rewrite Hn.
    destruct (step_loop _ _ _ _ _ _ _ _) as [[[c p] np] s2] eqn:E.
    apply step_loop_pc in E; [|left; repeat split; lia]. destruct (reason_eqb _ _); [|split; discriminate].
    destruct p; [split; discriminate|contradiction].
  Qed.

  Variable code : Z -> Prop.
  Variable m0 : mach.
  Hypothesis bytes0 : bytes_ok (m_mem m0).
  Notation clean := (clean exec code).
  Notation ref_step := (ref_step exec).
  Notation ref := (ref exec).
  Notation ref_halt := (ref_halt exec).
  Notation K := (K code m0).

  Lemma ref_shift k m : ref k (ref_step m) = ref (S k) m.
  Proof. induction k as [|k IH]; [reflexivity|]. cbn [TopSpec.ref]. rewrite IH. reflexivity. Qed.

  Definition quiet (bps : list Z) (m : mach) : Prop := ~ In (m_pc m) bps /\ ref_halt m = None.
  (** How a loop from [m] in [s] ended in [s'] after [j] quiet instructions. *)
  Definition stop_bp (m : mach) (j : nat) (s : top) (p : option Z) (s' : top) : Prop :=
    (forall i, (i < j)%nat -> quiet (t_bps s) (ref i m)) /\
    In (m_pc (ref j m)) (t_bps s) /\ p = Some (m_pc (ref j m)) /\
    K (ref j m) (set_pcv (m_pc (ref j m)) s') /\ t_bps s' = t_bps s /\ t_status s' = t_status s /\
    t_reason s' = RSwBreakpoint /\ t_need s' = true /\ t_halted s' = true /\
    t_insts s' = t_insts s + Z.of_nat j + 1.
  Definition stop_halt (m : mach) (j : nat) (s : top) (np : Z) (s' : top) : Prop :=
    (forall i, (i < j)%nat -> quiet (t_bps s) (ref i m)) /\
    ~ In (m_pc (ref j m)) (t_bps s) /\ np = t_pc s' /\
    K (ref (S j) m) s' /\ t_bps s' = t_bps s /\ t_status s' = t_status s /\ t_need s' = false /\ t_halted s' = true /\
    ref_halt (ref j m) = Some (t_reason s') /\ t_reason s' <> RSwBreakpoint /\
    t_insts s' = t_insts s + Z.of_nat j + 1.
  Definition stop_full (m : mach) (j : nat) (s : top) (np : Z) (s' : top) : Prop :=
    (forall i, (i < j)%nat -> quiet (t_bps s) (ref i m)) /\
    np = t_pc s' /\ K (ref j m) s' /\ t_bps s' = t_bps s /\ t_status s' = t_status s /\ t_need s' = false /\ t_halted s' = false /\
    t_reason s' = t_reason s /\ t_insts s' = t_insts s + Z.of_nat j.

  Lemma quiet_shift bps m j : quiet bps m -> (forall i, (i < j)%nat -> quiet bps (ref i (ref_step m))) ->
    forall i, (i < S j)%nat -> quiet bps (ref i m).
  Proof.
    intros Q0 QS [|i] Hi; [exact Q0|]. rewrite <- ref_shift. apply QS. lia.
  Qed.

  Lemma run_loop_ok fuel : forall m (s : top) pc p' np' s',
    run_loop exec evicted fuel pc (m_pc m) s = Some (p', np', s') ->
    K m s -> t_halted s = false -> t_need s = false ->
    (forall i, Z.of_nat i < t_insts s' - t_insts s -> (forall j, (j < i)%nat -> quiet (t_bps s) (ref j m)) ->
       ~ In (m_pc (ref i m)) (t_bps s) -> clean (ref i m)) ->
    exists j, stop_bp m j s p' s' \/ stop_halt m j s np' s'.
  Proof.
    induction fuel as [|f IH]; intros m s pc p' np' s' HR HK Hh Hn HC; cbn [run_loop] in HR; rewrite Hh in HR; cbn [negb] in HR; [discriminate|].
    pose proof (iteration_insts false (m_pc m) s) as G.
    destruct (bp_dec s (m_pc m)) as [Hb|Hb].
    - pose proof (iteration_bp exec evicted code m0 false m s HK Hb) as I.
      destruct (iteration _ _ _ _ s) as [[go n1] s1]. cbn [snd] in G.
      destruct I as (-> & K1 & B & S & R & N & H & T). injection HR as <- <- <-.
      exists 0%nat. left. unfold stop_bp. cbn [TopSpec.ref]. spl; first [assumption|reflexivity|intros; lia].
    - pose proof (fun c => iteration_step exec evicted code m0 false m s HK c Hb Hh) as I.
      destruct (iteration _ _ _ _ s) as [[go n1] s1]. cbn [snd] in G.
      assert (C0 : clean m).
      { apply (HC 0%nat); [|intros j Hj; lia|exact Hb]. destruct go; [apply run_loop_insts in HR; lia|injection HR as <- <- <-; lia]. }
      destruct (I C0) as (K1 & -> & B & S & N & T & H & Hgo). unfold halt_effect in H.
      destruct (ref_halt m) as [r|] eqn:Er; subst go.
      + injection HR as <- <- <-. destruct H as (h1 & h2 & h3 & h4). exists 0%nat. right.
        unfold stop_halt. cbn [TopSpec.ref]. spl; try assumption; try (intros; lia); try congruence.
      + destruct H as (h1 & h2). rewrite (k_pc _ _ _ _ K1) in HR.
        destruct (IH (ref_step m) s1 _ _ _ _ HR K1) as [j Hj]; [congruence|congruence| |].
        { intros i Hi Q N'. rewrite ref_shift in *. apply HC; [lia| |rewrite <- B; exact N'].
          apply quiet_shift; [split; assumption|]. intros j Hj. rewrite <- B. now apply Q. }
        exists (Datatypes.S j). destruct Hj as [Hj|Hj]; [left|right].
        * destruct Hj as (Q & b1 & b2 & b3 & b4 & b5 & b6 & b7 & b8 & b9). rewrite ref_shift in *. rewrite B in *.
          split; [now apply quiet_shift|]. spl; try assumption; try congruence; try lia.
        * destruct Hj as (Q & b1 & b2 & b3 & b4 & b5 & b6 & b7 & b8 & b9 & b10). rewrite !ref_shift in *. rewrite B in *.
          split; [now apply quiet_shift|]. spl; try assumption; try congruence; try lia.
  Qed.

  Lemma step_loop_ok fuel : forall num count m (s : top) pc c' p' np' s',
    step_loop exec evicted fuel num count pc (m_pc m) s = (c', p', np', s') ->
    K m s -> t_halted s = false -> t_need s = false -> num - count <= Z.of_nat fuel -> count <= num ->
    (forall i, Z.of_nat i < t_insts s' - t_insts s -> Z.of_nat i < num - count -> (forall j, (j < i)%nat -> quiet (t_bps s) (ref j m)) ->
       ~ In (m_pc (ref i m)) (t_bps s) -> clean (ref i m)) ->
    exists j, (stop_bp m j s p' s' /\ c' = count + Z.of_nat j + 1 /\ c' <= num) \/
              (stop_halt m j s np' s' /\ c' = count + Z.of_nat j + 1 /\ c' <= num) \/
              (stop_full m j s np' s' /\ c' = count + Z.of_nat j /\ c' = num).
  Proof.
    induction fuel as [|f IH]; intros num count m s pc c' p' np' s' HR HK Hh Hn HF HL HC; cbn [step_loop] in HR; rewrite Hh in HR; cbn [negb andb] in HR.
    { destruct (count <? num) eqn:E; [lia|]. injection HR as <- <- <- <-. exists 0%nat. right; right.
      split; [|lia]. unfold stop_full. cbn [TopSpec.ref]. split; [intros; lia|]. split; [symmetry; apply (k_pc _ _ _ _ HK)|]. split; [exact HK|]. spl; try assumption; try reflexivity; lia. }
    destruct (Z.ltb_spec count num) as [Hlt|Hge].
    2: { injection HR as <- <- <- <-. exists 0%nat. right; right.
      split; [|lia]. unfold stop_full. cbn [TopSpec.ref]. split; [intros; lia|]. split; [symmetry; apply (k_pc _ _ _ _ HK)|].
      split; [exact HK|]. spl; first [assumption|reflexivity|lia]. }
    pose proof (iteration_insts true (m_pc m) s) as G.
    destruct (bp_dec s (m_pc m)) as [Hb|Hb].
    - pose proof (iteration_bp exec evicted code m0 true m s HK Hb) as I.
      destruct (iteration _ _ _ _ s) as [[go n1] s1]. cbn [snd] in G.
      destruct I as (-> & K1 & B & S & R & N & H & T). injection HR as <- <- <- <-.
      exists 0%nat. left. split; [|lia]. split; [intros; lia|]. cbn [TopSpec.ref]. split; [exact Hb|]. split; [reflexivity|].
      split; [exact K1|]. spl; first [assumption|reflexivity|lia].
    - pose proof (fun c => iteration_step exec evicted code m0 true m s HK c Hb Hh) as I.
      destruct (iteration _ _ _ _ s) as [[go n1] s1]. cbn [snd] in G.
      assert (C0 : clean m).
      { apply (HC 0%nat); [|lia|intros j Hj; lia|exact Hb]. destruct go; [apply step_loop_insts in HR; lia|injection HR as <- <- <- <-; lia]. }
      destruct (I C0) as (K1 & -> & B & S & N & T & H & Hgo). unfold halt_effect in H.
      destruct (ref_halt m) as [r|] eqn:Er; subst go.
      + injection HR as <- <- <- <-. destruct H as (h1 & h2 & h3 & h4). exists 0%nat. right; left.
        split; [|lia]. split; [intros; lia|]. cbn [TopSpec.ref]. split; [exact Hb|]. split; [reflexivity|].
        split; [exact K1|]. spl; try assumption; try lia; congruence.
      + destruct H as (h1 & h2). rewrite (k_pc _ _ _ _ K1) in HR.
        destruct (IH num (count + 1) (ref_step m) s1 _ _ _ _ _ HR K1) as [j Hj]; [congruence|congruence|lia|lia| |].
        { intros i Hi Hc Q N'. rewrite ref_shift in *. apply HC; [lia|lia| |rewrite <- B; exact N'].
          apply quiet_shift; [split; assumption|]. intros j Hj. rewrite <- B. now apply Q. }
        exists (Datatypes.S j). destruct Hj as [[Hj Hc]|[[Hj Hc]|[Hj Hc]]]; [left|right;left|right;right]; (split; [|lia]).
        * destruct Hj as (Q & b1 & b2 & b3 & b4 & b5 & b6 & b7 & b8 & b9). rewrite ref_shift in *. rewrite B in *.
          split; [now apply quiet_shift|]. split; [exact b1|]. split; [exact b2|]. split; [exact b3|]. spl; try assumption; try congruence; lia.
        * destruct Hj as (Q & b1 & b2 & b3 & b4 & b5 & b6 & b7 & b8 & b9 & b10). rewrite !ref_shift in *. rewrite B in *.
          split; [now apply quiet_shift|]. split; [exact b1|]. split; [exact b2|]. split; [exact b3|]. spl; try assumption; try congruence; lia.
        * destruct Hj as (Q & b2 & b3 & b4 & b5 & b6 & b7 & b8 & b9). rewrite ref_shift in *. rewrite B in *.
          split; [now apply quiet_shift|]. split; [exact b2|]. split; [exact b3|]. spl; try assumption; try congruence; lia.
  Qed.
End P.
