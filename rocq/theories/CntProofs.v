(** * Proofs about programs that read the counters *)
From Coq Require Import ZArith List Bool String Lia.
From Verif Require Import CInt LogModel LogSpec TopModel TopSpec CliModel CliSpec CliProofs CntModel CntSpec.
From Coq Require Import ZifyBool ZifyNat.
Import ListNotations.
Open Scope Z_scope.

Section Blind.
  Context {C : Type}.
  Variable exec : Z -> Z -> arch (C := C) -> (Z -> Z) -> effect (C := C).
  Variable evicted : Z -> Z -> bool.
  Lemma blind_run_loop fuel : forall pc np s,
    c_run_loop (fun _ _ => exec) evicted fuel pc np s = run_loop exec evicted fuel pc np s.
  Proof.
    induction fuel as [|f IH]; intros pc np s; cbn [c_run_loop run_loop]; [reflexivity|].
    change (c_iteration (fun _ _ => exec) evicted false np s) with (iteration exec evicted false np s).
    destruct (iteration exec evicted false np s) as [[go np'] s']. rewrite IH. reflexivity.
  Qed.
  Lemma blind_run fuel s : c_run (fun _ _ => exec) evicted fuel s = run exec evicted fuel s.
  Proof.
    unfold c_run, run.
    change (c_step_past (fun _ _ => exec) evicted (set_need false s)) with (step_past exec evicted (set_need false s)).
    destruct (is_running (t_status s)); [reflexivity|]. cbv zeta. rewrite blind_run_loop. reflexivity.
  Qed.
  Lemma blind_step_loop fuel : forall num count pc np s,
    c_step_loop (fun _ _ => exec) evicted fuel num count pc np s = step_loop exec evicted fuel num count pc np s.
  Proof.
    induction fuel as [|f IH]; intros num count pc np s; cbn [c_step_loop step_loop]; [reflexivity|].
    change (c_iteration (fun _ _ => exec) evicted true np s) with (iteration exec evicted true np s).
    destruct (iteration exec evicted true np s) as [[go np'] s']. rewrite IH. reflexivity.
  Qed.
  Lemma blind_step num s : c_step (fun _ _ => exec) evicted num s = step exec evicted num s.
  Proof.
    unfold c_step, step. destruct (num <=? 0); [reflexivity|]. destruct (negb (is_halted (t_status s))); [reflexivity|].
    cbv zeta.
    change (c_step_past (fun _ _ => exec) evicted (set_need false (set_halted false (set_status SingleStep s))))
      with (step_past exec evicted (set_need false (set_halted false (set_status SingleStep s)))).
    destruct (t_need (set_halted false (set_status SingleStep s))); rewrite blind_step_loop; reflexivity.
  Qed.
End Blind.

Section Own.
  Context {C : Type}.
  Variable cexec : Z -> Z -> Z -> Z -> arch (C := C) -> (Z -> Z) -> effect (C := C).
  Variable evicted : Z -> Z -> bool.
  Notation top := (top (C := C)).
  Notation oexec := (own_exec cexec).

  Lemma own_fetch n y a (s : top) : fetch evicted a (own n y s) = (fst (fetch evicted a s), own n y (snd (fetch evicted a s))).
  Proof.
    unfold fetch. cbn [own t_tick t_cache t_mem].
    destruct (if evicted (t_tick s) a then None else t_cache s a); reflexivity.
  Qed.
  Lemma fetch_counts a (s : top) : t_insts (snd (fetch evicted a s)) = t_insts s /\ t_cycles (snd (fetch evicted a s)) = t_cycles s.
  Proof. unfold fetch. destruct (if evicted (t_tick s) a then None else t_cache s a); split; reflexivity. Qed.

  Lemma own_execute w a (s : top) : w <> ebreak -> execute oexec w a (synced s) = synced (c_execute cexec w a s).
  Proof.
    intros N. unfold c_execute, execute. replace (w =? ebreak) with false by (symmetry; now apply Z.eqb_neq).
    unfold synced, own_exec, own. cbn.
    destruct s as [[g c] m p st re h ne bp mp ca ti ins cy]. cbn.
    destruct (f_halt (cexec ins cy w a (Arch g c) m)) as [r|]; [|reflexivity].
    unfold request_halt. destruct (reason_eqb r RSwBreakpoint || reason_eqb r RActionPoint); reflexivity.
  Qed.
  Lemma own_execute_ebreak a (s : top) :
    let s' := c_execute cexec ebreak a s in
    execute oexec ebreak a (synced s) = own (t_insts s' - 1) (t_cycles s' - 1) s' /\
    t_halted s' = true /\ (t_reason s' = RSwBreakpoint \/ t_reason s' = RAbort).
  Proof.
    cbv zeta. unfold c_execute, execute. rewrite Z.eqb_refl. unfold synced.
    destruct s as [[g c] m p st re h ne bp mp ca ti ins cy]. unfold has_bp. cbn [set_pc set_pcv own t_bps t_insts t_cycles].
    destruct (existsb (Z.eqb a) bp).
    - cbn. split; [|auto]. unfold count1, own. cbn. now rewrite !Z.add_simpl_r.
    - cbn. split; [|auto]. unfold count1, own. cbn. now rewrite !Z.add_simpl_r.
  Qed.

  Lemma halt_not_action w a (s : top) : no_action cexec -> w <> ebreak -> t_halted s = false ->
    t_halted (c_execute cexec w a s) = true -> t_reason (c_execute cexec w a s) <> RActionPoint.
  Proof.
    intros NA N H. unfold c_execute, execute. replace (w =? ebreak) with false by (symmetry; now apply Z.eqb_neq).
    set (x := cexec _ _ _ _ _ _). assert (G : f_halt x <> Some RActionPoint) by apply NA.
    destruct (f_halt x) as [r|]; [|cbn; congruence].
    unfold request_halt. destruct (reason_eqb r RSwBreakpoint || reason_eqb r RActionPoint); cbn; congruence.
  Qed.

  Lemma own_iteration nr np (s : top) : no_action cexec -> t_halted s = false ->
    let '(go, np', s') := c_iteration cexec evicted nr np s in
    exists d, (d = 0 \/ d = 1 /\ go = false /\ t_halted s' = true /\ (t_reason s' = RSwBreakpoint \/ t_reason s' = RAbort)) /\
      iteration oexec evicted nr np (synced s) = (go, np', own (t_insts s' - d) (t_cycles s' - d) s') /\
      (go = true -> t_halted s' = false).
  Proof.
    intros NA H. unfold c_iteration, iteration. unfold synced at 1. rewrite own_fetch.
    destruct (fetch_counts np s) as [F1 F2].
    assert (Hh : t_halted (snd (fetch evicted np s)) = false).
    { unfold fetch. destruct (if evicted (t_tick s) np then None else t_cache s np); exact H. }
    destruct (fetch evicted np s) as [w s1]. cbn [fst snd] in *.
    rewrite <- F1, <- F2. change (own (t_insts s1) (t_cycles s1) s1) with (synced s1).
    destruct (Z.eq_dec w ebreak) as [->|N].
    - destruct (own_execute_ebreak np s1) as (E1 & E2 & E3). rewrite E1. cbn [own t_halted t_reason t_pc]. rewrite E2. cbn [negb].
      assert (Ea : reason_eqb (t_reason (c_execute cexec ebreak np s1)) RActionPoint = false)
        by (destruct E3 as [-> | ->]; reflexivity).
      rewrite Ea. exists 1. split; [auto|]. split; [reflexivity|discriminate].
    - rewrite (own_execute w np s1 N). cbn [synced own t_halted t_reason t_pc].
      destruct (t_halted (c_execute cexec w np s1)) eqn:Eh; cbn [negb].
      + pose proof (halt_not_action w np s1 NA N Hh Eh) as NR.
        assert (Ea : reason_eqb (t_reason (c_execute cexec w np s1)) RActionPoint = false).
        { destruct (t_reason (c_execute cexec w np s1)); try reflexivity. congruence. }
        rewrite Ea. exists 0. split; [auto|]. rewrite !Z.sub_0_r. split; [reflexivity|discriminate].
      + exists 0. split; [auto|]. rewrite !Z.sub_0_r. split; [reflexivity|auto].
  Qed.

  Definition lagging (s : top) (s' : TopModel.top (C := C * Z * Z)) : Prop :=
    exists d, (d = 0 \/ d = 1 /\ t_halted s = true /\ (t_reason s = RSwBreakpoint \/ t_reason s = RAbort)) /\
      s' = own (t_insts s - d) (t_cycles s - d) s.
  Lemma lag_weak d (s : top) : (d = 0 \/ d = 1 /\ t_halted s = true /\ (t_reason s = RSwBreakpoint \/ t_reason s = RAbort)) ->
    d = 0 \/ d = 1 /\ (t_reason s = RSwBreakpoint \/ t_reason s = RAbort).
  Proof. intuition. Qed.
  Lemma lag0 s : lagging s (synced s).
  Proof. exists 0. split; [auto|]. now rewrite !Z.sub_0_r. Qed.

  Lemma same0 (s : top) : exists d, (d = 0 \/ d = 1 /\ (t_reason s = RSwBreakpoint \/ t_reason s = RAbort)) /\
    synced s = own (t_insts s - d) (t_cycles s - d) s.
  Proof. exists 0. split; [auto|]. now rewrite !Z.sub_0_r. Qed.

  Lemma own_run_loop : no_action cexec -> forall fuel pc np (s : top),
    match c_run_loop cexec evicted fuel pc np s with
    | None => run_loop oexec evicted fuel pc np (synced s) = None
    | Some (pc1, np1, s1) => exists s1', run_loop oexec evicted fuel pc np (synced s) = Some (pc1, np1, s1') /\ lagging s1 s1'
    end.
  Proof.
    intros NA. induction fuel as [|f IH]; intros pc np s; cbn [c_run_loop run_loop]; cbn [synced own t_halted]; fold (synced s).
    - destruct (negb (t_halted s)); [reflexivity|]. eexists. split; [reflexivity|apply lag0].
    - destruct (t_halted s) eqn:H; cbn [negb].
      + eexists. split; [reflexivity|apply lag0].
      + pose proof (own_iteration false np s NA H) as I.
        change (own (t_insts s) (t_cycles s) s) with (synced s).
        destruct (c_iteration cexec evicted false np s) as [[go np'] s'].
        destruct I as (d & D & -> & G). destruct go.
        * assert (d = 0) as -> by (destruct D as [D|(_ & D & _)]; [exact D|discriminate]).
          rewrite !Z.sub_0_r. apply IH.
        * eexists. split; [reflexivity|]. exists d. split; [|reflexivity]. destruct D as [D|(D1 & _ & D3 & D4)]; auto.
  Qed.
  Lemma own_step_loop : no_action cexec -> forall fuel num count pc np (s : top),
    let '(c1, pc1, np1, s1) := c_step_loop cexec evicted fuel num count pc np s in
    exists s1', step_loop oexec evicted fuel num count pc np (synced s) = (c1, pc1, np1, s1') /\ lagging s1 s1'.
  Proof.
    intros NA. induction fuel as [|f IH]; intros num count pc np s; cbn [c_step_loop step_loop]; cbn [synced own t_halted].
    - destruct (negb (t_halted s) && (count <? num)); (eexists; split; [reflexivity|apply lag0]).
    - destruct (t_halted s) eqn:H; cbn [negb andb].
      + eexists. split; [reflexivity|apply lag0].
      + destruct (count <? num); [|eexists; split; [reflexivity|apply lag0]].
        pose proof (own_iteration true np s NA H) as I.
        change (own (t_insts s) (t_cycles s) s) with (synced s).
        destruct (c_iteration cexec evicted true np s) as [[go np'] s'].
        destruct I as (d & D & -> & G). destruct go.
        * assert (d = 0) as -> by (destruct D as [D|(_ & D & _)]; [exact D|discriminate]).
          rewrite !Z.sub_0_r. apply IH.
        * eexists. split; [reflexivity|]. exists d. split; [|reflexivity]. destruct D as [D|(D1 & _ & D3 & D4)]; auto.
  Qed.

  Lemma own_run fuel (s : top) : no_action cexec -> t_need s = false ->
    match c_run cexec evicted fuel s, run oexec evicted fuel (synced s) with
    | None, None => True
    | Some x, Some y => same_end x y
    | _, _ => False
    end.
  Proof.
    intros NA H. unfold c_run, run. change (t_status (synced s)) with (t_status s).
    destruct (is_running (t_status s)); [split; [reflexivity|apply same0]|].
    change (t_need (synced s)) with (t_need s). rewrite H.
    change (set_halted false (set_status Running (synced s))) with (synced (set_halted false (set_status Running s))).
    cbv zeta. set (s0 := set_halted false (set_status Running s)).
    change (t_pc (synced s0)) with (t_pc s0).
    pose proof (own_run_loop NA fuel None (t_pc s0) s0) as L.
    destruct (c_run_loop cexec evicted fuel None (t_pc s0) s0) as [[[pc1 np1] s1]|].
    - destruct L as (s1' & -> & d & D & ->).
      change (t_reason (own (t_insts s1 - d) (t_cycles s1 - d) s1)) with (t_reason s1).
      destruct (reason_eqb (t_reason s1) RSwBreakpoint).
      + destruct pc1; [|reflexivity]. split; [reflexivity|]. exists d. split; [exact (lag_weak _ _ D)|reflexivity].
      + split; [reflexivity|]. exists d. split; [exact (lag_weak _ _ D)|reflexivity].
    - rewrite L. exact I.
  Qed.
  Lemma own_step num (s : top) : no_action cexec -> t_need s = false ->
    same_end (c_step cexec evicted num s) (step oexec evicted num (synced s)).
  Proof.
    intros NA H. unfold c_step, step. destruct (num <=? 0); [split; [reflexivity|apply same0]|].
    change (t_status (synced s)) with (t_status s).
    destruct (negb (is_halted (t_status s))); [split; [reflexivity|apply same0]|].
    change (set_halted false (set_status SingleStep (synced s))) with (synced (set_halted false (set_status SingleStep s))).
    cbv zeta. set (s0 := set_halted false (set_status SingleStep s)).
    change (t_need (synced s0)) with (t_need s). change (t_need s0) with (t_need s). rewrite H.
    change (t_pc (synced s0)) with (t_pc s0).
    pose proof (own_step_loop NA (Z.to_nat num) num 0 None (t_pc s0) s0) as L.
    destruct (c_step_loop cexec evicted (Z.to_nat num) num 0 None (t_pc s0) s0) as [[[c1 pc1] np1] s1].
    destruct L as (s1' & -> & d & D & ->).
    change (t_reason (own (t_insts s1 - d) (t_cycles s1 - d) s1)) with (t_reason s1).
    assert (F : forall p, exists d0,
      (d0 = 0 \/ d0 = 1 /\ (t_reason (set_status Halted (if negb (t_halted (set_pc p s1)) then set_reason RNone (set_pc p s1) else set_pc p s1)) = RSwBreakpoint \/
                           t_reason (set_status Halted (if negb (t_halted (set_pc p s1)) then set_reason RNone (set_pc p s1) else set_pc p s1)) = RAbort)) /\
      set_status Halted (if negb (t_halted (set_pc p (own (t_insts s1 - d) (t_cycles s1 - d) s1)))
                         then set_reason RNone (set_pc p (own (t_insts s1 - d) (t_cycles s1 - d) s1))
                         else set_pc p (own (t_insts s1 - d) (t_cycles s1 - d) s1)) =
      own (t_insts s1 - d0) (t_cycles s1 - d0)
        (set_status Halted (if negb (t_halted (set_pc p s1)) then set_reason RNone (set_pc p s1) else set_pc p s1))).
    { intros p. exists d. destruct D as [-> |(-> & D1 & D2)].
      - split; [auto|]. cbn [set_pc set_pcv own t_halted]. destruct (t_halted s1); reflexivity.
      - cbn [set_pc set_pcv own t_halted]. rewrite D1. cbn [negb]. split; [right; split; [reflexivity|exact D2]|reflexivity]. }
    assert (Q : forall p,
      t_insts (set_status Halted (if negb (t_halted (set_pc p s1)) then set_reason RNone (set_pc p s1) else set_pc p s1)) = t_insts s1 /\
      t_cycles (set_status Halted (if negb (t_halted (set_pc p s1)) then set_reason RNone (set_pc p s1) else set_pc p s1)) = t_cycles s1)
      by (intros p; destruct (negb (t_halted (set_pc p s1))); split; reflexivity).
    destruct (reason_eqb (t_reason s1) RSwBreakpoint).
    - destruct pc1 as [p|]; [|reflexivity]. split; [reflexivity|]. destruct (Q p) as [-> ->]. exact (F p).
    - split; [reflexivity|]. destruct (Q np1) as [-> ->]. exact (F np1).
  Qed.

  Lemma own_exec_csr w a s m c n y : a_csr s = (c, n, y) -> exists c', a_csr (f_arch (oexec w a s m)) = (c', n + 1, y + 1).
  Proof. intros E. unfold own_exec. rewrite E. eexists. reflexivity. Qed.
  (** The own counters of the machine itself count its instructions. *)
  Lemma own_counts (c : C) n y g pc mem : forall k, let m := Mach pc (Arch g (c, n, y)) mem in
    (forall i, (i < k)%nat -> word_at (ref oexec i m) <> ebreak) ->
    exists c', a_csr (m_arch (ref oexec k m)) = (c', n + Z.of_nat k, y + Z.of_nat k).
  Proof.
    intros k m. induction k as [|k IH]; intros H.
    - exists c. cbn [ref m m_arch a_csr]. now rewrite !Z.add_0_r.
    - destruct IH as (c' & E); [intros i Hi; apply H; lia|]. pose proof (H k ltac:(lia)) as N.
      cbn [ref]. unfold ref_step. replace (word_at (ref oexec k m) =? ebreak) with false by (symmetry; now apply Z.eqb_neq).
      cbn [m_arch].
      destruct (own_exec_csr (word_at (ref oexec k m)) (m_pc (ref oexec k m)) _ (m_mem (ref oexec k m)) _ _ _ E) as (c2 & ->).
      exists c2. f_equal; [f_equal|]; lia.
  Qed.

  (** A Run of a program that was just loaded. *)
  Lemma own_alone fuel pc g (c : C) mem : no_action cexec -> 0 <= pc < 2 ^ 32 ->
    let m := Mach pc (Arch g (c, 0, 0)) mem in unmodified oexec m -> regular oexec m ->
    match c_run cexec evicted fuel (fresh (Arch g c) mem pc) with
    | None => reached oexec m fuel
    | Some x => exists n r s, x = Ok (ROk, s) /\ (n <= fuel)%nat /\ halts_at oexec m n r /\ t_reason s = r /\
        t_insts s = Z.of_nat n /\ t_cycles s = Z.of_nat n /\
        t_pc s = m_pc (ref oexec n m) /\ t_mem s = m_mem (ref oexec n m) /\
        a_regs (t_arch s) = a_regs (m_arch (ref oexec n m)) /\ a_csr (t_arch s) = fst (fst (a_csr (m_arch (ref oexec n m))))
    end.
  Proof.
    intros NA Hp m U G. pose proof (own_run fuel (fresh (Arch g c) mem pc) NA eq_refl) as X.
    unfold run in X. set (s0 := synced (fresh (Arch g c) mem pc)) in X.
    change (is_running (t_status s0)) with false in X. change (t_need s0) with false in X. cbv beta iota zeta in X.
    set (s1 := set_halted false (set_status Running s0)) in X.
    assert (S : sim oexec m 0 s1).
    { unfold sim, s1, s0, m. cbn. repeat (split; [reflexivity|]). intros a w Ha. discriminate. }
    assert (R : reached oexec m 0) by (intros i Hi; lia).
    pose proof (run_loop_ok oexec evicted (fun _ => 0) (fun _ _ c => c) 0 (fun _ _ => None) [] m U G fuel 0 s1 None R S) as L.
    change (m_pc (ref oexec 0 m)) with (t_pc s1) in L.
    destruct (run_loop oexec evicted fuel None (t_pc s1) s1) as [[[p np] s2]|].
    - destruct L as (n & r & Hn & Hh & Enp & Ea & Em & Er & Ei & Ec & Eb).
      assert (NB : reason_eqb (t_reason s2) RSwBreakpoint = false).
      { destruct Hh as (_ & Hr & Hh). destruct (G (n - 1)%nat Hr) as [_ Gr]. destruct (Gr r Hh) as [_ N2].
        destruct (reason_eqb (t_reason s2) RSwBreakpoint) eqn:E; [|reflexivity].
        rewrite Er in E. destruct r; try discriminate E. congruence. }
      rewrite NB in X. destruct (c_run cexec evicted fuel (fresh (Arch g c) mem pc)) as [[[rt s]|k|]|]; try contradiction.
      destruct X as (<- & d & _ & E).
      exists n, r, s. split; [reflexivity|]. split; [lia|]. split; [exact Hh|].
      assert (P32 : 0 <= m_pc (ref oexec n m) < 2 ^ 32).
      { destruct Hh as (H0 & Hr & _). destruct (G (n - 1)%nat Hr) as [Gp _]. now replace (Datatypes.S (n - 1)) with n in Gp by lia. }
      assert (Q : forall A (f : TopModel.top (C := C * Z * Z) -> A), f (set_status Halted (set_pc np s2)) = f (own (t_insts s - d) (t_cycles s - d) s))
        by (intros A f; now rewrite E).
      pose proof (Q _ t_reason) as Q1. pose proof (Q _ t_insts) as Q2. pose proof (Q _ t_cycles) as Q3. pose proof (Q _ t_pc) as Q4.
      pose proof (Q _ t_mem) as Q5. pose proof (Q _ t_arch) as Q6.
      cbn [set_status set_pc set_pcv own t_reason t_insts t_cycles t_pc t_mem t_arch] in *.
      rewrite Z.mod_small in Q4 by (rewrite Enp; exact P32).
      split; [congruence|]. split; [congruence|]. split; [congruence|]. split; [congruence|]. split; [congruence|].
      rewrite <- Ea, Q6. split; reflexivity.
    - destruct (c_run cexec evicted fuel (fresh (Arch g c) mem pc)); [contradiction|]. exact L.
  Qed.
End Own.
