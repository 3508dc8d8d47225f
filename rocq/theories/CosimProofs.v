(** * Proofs about the co-simulation interface *)
From Coq Require Import ZArith List Bool Lia.
From Verif Require Import CInt CosimModel CosimSpec.
Import ListNotations.
Open Scope Z_scope.

Section P.
  Variables (Core Mem Name : Type) (boot : simcfg -> Core) (empty_mem : Mem)
    (load_elf : Name -> Mem -> option Mem) (core_pc : Core -> Z)
    (write_word : Core -> Z -> Z -> Mem -> option Mem)
    (step1 : Core -> Mem -> bool * Core * Mem * bool)
    (read_reg : Name -> Core -> option Z) (write_reg : Name -> Z -> Core -> option Core)
    (reg_words : Name -> Core -> option (list Z)).
  Notation do_call := (do_call Core Mem Name boot empty_mem load_elf core_pc write_word step1 read_reg write_reg reg_words).
  Notation run := (run Core Mem Name boot empty_mem load_elf core_pc write_word step1 read_reg write_reg reg_words).
  Notation gstate := (gstate Core Mem).
  Notation handle := (handle Core Mem).
  Notation call := (call Name).

  (** What the history state says about the global. *)
  Definition agrees (st : bool * bool) (g : gstate) : Prop :=
    match g with
    | None => st = (false, false)
    | Some h => fst st = true /\ snd st = match h_core _ _ h with Some _ => true | None => false end
    end.
  Lemma lazy_ok h : exists h' c, lazy_init Core Mem boot h = Ok (h', c) /\ h_core _ _ h' = Some c /\
    h_mem _ _ h' = h_mem _ _ h /\ h_halted _ _ h' = h_halted _ _ h /\
    (forall c0, h_core _ _ h = Some c0 -> h' = h /\ c = c0).
  Proof.
    destruct h as [m [c|] b]; unfold lazy_init, init_handle; cbn.
    - exists (H Core Mem m (Some c) b), c. repeat split; congruence.
    - eexists _, _. split; [reflexivity|]. cbn. repeat split; discriminate.
  Qed.
  Ltac lz h h' c E Ec Em Eh Es := destruct (lazy_ok h) as [h' [c [E [Ec [Em [Eh Es]]]]]].

  Lemma call_agrees k st g g' r : agrees st g -> do_call k g = Ok (g', r) -> agrees (track st k) g'.
  Proof.
    intros A E. destruct st as [al bu]. destruct k as [| c | f | | i | | n cap | n ptr | n v |]; cbn [CosimModel.do_call] in E.
    - unfold do_init, ret in E. destruct g as [h|]; injection E as <- <-; cbn in A |- *.
      + split; [reflexivity | exact (proj2 A)].
      + injection A as -> ->. split; reflexivity.
    - destruct g as [h|]; [|unfold ret in E; injection E as <- <-; cbn in *; injection A as -> ->; destruct c; reflexivity].
      cbn in A. destruct A as [-> A]. cbn [fst snd] in A. destruct c as [c|].
      + destruct (init_handle Core Mem boot (Some c) h) as [h'| |] eqn:I; cbn [bind] in E; try discriminate.
        unfold ret in E. injection E as <- <-. unfold init_handle in I.
        destruct (h_core Core Mem h); [discriminate|]. injection I as <-. cbn. rewrite orb_true_r. split; reflexivity.
      + unfold ret in E. injection E as <- <-. cbn. rewrite orb_false_r. split; [reflexivity | exact A].
    - destruct f as [f|].
      + destruct g as [h|]; [|discriminate]. cbn in A. destruct A as [-> A]. cbn [fst snd] in A.
        destruct (load_elf f (h_mem Core Mem h)); unfold ret in E; injection E as <- <-; cbn;
          rewrite orb_false_r; split; try reflexivity; exact A.
      + unfold ret in E. injection E as <- <-. cbn. rewrite andb_false_r, orb_false_r. exact A.
    - destruct g as [h|]; cbn in E; injection E as <- <-; cbn; split; reflexivity.
    - unfold do_step in E. destruct g as [h|]; [|unfold ret in E; injection E as <- <-; cbn in *; injection A as -> ->; reflexivity].
      cbn in A. destruct A as [-> A]. cbn [fst snd] in A.
      lz h h' c EE Ec Em Eh Es. rewrite EE in E. cbn [bind] in E. destruct (h_halted Core Mem h').
      + unfold ret in E. injection E as <- <-. cbn. rewrite Ec, orb_true_r. split; reflexivity.
      + destruct i as [w|]; [|discriminate].
        destruct (write_word c _ _ _) as [m|]; [|unfold ret in E; injection E as <- <-; cbn; rewrite Ec, orb_true_r; split; reflexivity].
        destruct (step1 c m) as [[[ok c'] m'] mp]. unfold ret in E. injection E as <- <-. cbn. rewrite orb_true_r. split; reflexivity.
    - destruct g as [h|]; [|unfold ret in E; injection E as <- <-; cbn in *; injection A as -> ->; reflexivity].
      cbn in A. destruct A as [-> A]. lz h h' c EE Ec Em Eh Es. rewrite EE in E. cbn [bind fst] in E.
      unfold ret in E. injection E as <- <-. cbn. rewrite Ec, orb_true_r. split; reflexivity.
    - unfold do_getvec in E. destruct cap as [k|].
      2: { unfold ret in E. injection E as <- <-. destruct n; cbn; rewrite andb_false_r, orb_false_r; exact A. }
      destruct n as [n|]; [|unfold ret in E; injection E as <- <-; cbn; rewrite andb_false_r, orb_false_r; exact A].
      destruct g as [h|]; [|unfold ret in E; injection E as <- <-; cbn in *; injection A as -> ->; reflexivity].
      cbn in A. destruct A as [-> A]. lz h h' c EE Ec Em Eh Es. rewrite EE in E. cbn [bind] in E.
      destruct (reg_words n c) as [l|].
      + destruct (length l <=? k)%nat; [|discriminate]. injection E as <- <-. cbn. rewrite Ec, orb_true_r. split; reflexivity.
      + unfold ret in E. injection E as <- <-. cbn. rewrite Ec, orb_true_r. split; reflexivity.
    - unfold do_getreg in E. destruct ptr; cbn [negb] in E.
      2: { unfold ret in E. injection E as <- <-. destruct n; cbn; rewrite andb_false_r, orb_false_r; exact A. }
      destruct n as [n|]; [|unfold ret in E; injection E as <- <-; cbn; rewrite andb_false_r, orb_false_r; exact A].
      destruct g as [h|]; [|injection E as <- <-; cbn in *; injection A as -> ->; reflexivity].
      cbn in A. destruct A as [-> A]. lz h h' c EE Ec Em Eh Es. rewrite EE in E. cbn [bind] in E.
      destruct (read_reg n c) as [v|]; injection E as <- <-; cbn; rewrite Ec, orb_true_r; split; reflexivity.
    - unfold do_setreg in E.
      destruct n as [n|]; [|unfold ret in E; injection E as <- <-; cbn; rewrite andb_false_r, orb_false_r; exact A].
      destruct g as [h|]; [|unfold ret in E; injection E as <- <-; cbn in *; injection A as -> ->; reflexivity].
      cbn in A. destruct A as [-> A]. lz h h' c EE Ec Em Eh Es. rewrite EE in E. cbn [bind] in E.
      destruct (write_reg n _ c) as [c'|]; unfold ret in E; injection E as <- <-; cbn; rewrite ?Ec, orb_true_r; split; reflexivity.
    - unfold do_fini, ret in E. destruct g as [h|]; injection E as <- <-; cbn in *; reflexivity.
  Qed.
  Lemma run_app a : forall b g, run (a ++ b) g =
    bind (run a g) (fun x => bind (run b (fst x)) (fun y => Ok (fst y, snd x ++ snd y))).
  Proof.
    induction a as [|k a IH]; intros b g; cbn [app CosimModel.run].
    - cbn. destruct (run b g) as [[g' l]| |]; reflexivity.
    - destruct (do_call k g) as [[g1 r1]| |]; [|reflexivity|reflexivity]. cbn [bind]. rewrite IH.
      destruct (run a g1) as [[g2 l2]| |]; [|reflexivity|reflexivity]. cbn [bind fst snd].
      destruct (run b g2) as [[g3 l3]| |]; reflexivity.
  Qed.
  Lemma run_agrees_gen ks : forall st g g' rs, agrees st g -> run ks g = Ok (g', rs) ->
    agrees (fold_left track ks st) g'.
  Proof.
    induction ks as [|k ks IH]; intros st g g' rs A E; cbn [CosimModel.run fold_left] in *.
    - injection E as <- <-. exact A.
    - destruct (do_call k g) as [[g1 r1]| |] eqn:E1; try discriminate. cbn [bind] in E.
      destruct (run ks g1) as [[g2 l2]| |] eqn:E2; try discriminate. cbn [bind] in E. injection E as <- <-.
      eapply IH; [|exact E2]. eapply call_agrees; eassumption.
  Qed.
  Lemma run_agrees ks g rs : run ks None = Ok (g, rs) -> agrees (history_state ks) g.
  Proof. apply run_agrees_gen. reflexivity. Qed.

  (** Documented return values. *)
  Theorem returns_ok ks k g rs g' r : run ks None = Ok (g, rs) -> do_call k g = Ok (g', r) ->
    forall v, must_return ks k = Some v -> r_ret r = v.
  Proof.
    intros E E1 v M. apply run_agrees in E. unfold must_return, alive in M.
    destruct (history_state ks) as [al bu]. cbn [fst] in M.
    assert (HA : al = match g with Some _ => true | None => false end)
      by (destruct g; cbn in E; [exact (proj1 E) | injection E as -> ->; reflexivity]).
    subst al. clear E.
    destruct k as [| c | f | | i | | n cap | n ptr | n w |]; cbn [CosimModel.do_call] in E1.
    - unfold do_init, ret in E1. destruct g; injection E1 as <- <-; injection M as <-; reflexivity.
    - destruct g as [h|]; [|unfold ret in E1; injection E1 as <- <-; injection M as <-; reflexivity].
      destruct c as [c|]; [|unfold ret in E1; injection E1 as <- <-; injection M as <-; reflexivity].
      destruct (init_handle Core Mem boot (Some c) h); try discriminate. cbn [bind] in E1. unfold ret in E1.
      injection E1 as <- <-. injection M as <-. reflexivity.
    - destruct f; [discriminate|]. unfold ret in E1. injection E1 as <- <-. injection M as <-. reflexivity.
    - destruct g; cbn in E1; injection E1 as <- <-; injection M as <-; reflexivity.
    - destruct g; [discriminate|]. unfold do_step, ret in E1. injection E1 as <- <-. injection M as <-. reflexivity.
    - destruct g as [h|]; [|unfold ret in E1; injection E1 as <- <-; injection M as <-; reflexivity].
      lz h h' c EE Ec Em Eh Es. rewrite EE in E1. cbn [bind] in E1. unfold ret in E1. injection E1 as <- <-. injection M as <-. reflexivity.
    - unfold do_getvec, ret in E1. destruct cap; [|injection E1 as <- <-; injection M as <-; reflexivity].
      destruct n; [|injection E1 as <- <-; injection M as <-; reflexivity].
      destruct g; [discriminate|]. injection E1 as <- <-. injection M as <-. reflexivity.
    - unfold do_getreg, ret in E1. destruct ptr; cbn [negb] in E1; [|injection E1 as <- <-; injection M as <-; reflexivity].
      destruct n; [|injection E1 as <- <-; injection M as <-; reflexivity].
      destruct g; [discriminate|]. injection E1 as <- <-. injection M as <-. reflexivity.
    - unfold do_setreg, ret in E1. destruct n; [|injection E1 as <- <-; injection M as <-; reflexivity].
      destruct g; [discriminate|]. injection E1 as <- <-. injection M as <-. reflexivity.
    - unfold do_fini, ret in E1. destruct g; injection E1 as <- <-; injection M as <-; reflexivity.
  Qed.

  (** Calls that are safe after a history do not end the process. *)
  Lemma safe_call ks k g : agrees (history_state ks) g -> safe ks k = true -> exists x, do_call k g = Ok x.
  Proof.
    intros A S. unfold safe, alive, built in S. destruct (history_state ks) as [al bu]. cbn [fst snd] in S.
    destruct k as [| c | f | | i | | n cap | n ptr | n w |]; cbn [CosimModel.do_call].
    - unfold do_init, ret. destruct g; eauto.
    - destruct g as [h|]; [|unfold ret; eauto]. destruct c as [c|]; [|unfold ret; eauto].
      cbn in A. destruct A as [A1 A2]. cbn [fst snd] in *. subst al bu. unfold init_handle.
      destruct (h_core Core Mem h); [discriminate|]. cbn. unfold ret. eauto.
    - destruct f as [f|]; [|unfold ret; eauto]. destruct g as [h|].
      + unfold ret. destruct (load_elf f (h_mem Core Mem h)); eauto.
      + cbn in A. injection A as -> ->. discriminate.
    - destruct g; cbn; unfold ret; eauto.
    - unfold do_step. destruct g as [h|]; [|unfold ret; eauto]. destruct i as [w|].
      + lz h h' c EE Ec Em Eh Es. rewrite EE. cbn [bind]. unfold ret. destruct (h_halted Core Mem h'); [eauto|].
        destruct (write_word c _ _ _) as [m|]; [|eauto]. destruct (step1 c m) as [[[ok c'] m'] mp]. eauto.
      + cbn in A. destruct A as [A1 _]. cbn [fst] in A1. subst al. discriminate.
    - destruct g as [h|]; [|unfold ret; eauto]. lz h h' c EE Ec Em Eh Es. rewrite EE. cbn. unfold ret. eauto.
    - unfold do_getvec, ret. destruct cap; [|eauto]. destruct n; [discriminate|eauto].
    - unfold do_getreg, ret. destruct ptr; cbn [negb]; [|eauto]. destruct n; [|eauto]. destruct g as [h|]; [|eauto].
      lz h h' c EE Ec Em Eh Es. rewrite EE. cbn [bind]. destruct (read_reg n c); eauto.
    - unfold do_setreg, ret. destruct n; [|eauto]. destruct g as [h|]; [|eauto].
      lz h h' c EE Ec Em Eh Es. rewrite EE. cbn [bind]. destruct (write_reg n _ c); eauto.
    - unfold do_fini, ret. destruct g; eauto.
  Qed.
  Lemma safe_run_gen rest : forall ks g, agrees (history_state ks) g -> all_safe ks rest = true ->
    exists x, run rest g = Ok x.
  Proof.
    induction rest as [|k rest IH]; intros ks g A S; cbn [CosimModel.run all_safe] in *; [eauto|].
    apply andb_prop in S. destruct S as [S1 S2].
    destruct (safe_call ks k g A S1) as [[g1 r1] E]. rewrite E. cbn [bind].
    destruct (IH (ks ++ [k]) g1) as [[g2 l2] E2]; [|exact S2|].
    - unfold history_state. rewrite fold_left_app. cbn [fold_left]. eapply call_agrees; [exact A | exact E].
    - rewrite E2. cbn. eauto.
  Qed.
  Theorem safe_run ks : all_safe [] ks = true -> exists g rs, run ks None = Ok (g, rs).
  Proof.
    intro S. destruct (safe_run_gen ks [] None) as [[g rs] E]; [reflexivity | exact S | eauto].
  Qed.

  (** Reset. *)
  Theorem reset_fresh g : do_call (Reset _) g = Ok (Some (new_handle Core Mem empty_mem), R 0 []).
  Proof. destruct g; reflexivity. Qed.

  (** After mpause. *)
  Definition halted_g (g : gstate) : Prop :=
    match g with Some h => h_halted _ _ h = true /\ h_core _ _ h <> None | None => False end.
  Lemma halted_call k g g' r : halted_g g -> ends_run k = false -> do_call k g = Ok (g', r) ->
    halted_g g' /\ (is_step k = true -> g' = g /\ r = R 2 []).
  Proof.
    intros Hh Hk E. destruct g as [h|]; [|destruct Hh]. destruct Hh as [Hh Hc].
    destruct (h_core _ _ h) as [c0|] eqn:C0; [|congruence]. clear Hc.
    destruct (lazy_ok h) as [h' [c [EE [Ec [Em [Eh Es]]]]]]. destruct (Es c0 C0) as [-> ->]. clear Es Em Eh Ec.
    assert (Hg : halted_g (Some h)) by (split; [exact Hh | congruence]).
    destruct k as [| c | f | | i | | n cap | n ptr | n w |]; cbn [CosimModel.do_call] in E; cbn [is_step] in *; try discriminate Hk.
    - unfold do_init, ret in E. injection E as <- <-. split; [exact Hg | discriminate].
    - destruct c as [c|].
      + unfold init_handle in E. rewrite C0 in E. discriminate.
      + unfold ret in E. injection E as <- <-. split; [exact Hg | discriminate].
    - destruct f as [f|]; [|unfold ret in E; injection E as <- <-; split; [exact Hg | discriminate]].
      destruct (load_elf f (h_mem Core Mem h)); unfold ret in E; injection E as <- <-; (split; [|discriminate]); [|exact Hg].
      split; cbn; [exact Hh | congruence].
    - unfold do_step in E. rewrite EE in E. cbn [bind] in E. rewrite Hh in E. unfold ret in E. injection E as <- <-.
      split; [exact Hg | auto].
    - rewrite EE in E. cbn [bind fst] in E. unfold ret in E. injection E as <- <-. split; [exact Hg | discriminate].
    - unfold do_getvec, ret in E. destruct cap as [k|]; [|injection E as <- <-; split; [exact Hg | discriminate]].
      destruct n as [n|]; [|injection E as <- <-; split; [exact Hg | discriminate]].
      rewrite EE in E. cbn [bind] in E. destruct (reg_words n c0) as [l|]; [|injection E as <- <-; split; [exact Hg | discriminate]].
      destruct (length l <=? k)%nat; [|discriminate]. injection E as <- <-. split; [exact Hg | discriminate].
    - unfold do_getreg, ret in E. destruct ptr; cbn [negb] in E; [|injection E as <- <-; split; [exact Hg | discriminate]].
      destruct n as [n|]; [|injection E as <- <-; split; [exact Hg | discriminate]].
      rewrite EE in E. cbn [bind] in E. destruct (read_reg n c0); injection E as <- <-; (split; [exact Hg | discriminate]).
    - unfold do_setreg, ret in E. destruct n as [n|]; [|injection E as <- <-; split; [exact Hg | discriminate]].
      rewrite EE in E. cbn [bind] in E. destruct (write_reg n _ c0); injection E as <- <-; (split; [|discriminate]); [|exact Hg].
      split; cbn; [exact Hh | discriminate].
  Qed.
  (** Results of the Step calls among the calls [ks]. *)
  Fixpoint step_results (ks : list call) (rs : list result) : list result :=
    match ks, rs with
    | k :: ks, r :: rs => if is_step k then r :: step_results ks rs else step_results ks rs
    | _, _ => []
    end.
  Lemma halted_run ks : forall g g' rs, halted_g g -> existsb ends_run ks = false ->
    run ks g = Ok (g', rs) ->
    Forall (fun r => r = R 2 []) (step_results ks rs) /\
    exists rs', run (filter (fun k => negb (is_step k)) ks) g = Ok (g', rs').
  Proof.
    induction ks as [|k ks IH]; intros g g' rs Hh Hk E; cbn [CosimModel.run existsb filter] in *.
    - injection E as <- <-. split; [constructor | eauto].
    - apply orb_false_iff in Hk. destruct Hk as [Hk1 Hk2].
      destruct (do_call k g) as [[g1 r1]| |] eqn:E1; try discriminate. cbn [bind] in E.
      destruct (run ks g1) as [[g2 l2]| |] eqn:E2; try discriminate. cbn [bind] in E. injection E as <- <-.
      destruct (halted_call k g g1 r1 Hh Hk1 E1) as [Hh1 Hs].
      destruct (IH g1 g2 l2 Hh1 Hk2 E2) as [F [rs' R']]. cbn [step_results].
      destruct (is_step k) eqn:Ek; cbn [negb].
      + destruct (Hs eq_refl) as [-> ->]. split; [constructor; [reflexivity | exact F] | eauto].
      + split; [exact F|]. cbn [CosimModel.run]. rewrite E1. cbn [bind]. rewrite R'. cbn. eauto.
  Qed.

  (** A step of an instance that has not executed mpause. *)
  Theorem step_exact m c w : do_call (Step _ (Some w)) (Some (H _ _ m (Some c) false)) =
    match write_word c (core_pc c mod 2 ^ 32) (w mod 2 ^ 32) m with
    | None => Ok (Some (H _ _ m (Some c) false), R 1 [])
    | Some m1 => let '(ok, c', m', mp) := step1 c m1 in
                 Ok (Some (H _ _ m' (Some c') mp), R (if ok then 0 else 2) [])
    end.
  Proof.
    cbn. destruct (write_word c (core_pc c mod 2 ^ 32) (w mod 2 ^ 32) m); [|reflexivity].
    unfold ret. destruct (step1 c m0) as [[[ok c'] m'] mp]. reflexivity.
  Qed.
  Theorem lockstep_run c m ws c' m' : lockstep core_pc write_word step1 c m ws c' m' ->
    run (map (fun w => Step _ (Some w)) ws) (Some (H _ _ m (Some c) false)) =
    Ok (Some (H _ _ m' (Some c') false), map (fun _ => R 0 []) ws).
  Proof.
    induction 1 as [c m|c m w m1 c1 m2 ws c' m' E1 E2 L IH]; [reflexivity|].
    cbn [map CosimModel.run]. rewrite step_exact, E1, E2. cbn [bind]. rewrite IH. reflexivity.
  Qed.

  (** The ways to end the process. *)
  Theorem load_dead ks g rs f : run ks None = Ok (g, rs) -> alive ks = false ->
    do_call (Load _ (Some f)) g = UB NullDeref.
  Proof.
    intros E A. apply run_agrees in E. unfold alive in A. destruct g as [h|]; [|reflexivity].
    cbn in E. destruct E as [E _]. congruence.
  Qed.
  Theorem config_built ks g rs c : run ks None = Ok (g, rs) -> alive ks = true -> built ks = true ->
    do_call (Config _ (Some c)) g = Crash.
  Proof.
    intros E A B. apply run_agrees in E. unfold alive, built in *. destruct g as [h|].
    - cbn in E. destruct E as [_ E]. rewrite B in E. cbn. unfold init_handle.
      destruct (h_core Core Mem h); [reflexivity | discriminate].
    - cbn in E. rewrite E in A. discriminate.
  Qed.
End P.
