(** * Co-simulation sessions: queries, defaults, registers *)
From Coq Require Import ZArith List Bool Lia.
From Verif Require Import CInt CosimModel CosimSpec2.
From Verif Require CosimProofs.
Import ListNotations.
Open Scope Z_scope.

Section P.
  Variables (Core Mem Name : Type) (boot : simcfg -> Core) (empty_mem : Mem)
    (load_elf : Name -> Mem -> option Mem) (core_pc : Core -> Z)
    (write_word : Core -> Z -> Z -> Mem -> option Mem)
    (step1 : Core -> Mem -> bool * Core * Mem * bool)
    (read_reg : Name -> Core -> option Z) (write_reg : Name -> Z -> Core -> option Core)
    (reg_words : Name -> Core -> option (list Z)).
  Notation do_call := (do_call Core Mem Name boot empty_mem load_elf core_pc write_word step1 read_reg write_reg reg_words).
  Notation run := (run Core Mem Name boot empty_mem load_elf core_pc write_word step1 read_reg write_reg reg_words).
  Notation lazy := (lazy_init Core Mem boot).
  Notation H := (H Core Mem).
  Notation gstate := (gstate Core Mem).

  (** [g'] is [g], perhaps with the simulator built already. *)
  Definition later (g g' : gstate) : Prop :=
    g = g' \/ exists m b, g = Some (H m None b) /\ g' = Some (H m (Some (boot usual)) b).
  Lemma later_refl g : later g g. Proof. now left. Qed.
  Lemma lazy_built m c b : lazy (H m (Some c) b) = Ok (H m (Some c) b, c). Proof. reflexivity. Qed.
  Lemma lazy_new m b : lazy (H m None b) = Ok (H m (Some (boot usual)) b, boot usual).
  Proof. change usual with default_cfg. reflexivity. Qed.
  (** The later state's call, on the earlier state. *)
  Lemma call_back k g g' g1' r : later g g' -> do_call k g' = Ok (g1', r) -> exists g1, do_call k g = Ok (g1, r) /\ later g1 g1'.
  Proof.
    intros [->|(m & b & -> & ->)] E; [exists g1'; split; [exact E|apply later_refl]|].
    destruct k as [|[c|]|[f|]| |i| |n cap|n ptr|n v|]; cbn [CosimModel.do_call do_init do_fini bind ret fst] in *;
      unfold do_init, do_fini, do_step, do_getvec, do_getreg, do_setreg, init_handle, ret in *; cbn [bind fst h_core h_mem h_halted] in *.
    - injection E as <- <-. eexists. split; [reflexivity|]. right. eauto.
    - discriminate.
    - injection E as <- <-. eexists. split; [reflexivity|]. right. eauto.
    - destruct (load_elf f m) as [m1|]; injection E as <- <-; eexists; (split; [reflexivity|]); right; eauto.
    - injection E as <- <-. eexists. split; [reflexivity|]. right. eauto.
    - injection E as <- <-. eexists. split; [reflexivity|]. apply later_refl.
    - rewrite lazy_new. rewrite lazy_built in E. cbn [bind h_halted h_mem] in *. eexists. split; [exact E|apply later_refl].
    - rewrite lazy_new. rewrite lazy_built in E. cbn [bind fst] in *. eexists. split; [exact E|apply later_refl].
    - destruct cap as [k|], n as [n|]; try (injection E as <- <-; eexists; (split; [reflexivity|]); right; eauto; fail).
      rewrite lazy_new. rewrite lazy_built in E. eexists. split; [exact E|apply later_refl].
    - destruct ptr, n as [n|]; cbn [negb] in *; try (injection E as <- <-; eexists; (split; [reflexivity|]); right; eauto; fail).
      rewrite lazy_new. rewrite lazy_built in E. eexists. split; [exact E|apply later_refl].
    - destruct n as [n|]; [|injection E as <- <-; eexists; (split; [reflexivity|]); right; eauto].
      rewrite lazy_new. rewrite lazy_built in E. eexists. split; [exact E|apply later_refl].
    - injection E as <- <-. eexists. split; [reflexivity|]. apply later_refl.
  Qed.
  (** The other way round for all calls but config. *)
  Lemma call_forth k g g' g1 r : later g g' -> is_config k = false -> do_call k g = Ok (g1, r) -> exists g1', do_call k g' = Ok (g1', r) /\ later g1 g1'.
  Proof.
    intros [->|(m & b & -> & ->)] K E; [exists g1; split; [exact E|apply later_refl]|].
    destruct k as [|[c|]|[f|]| |i| |n cap|n ptr|n v|]; try discriminate K; cbn [CosimModel.do_call do_init do_fini bind ret fst] in *;
      unfold do_init, do_fini, do_step, do_getvec, do_getreg, do_setreg, init_handle, ret in *; cbn [bind fst h_core h_mem h_halted] in *.
    - injection E as <- <-. eexists. split; [reflexivity|]. right. eauto.
    - injection E as <- <-. eexists. split; [reflexivity|]. right. eauto.
    - destruct (load_elf f m) as [m1|]; injection E as <- <-; eexists; (split; [reflexivity|]); right; eauto.
    - injection E as <- <-. eexists. split; [reflexivity|]. right. eauto.
    - injection E as <- <-. eexists. split; [reflexivity|]. apply later_refl.
    - rewrite lazy_new in E. rewrite lazy_built. cbn [bind h_halted h_mem] in *. eexists. split; [exact E|apply later_refl].
    - rewrite lazy_new in E. rewrite lazy_built. cbn [bind fst] in *. eexists. split; [exact E|apply later_refl].
    - destruct cap as [k|], n as [n|]; try (injection E as <- <-; eexists; (split; [reflexivity|]); right; eauto; fail).
      rewrite lazy_new in E. rewrite lazy_built. eexists. split; [exact E|apply later_refl].
    - destruct ptr, n as [n|]; cbn [negb] in *; try (injection E as <- <-; eexists; (split; [reflexivity|]); right; eauto; fail).
      rewrite lazy_new in E. rewrite lazy_built. eexists. split; [exact E|apply later_refl].
    - destruct n as [n|]; [|injection E as <- <-; eexists; (split; [reflexivity|]); right; eauto].
      rewrite lazy_new in E. rewrite lazy_built. eexists. split; [exact E|apply later_refl].
    - injection E as <- <-. eexists. split; [reflexivity|]. apply later_refl.
  Qed.
  Lemma later_trans g g' g'' : later g g' -> later g' g'' -> later g g''.
  Proof.
    intros [->|(m & b & -> & ->)] [<-|(m' & b' & E & ->)]; [now left|right; eauto|right; eauto|]. discriminate E.
  Qed.
  (** Asking builds the simulator at most. *)
  Lemma asks_only k g g' r : asks k = true -> do_call k g = Ok (g', r) -> later g g'.
  Proof.
    intros K E. destruct k as [|[c|]|[f|]| |i| |n cap|n ptr|n v|]; try discriminate K; cbn [CosimModel.do_call] in E; unfold do_getvec, do_getreg, ret in E.
    - destruct g as [[m [c|] b]|]; [rewrite lazy_built in E|rewrite lazy_new in E|]; cbn [bind fst] in E; injection E as <- <-; [now left|right; eauto|now left].
    - destruct cap as [k|]; [|injection E as <- <-; now left]. destruct n as [n|]; [|injection E as <- <-; now left].
      destruct g as [[m [c|] b]|]; [rewrite lazy_built in E|rewrite lazy_new in E|]; cbn [bind fst] in E; [| |injection E as <- <-; now left].
      + destruct (reg_words n c) as [l|]; [destruct (Nat.leb _ _); [|discriminate]|]; injection E as <- <-; now left.
      + destruct (reg_words n _) as [l|]; [destruct (Nat.leb _ _); [|discriminate]|]; injection E as <- <-; right; eauto.
    - destruct ptr; cbn [negb] in E; [|injection E as <- <-; now left]. destruct n as [n|]; [|injection E as <- <-; now left].
      destruct g as [[m [c|] b]|]; [rewrite lazy_built in E|rewrite lazy_new in E|]; cbn [bind fst] in E; [| |injection E as <- <-; now left].
      + destruct (read_reg n c) as [l|]; injection E as <- <-; now left.
      + destruct (read_reg n _) as [l|]; injection E as <- <-; right; eauto.
  Qed.
  Lemma run_cons k ks g g' rs : run (k :: ks) g = Ok (g', rs) -> exists g1 r l, do_call k g = Ok (g1, r) /\ run ks g1 = Ok (g', l) /\ rs = r :: l.
  Proof.
    cbn [CosimModel.run]. destruct (do_call k g) as [[g1 r]|?|]; cbn [bind]; try discriminate.
    destruct (run ks g1) as [[g2 l]|?|] eqn:F; cbn [bind]; try discriminate. intros E. injection E as <- <-. exists g1, r, l. auto.
  Qed.
  Lemma run_make k ks g g1 r g' l : do_call k g = Ok (g1, r) -> run ks g1 = Ok (g', l) -> run (k :: ks) g = Ok (g', r :: l).
  Proof. intros A B. cbn [CosimModel.run]. rewrite A. cbn [bind]. rewrite B. reflexivity. Qed.
  Lemma run_quiet ks : forall g0 g g' rs, later g0 g -> run ks g = Ok (g', rs) -> exists g0', run (acting ks) g0 = Ok (g0', results_of ks rs) /\ later g0' g'.
  Proof.
    induction ks as [|k ks IH]; intros g0 g g' rs L E.
    - cbn [CosimModel.run] in E. injection E as <- <-. exists g0. split; [reflexivity|exact L].
    - apply run_cons in E as (g1 & r & l & E1 & E2 & ->). cbn [acting filter results_of]. fold (acting ks). destruct (asks k) eqn:K; cbn [negb].
      + apply (IH g0 g1); [|exact E2]. exact (later_trans _ _ _ L (asks_only k g g1 r K E1)).
      + destruct (call_back k g0 g g1 r L E1) as (g2 & F1 & F2). destruct (IH g2 g1 g' l F2 E2) as (g3 & F3 & F4). exists g3. split; [|exact F4]. exact (run_make _ _ _ _ _ _ _ F1 F3).
  Qed.
  Lemma run_forth ks : forall g g' g1 rs, later g g' -> existsb is_config ks = false -> run ks g = Ok (g1, rs) -> exists g1', run ks g' = Ok (g1', rs).
  Proof.
    induction ks as [|k ks IH]; intros g g' g1 rs L K E.
    - cbn [CosimModel.run] in E. injection E as <- <-. exists g'. reflexivity.
    - cbn [existsb] in K. apply orb_false_iff in K as [K1 K2]. apply run_cons in E as (g2 & r & l & E1 & E2 & ->).
      destruct (call_forth k g g' g2 r L K1 E1) as (g3 & F1 & F2). destruct (IH g2 g3 g1 l F2 K2 E2) as (g4 & F3). exists g4. exact (run_make _ _ _ _ _ _ _ F1 F3).
  Qed.

  Lemma run_back ks : forall g g' g1 rs, later g g' -> run ks g' = Ok (g1, rs) -> exists g2, run ks g = Ok (g2, rs).
  Proof.
    induction ks as [|k ks IH]; intros g g' g1 rs L E.
    - cbn [CosimModel.run] in E. injection E as <- <-. exists g. reflexivity.
    - apply run_cons in E as (g2 & r & l & E1 & E2 & ->). destruct (call_back k g g' g2 r L E1) as (g3 & F1 & F2).
      destruct (IH g3 g2 g1 l F2 E2) as (g4 & F3). exists g4. exact (run_make _ _ _ _ _ _ _ F1 F3).
  Qed.

  Theorem quiet ks g rs : run ks None = Ok (g, rs) -> exists g0, run (acting ks) None = Ok (g0, results_of ks rs).
  Proof. intros E. destruct (run_quiet ks None None g rs (later_refl _) E) as (g0 & E0 & _). eauto. Qed.
  Theorem defaults ks g rs : existsb is_config ks = false -> run (Init _ :: ks) None = Ok (g, R 0 [] :: rs) ->
    exists g', run (Init _ :: Config _ (Some usual) :: ks) None = Ok (g', R 0 [] :: R 0 [] :: rs).
  Proof.
    intros K E. apply run_cons in E as (g1 & r & l & E1 & E2 & E3). cbn in E1. injection E1 as <- <-. injection E3 as ->.
    destruct (run_forth ks _ (Some (H empty_mem (Some (boot usual)) false)) g l (or_intror (ex_intro _ empty_mem (ex_intro _ false (conj eq_refl eq_refl)))) K E2) as (g' & E').
    exists g'. eapply run_make; [reflexivity|]. eapply run_make; [reflexivity|]. exact E'.
  Qed.
  (** A register written and read. *)
  Theorem set_get n v g g1 r : 0 <= v < 2 ^ 32 -> g <> None ->
    (forall c c', write_reg n v c = Some c' -> exists x, read_reg n c' = Some x /\ x mod 2 ^ 32 = v) ->
    do_call (SetReg _ (Some n) v) g = Ok (g1, r) ->
    (r = R 0 [] /\ do_call (GetReg _ (Some n) true) g1 = Ok (g1, R 0 [v])) \/ (r = R (-4) [] /\ forall ks g2 rs, run ks g1 = Ok (g2, rs) -> exists g3, run ks g = Ok (g3, rs)).
  Proof.
    intros Hv Hg W E. destruct g as [[m c b]|]; [|contradiction]. cbn [CosimModel.do_call] in *. unfold do_setreg, do_getreg, ret in *.
    assert (X : exists c0, lazy (H m c b) = Ok (H m (Some c0) b, c0) /\ later (Some (H m c b)) (Some (H m (Some c0) b))).
    { destruct c as [c|]; [exists c; split; [reflexivity|now left]|]. exists (boot usual). split; [apply lazy_new|right; eauto]. }
    destruct X as (c0 & X & L). rewrite X in E. cbn [bind h_mem h_halted] in E. rewrite Z.mod_small in E by exact Hv.
    destruct (write_reg n v c0) as [c'|] eqn:F; injection E as <- <-; [left|right; split; [reflexivity|]; intros ks g2 rs; apply run_back; exact L].
    split; [reflexivity|]. cbn [negb]. rewrite lazy_built. cbn [bind]. destruct (W _ _ F) as (x & -> & <-). reflexivity.
  Qed.
  (** What calls write to the caller's variables. *)
  Theorem outputs k g g' r : do_call k g = Ok (g', r) -> outputs_ok k r.
  Proof.
    intros E. destruct k as [|[c|]|[f|]| |i| |n cap|n ptr|n v|]; cbn [CosimModel.do_call] in E; unfold do_init, do_fini, do_step, do_getvec, do_getreg, do_setreg, init_handle, ret in E; cbn [outputs_ok].
    - destruct g; now injection E as <- <-.
    - destruct g as [[m [c0|] b]|]; cbn [h_core bind] in E; [discriminate|now injection E as <- <-|now injection E as <- <-].
    - destruct g; now injection E as <- <-.
    - destruct g as [h|]; [|discriminate]. destruct (load_elf f _); now injection E as <- <-.
    - now injection E as <- <-.
    - destruct g; cbn [bind fst] in E; now injection E as <- <-.
    - destruct g as [h|]; [|now injection E as <- <-]. destruct (lazy h) as [[h1 c]|?|]; cbn [bind] in E; try discriminate.
      destruct (h_halted _ _ h1); [now injection E as <- <-|]. destruct i as [w|]; [|discriminate]. destruct (write_word _ _ _ _) as [m|]; [|now injection E as <- <-].
      destruct (step1 c m) as [[[ok c'] m'] mp]. now injection E as <- <-.
    - destruct g as [h|]; [|now injection E as <- <-]. destruct (lazy h) as [[h1 c]|?|]; cbn [bind] in E; try discriminate. now injection E as <- <-.
    - destruct cap as [k|]; [|injection E as <- <-; now right]. destruct n as [n|]; [|injection E as <- <-; now right]. destruct g as [h|]; [|injection E as <- <-; now right].
      destruct (lazy h) as [[h1 c]|?|]; cbn [bind] in E; try discriminate. destruct (reg_words n c) as [l|]; [|injection E as <- <-; now right].
      destruct (Nat.leb_spec (length l) k) as [L|L]; [|discriminate]. injection E as <- <-. left. split; [reflexivity|]. exists k. auto.
    - destruct ptr; cbn [negb] in E; [|injection E as <- <-; destruct n; reflexivity]. destruct n as [n|]; [|injection E as <- <-; reflexivity].
      destruct g as [h|]; [|injection E as <- <-; exists 0; cbn; repeat split; lia]. destruct (lazy h) as [[h1 c]|?|]; cbn [bind] in E; try discriminate.
      destruct (read_reg n c) as [x|]; injection E as <- <-; cbn [r_out r_ret]; [|exists 0; repeat split; lia].
      exists (x mod 2 ^ 32). split; [reflexivity|]. split; [apply Z.mod_pos_bound; lia|contradiction].
    - destruct n as [n|]; [|now injection E as <- <-]. destruct g as [h|]; [|now injection E as <- <-].
      destruct (lazy h) as [[h1 c]|?|]; cbn [bind] in E; try discriminate. destruct (write_reg _ _ c); now injection E as <- <-.
    - destruct g; now injection E as <- <-.
  Qed.
End P.
