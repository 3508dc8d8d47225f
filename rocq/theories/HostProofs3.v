(** * Proofs about semihosting: single steps and breakpoints *)
From Coq Require Import ZArith List Bool String Lia ZifyBool ZifyNat.
From Verif Require Import CInt TopModel TopSpec HostModel HostSpec.
From Verif Require TopProofs HostProofs.
Import ListNotations.
Open Scope Z_scope.
Open Scope list_scope.

Section P.
  Context {C H : Type}.
  Variable exec : Z -> Z -> arch (C := C) -> (Z -> Z) -> effect (C := C).
  Variable evicted : Z -> Z -> bool.
  Variable serve : H -> arch (C := C) -> (Z -> Z) -> served C H.
  Notation top := (top (C := C)).
  Notation host := (host H).
  Notation h_step := (h_step exec evicted true serve).
  Notation h_run := (h_run exec evicted true serve).
  Notation h_step_past := (h_step_past exec evicted true serve).

  Lemma step_one h (s : top) : t_status s = Halted -> t_need s = false -> 0 <= t_pc s < 2 ^ 32 ->
    (t_cache s (t_pc s) = None \/ t_cache s (t_pc s) = Some ebreak) -> load32 (t_mem s) (t_pc s) = ebreak -> marked (t_mem s) (t_pc s) ->
    t_reason s <> RSwBreakpoint ->
    let v := serve (h_state h) (t_arch s) (t_mem s) in
    exists s', h_step 1 h s = (Host _ (h_calls h + 1) (v_state v), Ok (RVal 1, s')) /\
      t_pc s' = (t_pc s + 4) mod 2 ^ 32 /\ t_arch s' = v_arch v /\ t_mem s' = v_mem v /\ t_reason s' = (if v_exit v then RSemihost else RNone) /\
      t_status s' = Halted /\ t_bps s' = t_bps s /\ t_map s' = t_map s /\ t_insts s' = t_insts s + 1.
  Proof.
    intros H1 H2 H3 H4 H5 H6 H7 v. unfold HostModel.h_step. rewrite H1. cbn [is_halted negb Z.leb Z.compare]. cbv zeta.
    set (s0 := set_halted false (set_status SingleStep s)). change (t_need s0) with (t_need s). rewrite H2. change (Z.to_nat 1) with 1%nat. cbn [HostModel.h_step_loop].
    change (t_halted s0) with false. cbn [negb andb Z.ltb Z.compare]. unfold HostModel.h_iteration.
    assert (F : exists s1, fetch evicted (t_pc s0) s0 = (ebreak, s1) /\ t_arch s1 = t_arch s /\ t_mem s1 = t_mem s /\ t_halted s1 = false /\ t_reason s1 = t_reason s /\ t_bps s1 = t_bps s /\
      t_map s1 = t_map s /\ t_insts s1 = t_insts s).
    { unfold fetch. unfold s0. cbn [set_halted set_status t_cache t_pc t_mem t_tick]. assert (E : (if evicted (t_tick s) (t_pc s) then None else t_cache s (t_pc s)) = None \/ (if evicted (t_tick s) (t_pc s) then None else t_cache s (t_pc s)) = Some ebreak)
        by (destruct (evicted _ _); [now left|exact H4]).
      destruct E as [-> | ->]; eexists; (split; [rewrite ?H5; reflexivity|]); cbn; auto 10. }
    destruct F as (s1 & -> & F1 & F2 & F3 & F4 & F5 & F6 & F7). change (t_pc s0) with (t_pc s).
    unfold HostModel.h_execute. rewrite F2, (proj2 (HostProofs.between_ok (t_mem s) (t_pc s)) H6). change (ebreak =? ebreak) with true. cbn [andb]. cbv zeta.
    cbn [set_pc set_pcv t_arch t_mem]. rewrite F1, F2. fold v. destruct (v_exit v) eqn:X.
    - cbn. eexists. split; [reflexivity|]. cbn. rewrite Z.mod_mod by lia. rewrite F5, F6, F7. auto 10.
    - cbn. rewrite F3. cbn. rewrite F3. cbn. rewrite ?F3, F4. destruct (reason_eqb (t_reason s) RSwBreakpoint) eqn:E; [destruct (t_reason s); discriminate || congruence|].
      eexists. split; [reflexivity|]. cbn. rewrite Z.mod_mod by lia. rewrite F5, F6, F7. auto 10.
  Qed.
  Lemma past_serves h (s : top) : 4 <= t_pc s < 2 ^ 32 -> t_map s (t_pc s) = Some ebreak -> marked (t_mem s) (t_pc s) -> h_calls h < h_calls (fst (h_step_past h s)).
  Proof.
    intros H1 H2 H3. unfold HostModel.h_step_past, write_original. rewrite H2. unfold fetch. cbn [set_cache set_mem t_cache t_tick t_mem t_pc].
    unfold upd1 at 1. rewrite Z.eqb_refl. replace (if evicted (t_tick s) (t_pc s) then None else None) with (@None Z) by now destruct (evicted _ _).
    rewrite TopProofs.load32_store by (unfold ebreak; lia). unfold HostModel.h_execute. change (ebreak =? ebreak) with true. cbn [andb tick set_cache set_mem t_mem].
    assert (M : between (store32 (t_mem s) (t_pc s) ebreak) (t_pc s) = true).
    { apply HostProofs.between_ok. destruct H3 as [A B]. rewrite Z.mod_small in A by lia. rewrite Z.mod_small in B by lia. split; (rewrite Z.mod_small by lia).
      - rewrite <- A. apply TopProofs.load32_ext. intros i Hi. apply TopProofs.store32_out. lia.
      - rewrite <- B. apply TopProofs.load32_ext. intros i Hi. apply TopProofs.store32_out. lia. }
    rewrite M. cbn [fst h_calls]. lia.
  Qed.
  Lemma resume fuel num h (s : top) : t_status s = Halted -> t_need s = true -> 4 <= t_pc s < 2 ^ 32 -> t_map s (t_pc s) = Some ebreak -> marked (t_mem s) (t_pc s) ->
    h_calls h < h_calls (fst (h_run fuel h s)) /\ (0 < num -> h_calls h < h_calls (fst (h_step num h s))).
  Proof.
    intros H1 H2 H3 H4 H5. split.
    - unfold HostModel.h_run. rewrite H1, H2. cbn [is_running]. pose proof (past_serves h (set_need false s) H3 H4 H5) as P. destruct (h_step_past h (set_need false s)) as [h1 s1]. cbn [fst] in P. cbv zeta.
      destruct (HostProofs.run_loop_agrees exec evicted (fun _ => 0) (fun _ _ => 0) (fun _ _ c => c) true serve fuel None (t_pc (set_halted false (set_status Running s1))) h1 (set_halted false (set_status Running s1))) as (A & _).
      destruct (h_run_loop _ _ _ _ _ _ _ _ _) as [h2 [[[p np] s2]|]]; cbn [fst] in *; lia.
    - intros N. unfold HostModel.h_step. replace (num <=? 0) with false by lia. rewrite H1. cbn [is_halted negb]. cbv zeta. cbn [set_status set_halted t_need]. rewrite H2.
      set (s0 := set_need false _). pose proof (past_serves h s0 H3 H4 H5) as P. destruct (h_step_past h s0) as [h1 s1]. cbn [fst] in P.
      destruct (HostProofs.step_loop_agrees exec evicted (fun _ => 0) (fun _ _ => 0) (fun _ _ c => c) true serve (Z.to_nat num) num 1 None (t_pc s1) h1 s1) as (A & _).
      destruct (h_step_loop _ _ _ _ _ _ _ _ _ _ _) as [h2 [[[c p] np] s2]]. cbn [fst] in *. lia.
  Qed.
End P.
