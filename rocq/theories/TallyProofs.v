(** * Proofs about the counters of executed opcodes *)
From Coq Require Import ZArith List Bool String Lia ZifyBool ZifyNat.
From Verif Require Import CInt LogModel LogSpec TopModel TopSpec CliModel CliSpec TallyModel TallySpec.
From Verif Require CliProofs TopProofs TopProofs2 TopProofs3 TopProofs4 TopCor.
Import ListNotations.
Open Scope Z_scope.
Open Scope list_scope.

(** ** Counting *)
Section Count.
  Variable op : Z -> string.
  Notation of_opcode := (of_opcode op).
  Lemma of_nil n : of_opcode n [] = 0.
  Proof. reflexivity. Qed.
  Lemma of_app n l l' : of_opcode n (l ++ l') = of_opcode n l + of_opcode n l'.
  Proof. unfold TallySpec.of_opcode. rewrite filter_app, app_length. lia. Qed.
  Lemma of_one n w : of_opcode n [w] = if String.eqb n (op w) then 1 else 0.
  Proof. unfold TallySpec.of_opcode. cbn [filter]. rewrite String.eqb_sym. destruct (String.eqb n (op w)); reflexivity. Qed.
  Lemma of_cons n w l : of_opcode n (w :: l) = (if String.eqb n (op w) then 1 else 0) + of_opcode n l.
  Proof. change (w :: l) with ([w] ++ l). rewrite of_app, of_one. reflexivity. Qed.
  Lemma total_bump n q names : NoDup names -> In n names -> total (bump n q) names = total q names + 1.
  Proof.
    intros N. assert (O : forall l, ~ In n l -> total (bump n q) l = total q l).
    { induction l as [|x l IH]; cbn [total fold_right In]; intros F; [reflexivity|]. unfold total in IH. rewrite IH by tauto. unfold bump.
      replace (String.eqb x n) with false by (symmetry; apply String.eqb_neq; intros ->; tauto). reflexivity. }
    induction N as [|x l H N IH]; cbn [In]; [tauto|]. intros I. cbn [total fold_right]. fold (total (bump n q) l) (total q l).
    destruct (string_dec x n) as [->|D].
    - rewrite (O l H). unfold bump. rewrite String.eqb_refl. lia.
    - rewrite IH by (destruct I; [congruence|assumption]). unfold bump. replace (String.eqb x n) with false by (symmetry; now apply String.eqb_neq). lia.
  Qed.
End Count.

Section P.
  Context {C : Type}.
  Variable exec : Z -> Z -> arch (C := C) -> (Z -> Z) -> effect (C := C).
  Variable evicted : Z -> Z -> bool.
  Variable reg_id : string -> option Z.
  Variable reg_size : Z -> Z.
  Variable csr_id : string -> option Z.
  Variable csr_get : Z -> C -> Z.
  Variable csr_set : Z -> Z -> C -> C.
  Variable op : Z -> string.
  Notation top := (top (C := C)).
  Notation mach := (mach (C := C)).
  Notation of_opcode := (of_opcode op).
  Notation words := (words exec).
  Notation ref := (ref exec).
  Notation reached := (reached exec).
  Notation q_step_past := (q_step_past exec evicted op).
  Notation q_iteration := (q_iteration exec evicted op).
  Notation q_step_loop := (q_step_loop exec evicted op).
  Notation q_run_loop := (q_run_loop exec evicted op).
  Notation q_step := (q_step exec evicted op).
  Notation q_run := (q_run exec evicted op).
  Notation q_call := (q_call exec evicted reg_id reg_size csr_id csr_get csr_set op).
  Notation do := (do_call exec evicted reg_id reg_size csr_id csr_get csr_set).
  Notation q_history := (q_history exec evicted reg_id reg_size csr_id csr_get csr_set op).
  Notation ran := (ran exec reg_id reg_size csr_id csr_set).

  (** ** Counting changes nothing *)
  Lemma past_erase q (s : top) : snd (q_step_past q s) = step_past exec evicted s.
  Proof. unfold TallyModel.q_step_past, step_past. destruct (fetch evicted (t_pc s) (write_original (t_pc s) s)) as [w s']. reflexivity. Qed.
  Lemma iteration_erase b np q (s : top) : snd (q_iteration b np q s) = iteration exec evicted b np s.
  Proof.
    unfold TallyModel.q_iteration, iteration. destruct (fetch evicted np s) as [w s1]. destruct (negb _); [reflexivity|]. destruct (reason_eqb _ _); [|reflexivity].
    rewrite <- (past_erase (bump (op w) q)). destruct (q_step_past (bump (op w) q) (execute exec w np s1)) as [q' s2]. reflexivity.
  Qed.
  Lemma step_loop_erase fuel : forall num count pc np q (s : top), snd (q_step_loop fuel num count pc np q s) = step_loop exec evicted fuel num count pc np s.
  Proof.
    induction fuel as [|f IH]; intros num count pc np q s; cbn [TallyModel.q_step_loop step_loop].
    - destruct (negb (t_halted s) && (count <? num)); reflexivity.
    - destruct (negb (t_halted s) && (count <? num)); [|reflexivity]. rewrite <- (iteration_erase true np q). destruct (q_iteration true np q s) as [q' [[go np'] s']]. cbn [snd].
      destruct go; [apply IH|reflexivity].
  Qed.
  Lemma run_loop_erase fuel : forall pc np q (s : top), snd (q_run_loop fuel pc np q s) = run_loop exec evicted fuel pc np s.
  Proof.
    induction fuel as [|f IH]; intros pc np q s; cbn [TallyModel.q_run_loop run_loop].
    - destruct (negb (t_halted s)); reflexivity.
    - destruct (negb (t_halted s)); [|reflexivity]. rewrite <- (iteration_erase false np q). destruct (q_iteration false np q s) as [q' [[go np'] s']]. cbn [snd].
      destruct go; [apply IH|reflexivity].
  Qed.
  Lemma step_erase num q (s : top) : snd (q_step num q s) = step exec evicted num s.
  Proof.
    unfold TallyModel.q_step, step. destruct (num <=? 0); [reflexivity|]. destruct (negb (is_halted (t_status s))); [reflexivity|]. cbv zeta.
    set (s0 := set_halted false (set_status SingleStep s)).
    assert (E : (fst (if t_need s0 then (1, q_step_past q (set_need false s0)) else (0, (q, s0))), snd (snd (if t_need s0 then (1, q_step_past q (set_need false s0)) else (0, (q, s0)))))
      = if t_need s0 then (1, step_past exec evicted (set_need false s0)) else (0, s0)).
    { destruct (t_need s0); cbn [fst snd]; [now rewrite past_erase|reflexivity]. }
    rewrite <- E. destruct (if t_need s0 then (1, q_step_past q (set_need false s0)) else (0, (q, s0))) as [count [q1 s1]]. cbn [fst snd].
    rewrite <- (step_loop_erase (Z.to_nat num) num count None (t_pc s1) q1). destruct (q_step_loop (Z.to_nat num) num count None (t_pc s1) q1 s1) as [q2 [[[c2 pc2] np2] s2]]. reflexivity.
  Qed.
  Lemma run_erase fuel q (s : top) : snd (q_run fuel q s) = run exec evicted fuel s.
  Proof.
    unfold TallyModel.q_run, run. destruct (is_running (t_status s)); [reflexivity|].
    assert (E : snd (if t_need s then q_step_past q (set_need false s) else (q, s)) = if t_need s then step_past exec evicted (set_need false s) else s)
      by (destruct (t_need s); [apply past_erase|reflexivity]).
    destruct (if t_need s then q_step_past q (set_need false s) else (q, s)) as [q1 s1]. cbn [snd] in E. rewrite <- E. cbv zeta.
    rewrite <- (run_loop_erase fuel None (t_pc (set_halted false (set_status Running s1))) q1). destruct (q_run_loop fuel None _ q1 _) as [q2 [[[p np] s2]|]]; reflexivity.
  Qed.
  Theorem call_erase c q (s : top) : snd (q_call c q s) = do c s.
  Proof.
    destruct c; try reflexivity; cbn [TallyModel.q_call do_call].
    - rewrite <- (step_erase n q). destruct (q_step n q s). reflexivity.
    - apply run_erase.
  Qed.
  Theorem history_erase P q s h q' s' : q_history P q s h q' s' -> history exec evicted reg_id reg_size csr_id csr_get csr_set P s h s'.
  Proof.
    induction 1 as [q s|q s c r q1 s1 h q2 s2 HP E H IH]; [constructor|]. econstructor; [exact HP| |exact IH]. rewrite <- (call_erase c q), E. reflexivity.
  Qed.
  Theorem history_exists P s h s' : history exec evicted reg_id reg_size csr_id csr_get csr_set P s h s' -> forall q, exists q', q_history P q s h q' s'.
  Proof.
    induction 1 as [s|s c r s1 h s2 HP E H IH]; intros q; [exists q; constructor|]. rewrite <- (call_erase c q) in E.
    destruct (IH (fst (q_call c q s))) as [q' Hq]. exists q'. econstructor; [exact HP| |exact Hq]. rewrite <- E. now destruct (q_call c q s).
  Qed.

  (** ** A program just loaded *)
  Lemma words_S m k : words m (S k) = words m k ++ [word_at (ref k m)].
  Proof. unfold TallySpec.words. now rewrite seq_S, map_app. Qed.
  Lemma bump_of q l w : (forall x, q x = of_opcode x l) -> forall x, bump (op w) q x = of_opcode x (l ++ [w]).
  Proof. intros H x. unfold bump. rewrite of_app, of_one, H. destruct (String.eqb x (op w)); lia. Qed.
  Lemma q_loop_ok m : unmodified exec m -> regular exec m -> forall fuel k s pc q, reached m k -> CliProofs.sim exec m k s -> (forall x, q x = of_opcode x (words m k)) ->
    match q_run_loop fuel pc (m_pc (ref k m)) q s with
    | (q', None) => reached m (k + fuel) /\ forall x, q' x = of_opcode x (words m (k + fuel))
    | (q', Some _) => exists n r, (k < n <= k + fuel)%nat /\ halts_at exec m n r /\ forall x, q' x = of_opcode x (words m n)
    end.
  Proof.
    intros U G. induction fuel as [|f IH]; intros k s pc q R S Hq; cbn [TallyModel.q_run_loop].
    - destruct S as (-> & _). cbn [negb]. rewrite Nat.add_0_r. split; [exact R|exact Hq].
    - assert (Hh : t_halted s = false) by apply S. rewrite Hh. cbn [negb].
      destruct (CliProofs.fetch_ok exec evicted (fun _ => 0) (fun _ _ c => c) 0 (fun _ _ => None) [] m k s U R S) as (s1 & E & F1 & F2 & F4 & F5 & F6 & F7 & F8 & F9).
      destruct (G k R) as [Gp Gr].
      pose proof (CliProofs.execute_ok exec m k s1 _ Gp eq_refl F1 F2 F4 F5 F6) as X. cbv zeta in X.
      unfold TallyModel.q_iteration. rewrite E. cbv zeta. set (s2 := execute exec (word_at (ref k m)) (m_pc (ref k m)) s1) in *.
      pose proof (bump_of q _ (word_at (ref k m)) Hq) as Hb. rewrite <- words_S in Hb.
      destruct X as (X1 & X2 & X3 & X4 & X5 & X6 & X7 & X8).
      destruct (ref_halt exec (ref k m)) as [r|] eqn:Er.
      + destruct X8 as [Y1 Y2]. rewrite Y1. cbn [negb]. destruct (reason_eqb (t_reason s2) RActionPoint) eqn:Ea.
        * apply CliProofs.reason_eqb_ok in Ea. destruct (Gr r eq_refl) as [N _]. congruence.
        * exists (Datatypes.S k), r. split; [lia|]. split; [|exact Hb].
          split; [lia|]. replace (Datatypes.S k - 1)%nat with k by lia. split; [exact R|exact Er].
      + destruct X8 as [Y1 Y2]. rewrite Y1. cbn [negb]. rewrite X1.
        assert (R' : reached m (Datatypes.S k)) by (apply (CliProofs.reached_S exec evicted (fun _ => 0) (fun _ _ c => c) 0 (fun _ _ => None) []); auto).
        assert (S' : CliProofs.sim exec m (Datatypes.S k) s2).
        { unfold CliProofs.sim. rewrite X5, X6, F7, F8, X7. repeat (split; [first [assumption|lia]|]). exact F9. }
        pose proof (IH (Datatypes.S k) s2 (Some (m_pc (ref k m))) (bump (op (word_at (ref k m))) q) R' S' Hb) as I.
        destruct (q_run_loop f (Some (m_pc (ref k m))) (m_pc (ref (Datatypes.S k) m)) (bump (op (word_at (ref k m))) q) s2) as [q' [x|]].
        * destruct I as (n & r & Hn & Hh' & I). exists n, r. split; [lia|]. split; [exact Hh'|exact I].
        * replace (k + Datatypes.S f)%nat with (Datatypes.S k + f)%nat by lia. exact I.
  Qed.
  Theorem q_run_ok boot fuel s : CliProofs.loaded boot s -> 
    let m := Mach (t_pc s) boot (t_mem s) in unmodified exec m -> regular exec m ->
    match q_run fuel (fun _ => 0) s with
    | (q, None) => reached m fuel /\ forall x, q x = of_opcode x (words m fuel)
    | (q, Some _) => exists n r, (n <= fuel)%nat /\ halts_at exec m n r /\ forall x, q x = of_opcode x (words m n)
    end.
  Proof.
    intros (L1 & L2 & L3 & L4 & L5 & L6 & L7 & L8 & L9) m U G.
    unfold TallyModel.q_run. rewrite L2, L5. cbn [is_running].
    set (s1 := set_halted false (set_status Running s)).
    assert (S : CliProofs.sim exec m 0 s1).
    { unfold CliProofs.sim, s1, m. cbn. repeat (split; [first [reflexivity|assumption]|]). intros a w Ha. rewrite L7 in Ha. discriminate. }
    assert (R : reached m 0) by (intros i Hi; lia).
    pose proof (q_loop_ok m U G fuel 0 s1 None (fun _ => 0) R S (fun x => eq_refl)) as X. change (m_pc (ref 0 m)) with (t_pc s1) in X.
    destruct (q_run_loop fuel None (t_pc s1) (fun _ => 0) s1) as [q' [[[p np] s2]|]]; [|exact X].
    destruct X as (n & r & Hn & X). exists n, r. split; [lia|exact X].
  Qed.
End P.
