(** * Proofs about semihosting *)
From Coq Require Import ZArith List Bool String Lia ZifyBool ZifyNat.
From Verif Require Import CInt TopModel TopSpec HostModel HostSpec.
From Verif Require CliProofs.
Import ListNotations.
Open Scope Z_scope.
Open Scope list_scope.

Lemma between_ok m a : between m a = true <-> marked m a.
Proof. unfold between, marked. rewrite andb_true_iff, !Z.eqb_eq. reflexivity. Qed.

Section P.
  Context {C H : Type}.
  Variable exec : Z -> Z -> arch (C := C) -> (Z -> Z) -> effect (C := C).
  Variable evicted : Z -> Z -> bool.
  Variable reg_id : string -> option Z.
  Variable reg_size : Z -> Z.
  Variable csr_id : string -> option Z.
  Variable csr_get : Z -> C -> Z.
  Variable csr_set : Z -> Z -> C -> C.
  Variable use : bool.
  Variable serve : H -> arch (C := C) -> (Z -> Z) -> served C H.
  Notation top := (top (C := C)).
  Notation mach := (mach (C := C)).
  Notation host := (host H).
  Notation h_execute := (h_execute exec use serve).
  Notation h_step_past := (h_step_past exec evicted use serve).
  Notation h_iteration := (h_iteration exec evicted use serve).
  Notation h_step_loop := (h_step_loop exec evicted use serve).
  Notation h_run_loop := (h_run_loop exec evicted use serve).
  Notation h_step := (h_step exec evicted use serve).
  Notation h_run := (h_run exec evicted use serve).
  Notation h_call := (h_call exec evicted reg_id reg_size csr_id csr_get csr_set use serve).
  Notation do := (do_call exec evicted reg_id reg_size csr_id csr_get csr_set).
  Notation h_history := (h_history exec evicted reg_id reg_size csr_id csr_get csr_set use serve).
  Notation is_call := (is_call use).
  Notation one := (one exec use serve).
  Notation path := (path exec use serve).
  Notation plain := (plain exec use serve).

  (** ** Without calls nothing differs *)
  Definition agrees {A} (h : host) (p : host * A) (x : A) : Prop :=
    h_calls h <= h_calls (fst p) /\ (use = false -> h_calls (fst p) = h_calls h) /\ (h_calls (fst p) = h_calls h -> p = (h, x)).
  Lemma agrees_refl {A} h (x : A) : agrees h (h, x) x.
  Proof. unfold agrees. cbn [fst]. split; [lia|]. split; auto. Qed.
  (** Sequencing. *)
  Lemma agrees_bind {A B} h (p : host * A) x (f : host -> A -> host * B) g : agrees h p x -> (forall h y, agrees h (f h y) (g y)) ->
    agrees h (let '(h1, y) := p in f h1 y) (g x).
  Proof.
    intros (A1 & A2 & A3) F. destruct p as [h1 y]. cbn [fst] in *. destruct (F h1 y) as (B1 & B2 & B3). unfold agrees. split; [lia|]. split.
    - intros U. rewrite (B2 U). now apply A2.
    - intros E. assert (E1 : h_calls h1 = h_calls h) by lia. assert (E2 : h_calls (fst (f h1 y)) = h_calls h1) by lia. specialize (A3 E1). injection A3 as -> ->. now apply B3.
  Qed.
  Lemma execute_agrees w a h s : agrees h (h_execute w a h s) (execute exec w a s).
  Proof.
    unfold HostModel.h_execute. destruct ((w =? ebreak) && use && between (t_mem s) a) eqn:E; [|apply agrees_refl].
    unfold agrees. cbn [fst h_calls]. split; [lia|]. split; [|lia]. intros ->. rewrite andb_false_r in E. discriminate.
  Qed.
  Lemma past_agrees h s : agrees h (h_step_past h s) (step_past exec evicted s).
  Proof.
    unfold HostModel.h_step_past, step_past. destruct (fetch evicted (t_pc s) (write_original (t_pc s) s)) as [w s1].
    exact (agrees_bind h _ _ (fun h x => (h, write_breakpoint (t_pc s) x)) (fun x => write_breakpoint (t_pc s) x) (execute_agrees w (t_pc s) h s1) (fun h y => agrees_refl h _)).
  Qed.
  Lemma iteration_agrees b np h s : agrees h (h_iteration b np h s) (iteration exec evicted b np s).
  Proof.
    unfold HostModel.h_iteration, iteration. destruct (fetch evicted np s) as [w s1]. cbv zeta.
    refine (agrees_bind h _ _ (fun h s => if negb (t_halted s) then (h, (true, t_pc s, s)) else if reason_eqb (t_reason s) RActionPoint then
      let '(h0, s0) := h_step_past h s in (h0, (true, t_pc s, if b then set_need false (set_reason RNone (set_halted false s0)) else set_reason RNone (set_halted false s0))) else (h, (false, t_pc s, s)))
      (fun s => if negb (t_halted s) then (true, t_pc s, s) else if reason_eqb (t_reason s) RActionPoint then
        (true, t_pc s, if b then set_need false (set_reason RNone (set_halted false (step_past exec evicted s))) else set_reason RNone (set_halted false (step_past exec evicted s))) else (false, t_pc s, s))
      (execute_agrees w np h s1) _).
    intros h2 s2. destruct (negb (t_halted s2)); [apply agrees_refl|]. destruct (reason_eqb (t_reason s2) RActionPoint); [|apply agrees_refl].
    exact (agrees_bind h2 _ _ (fun h0 s0 => (h0, (true, t_pc s2, if b then set_need false (set_reason RNone (set_halted false s0)) else set_reason RNone (set_halted false s0))))
      (fun s0 => (true, t_pc s2, if b then set_need false (set_reason RNone (set_halted false s0)) else set_reason RNone (set_halted false s0))) (past_agrees h2 s2) (fun h y => agrees_refl h _)).
  Qed.
  Lemma step_loop_agrees fuel : forall num count pc np h s, agrees h (h_step_loop fuel num count pc np h s) (step_loop exec evicted fuel num count pc np s).
  Proof.
    induction fuel as [|f IH]; intros num count pc np h s; cbn [HostModel.h_step_loop step_loop];
      (destruct (negb (t_halted s) && (count <? num)); [|apply agrees_refl]); [apply agrees_refl|].
    refine (agrees_bind h _ _ (fun h (x : bool * Z * top) => let '(go, np', s') := x in if go then h_step_loop f num (count + 1) (Some np) np' h s' else (h, (count + 1, Some np, np', s')))
      (fun (x : bool * Z * top) => let '(go, np', s') := x in if go then step_loop exec evicted f num (count + 1) (Some np) np' s' else (count + 1, Some np, np', s')) (iteration_agrees true np h s) _).
    intros h1 [[go np'] s']. destruct go; [apply IH|apply agrees_refl].
  Qed.
  Lemma run_loop_agrees fuel : forall pc np h s, agrees h (h_run_loop fuel pc np h s) (run_loop exec evicted fuel pc np s).
  Proof.
    induction fuel as [|f IH]; intros pc np h s; cbn [HostModel.h_run_loop run_loop]; (destruct (negb (t_halted s)); [|apply agrees_refl]); [apply agrees_refl|].
    refine (agrees_bind h _ _ (fun h (x : bool * Z * top) => let '(go, np', s') := x in if go then h_run_loop f (Some np) np' h s' else (h, Some (Some np, np', s')))
      (fun (x : bool * Z * top) => let '(go, np', s') := x in if go then run_loop exec evicted f (Some np) np' s' else Some (Some np, np', s')) (iteration_agrees false np h s) _).
    intros h1 [[go np'] s']. destruct go; [apply IH|apply agrees_refl].
  Qed.
  Lemma step_agrees num h s : agrees h (h_step num h s) (step exec evicted num s).
  Proof.
    unfold HostModel.h_step, step. destruct (num <=? 0); [apply agrees_refl|]. destruct (negb (is_halted (t_status s))); [apply agrees_refl|]. cbv zeta.
    set (s0 := set_halted false (set_status SingleStep s)).
    assert (L : forall count h1 s1, agrees h1
      (let '(h, (count, pc, next_pc, s)) := h_step_loop (Z.to_nat num) num count None (t_pc s1) h1 s1 in
       (h, if reason_eqb (t_reason s) RSwBreakpoint
           then match pc with Some p => Ok (RVal count, set_status Halted (if negb (t_halted (set_pc p s)) then set_reason RNone (set_pc p s) else set_pc p s)) | None => UB Uninitialised end
           else Ok (RVal count, set_status Halted (if negb (t_halted (set_pc next_pc s)) then set_reason RNone (set_pc next_pc s) else set_pc next_pc s))))
      (let '(count, pc, next_pc, s) := step_loop exec evicted (Z.to_nat num) num count None (t_pc s1) s1 in
       if reason_eqb (t_reason s) RSwBreakpoint
       then match pc with Some p => Ok (RVal count, set_status Halted (if negb (t_halted (set_pc p s)) then set_reason RNone (set_pc p s) else set_pc p s)) | None => UB Uninitialised end
       else Ok (RVal count, set_status Halted (if negb (t_halted (set_pc next_pc s)) then set_reason RNone (set_pc next_pc s) else set_pc next_pc s)))).
    { intros count h1 s1. pose proof (step_loop_agrees (Z.to_nat num) num count None (t_pc s1) h1 s1) as A.
      destruct (h_step_loop (Z.to_nat num) num count None (t_pc s1) h1 s1) as [h2 [[[c2 p2] n2] s2]]. destruct (step_loop exec evicted (Z.to_nat num) num count None (t_pc s1) s1) as [[[c3 p3] n3] s3].
      destruct A as (A1 & A2 & A3). cbn [fst] in *. unfold agrees. cbn [fst]. split; [exact A1|]. split; [exact A2|]. intros E. specialize (A3 E). injection A3 as -> -> -> -> ->. reflexivity. }
    destruct (t_need s0); [|exact (L 0 h s0)]. pose proof (past_agrees h (set_need false s0)) as (A1 & A2 & A3). destruct (h_step_past h (set_need false s0)) as [h1 s1]. cbn [fst] in *.
    specialize (L 1 h1 s1). destruct L as (L1 & L2 & L3). unfold agrees. split; [lia|]. split; [intros U; rewrite (L2 U); now apply A2|].
    intros E. assert (E1 : h_calls h1 = h_calls h) by lia. specialize (A3 E1). injection A3 as -> ->. now apply L3.
  Qed.
  Lemma run_agrees fuel h s : agrees h (h_run fuel h s) (run exec evicted fuel s).
  Proof.
    unfold HostModel.h_run, run. destruct (is_running (t_status s)); [apply agrees_refl|].
    assert (L : forall h1 s1, agrees h1
      (match h_run_loop fuel None (t_pc (set_halted false (set_status Running s1))) h1 (set_halted false (set_status Running s1)) with
       | (h, None) => (h, None)
       | (h, Some (pc, next_pc, s)) => (h, Some (if reason_eqb (t_reason s) RSwBreakpoint then match pc with Some p => Ok (ROk, set_status Halted (set_pc p s)) | None => UB Uninitialised end else Ok (ROk, set_status Halted (set_pc next_pc s))))
       end)
      (match run_loop exec evicted fuel None (t_pc (set_halted false (set_status Running s1))) (set_halted false (set_status Running s1)) with
       | None => None
       | Some (pc, next_pc, s) => Some (if reason_eqb (t_reason s) RSwBreakpoint then match pc with Some p => Ok (ROk, set_status Halted (set_pc p s)) | None => UB Uninitialised end else Ok (ROk, set_status Halted (set_pc next_pc s)))
       end)).
    { intros h1 s1. set (s2 := set_halted false (set_status Running s1)). pose proof (run_loop_agrees fuel None (t_pc s2) h1 s2) as (A1 & A2 & A3).
      destruct (h_run_loop fuel None (t_pc s2) h1 s2) as [h2 x]. cbn [fst] in *. unfold agrees. destruct x as [[[p n] s3]|]; cbn [fst]; (split; [exact A1|]; split; [exact A2|]; intros E; specialize (A3 E); assert (F := f_equal snd A3); assert (G := f_equal fst A3); cbn [fst snd] in F, G; rewrite <- F, G; reflexivity). }
    destruct (t_need s); [|exact (L h s)]. cbv zeta. pose proof (past_agrees h (set_need false s)) as (A1 & A2 & A3). destruct (h_step_past h (set_need false s)) as [h1 s1]. cbn [fst] in *.
    specialize (L h1 s1). destruct L as (L1 & L2 & L3). unfold agrees. split; [lia|]. split; [intros U; rewrite (L2 U); now apply A2|].
    intros E. assert (E1 : h_calls h1 = h_calls h) by lia. specialize (A3 E1). injection A3 as -> ->. now apply L3.
  Qed.
  Theorem call_agrees c h s : agrees h (h_call c h s) (do c s).
  Proof.
    destruct c; try apply agrees_refl; cbn [HostModel.h_call do_call]; [|apply run_agrees].
    exact (agrees_bind h _ _ (fun h x => (h, Some x)) (fun x => Some x) (step_agrees n h s) (fun h y => agrees_refl h _)).
  Qed.
  Theorem history_agrees P h s l h' s' : h_history P h s l h' s' ->
    h_calls h <= h_calls h' /\ (use = false -> h_calls h' = h_calls h) /\
    (h_calls h' = h_calls h -> h' = h /\ history exec evicted reg_id reg_size csr_id csr_get csr_set P s l s').
  Proof.
    induction 1 as [h s|h s c r h1 s1 l h2 s2 HP E Hl (I1 & I2 & I3)]; [split; [lia|]; split; [reflexivity|]; intros _; split; [reflexivity|constructor]|].
    destruct (call_agrees c h s) as (A1 & A2 & A3). rewrite E in A1, A2, A3. cbn [fst] in *. split; [lia|]. split; [intros U; rewrite (I2 U); now apply A2|].
    intros X. assert (X1 : h_calls h1 = h_calls h) by lia. specialize (A3 X1). injection A3 as -> Y. destruct I3 as [-> K]; [lia|]. split; [reflexivity|].
    econstructor; [exact HP|symmetry; exact Y|exact K].
  Qed.
End P.
