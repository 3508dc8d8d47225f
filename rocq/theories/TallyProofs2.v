(** * The counters of executed opcodes in any history of calls

    The machine with a list of the instructions executed, kept in its csr state. *)
From Coq Require Import ZArith List Bool String Lia ZifyBool ZifyNat.
From Verif Require Import CInt TopModel TopSpec TallyModel TallySpec TallyProofs.
From Verif Require TopCor.
Import ListNotations.
Open Scope Z_scope.
Open Scope list_scope.

Section G.
  Context {C : Type}.
  Variable exec : Z -> Z -> arch (C := C) -> (Z -> Z) -> effect (C := C).
  Variable evicted : Z -> Z -> bool.
  Variable reg_id : string -> option Z.
  Variable reg_size : Z -> Z.
  Variable csr_id : string -> option Z.
  Variable csr_get : Z -> C -> Z.
  Variable csr_set : Z -> Z -> C -> C.
  Variable op : Z -> string.
  Notation top := (top (C := C)).
  Notation mach := (mach (C := C)).
  Notation GC := (C * list Z)%type.
  Notation of_opcode := (of_opcode op).
  Notation words := (words exec).
  Notation ref := (ref exec).

  Definition gexec (w a : Z) (s : arch (C := GC)) (m : Z -> Z) : effect (C := GC) :=
    let f := exec w a (Arch (a_regs s) (fst (a_csr s))) m in
    Eff (Arch (a_regs (f_arch f)) (a_csr (f_arch f), snd (a_csr s) ++ [w])) (f_mem f) (f_pc f) (f_halt f).
  Definition gget (c : Z) (x : GC) : Z := csr_get c (fst x).
  Definition gset (c v : Z) (x : GC) : GC := (csr_set c v (fst x), snd x).
  Definition la (g : list Z) (s : arch (C := C)) : arch (C := GC) := Arch (a_regs s) (a_csr s, g).
  Definition lift (g : list Z) (s : top) : TopModel.top (C := GC) :=
    Top (la g (t_arch s)) (t_mem s) (t_pc s) (t_status s) (t_reason s) (t_halted s)
      (t_need s) (t_bps s) (t_map s) (t_cache s) (t_tick s) (t_insts s) (t_cycles s).
  Definition lm (g : list Z) (m : mach) : TopSpec.mach (C := GC) := Mach (m_pc m) (la g (m_arch m)) (m_mem m).
  Notation gdo := (do_call gexec evicted reg_id reg_size csr_id gget gset).
  Notation do := (do_call exec evicted reg_id reg_size csr_id csr_get csr_set).
  Notation q_call := (q_call exec evicted reg_id reg_size csr_id csr_get csr_set op).

  (** The counters and the list. *)
  Definition inv (q : tally) (g : list Z) (s : top) : Prop :=
    forall n, q n = of_opcode n g + (if String.eqb n (op ebreak) then t_insts s - Z.of_nat (length g) else 0).

  Lemma lift_fetch g a s : fetch evicted a (lift g s) = (fst (fetch evicted a s), lift g (snd (fetch evicted a s))).
  Proof. unfold fetch. cbn [lift t_tick t_cache t_mem]. destruct (if evicted (t_tick s) a then None else t_cache s a); reflexivity. Qed.
  Lemma fetch_insts a (s : top) : t_insts (snd (fetch evicted a s)) = t_insts s.
  Proof. unfold fetch. destruct (if evicted (t_tick s) a then None else t_cache s a); reflexivity. Qed.
  Lemma lift_original g a s : write_original a (lift g s) = lift g (write_original a s).
  Proof. unfold write_original. cbn [lift t_map]. destruct (t_map s a); reflexivity. Qed.
  Lemma original_insts a (s : top) : t_insts (write_original a s) = t_insts s.
  Proof. unfold write_original. destruct (t_map s a); reflexivity. Qed.
  Lemma lift_breakpoint g a s : write_breakpoint a (lift g s) = lift g (write_breakpoint a s).
  Proof. unfold write_breakpoint. cbn [lift t_map]. destruct (t_map s a); reflexivity. Qed.
  Lemma breakpoint_insts a (s : top) : t_insts (write_breakpoint a s) = t_insts s.
  Proof. unfold write_breakpoint. destruct (t_map s a); reflexivity. Qed.
  Lemma request_insts r (s : top) : t_insts (request_halt r s) = t_insts s.
  Proof. unfold request_halt. destruct (reason_eqb r RSwBreakpoint || reason_eqb r RActionPoint); reflexivity. Qed.
  Lemma lift_request g r s : request_halt r (lift g s) = lift g (request_halt r s).
  Proof. unfold request_halt. destruct (reason_eqb r RSwBreakpoint || reason_eqb r RActionPoint); reflexivity. Qed.
  Lemma execute_insts w a (s : top) : t_insts (execute exec w a s) = t_insts s + 1.
  Proof.
    unfold execute. cbn [count1 t_insts]. destruct (w =? ebreak).
    - destruct (has_bp a (set_pc (a + 4) s)); rewrite ?request_insts; reflexivity.
    - destruct (f_halt _); rewrite ?request_insts; reflexivity.
  Qed.
  Lemma la_eta (s : arch (C := C)) : Arch (a_regs s) (a_csr s) = s.
  Proof. now destruct s. Qed.
  Lemma lift_execute q g w a s : inv q g s -> exists g', execute gexec w a (lift g s) = lift g' (execute exec w a s) /\ inv (bump (op w) q) g' (execute exec w a s).
  Proof.
    intros I. exists (if w =? ebreak then g else g ++ [w]). split.
    - unfold execute. change (set_pc (a + 4) (lift g s)) with (lift g (set_pc (a + 4) s)). destruct (w =? ebreak).
      + change (has_bp a (lift g (set_pc (a + 4) s))) with (has_bp a (set_pc (a + 4) s)). destruct (has_bp a (set_pc (a + 4) s)); rewrite !lift_request; reflexivity.
      + set (s0 := set_pc (a + 4) s). unfold gexec. cbn [f_arch f_mem f_pc f_halt lift t_arch t_mem la a_regs a_csr fst snd]. rewrite la_eta.
        set (f := exec w a (t_arch s0) (t_mem s0)).
        change (set_pcv (f_pc f) (set_mem (f_mem f) (set_arch (Arch (a_regs (f_arch f)) (a_csr (f_arch f), g ++ [w])) (lift g s0))))
          with (lift (g ++ [w]) (set_pcv (f_pc f) (set_mem (f_mem f) (set_arch (f_arch f) s0)))).
        destruct (f_halt f); [rewrite lift_request|]; reflexivity.
    - intros n. unfold bump. rewrite (I n), execute_insts. destruct (Z.eqb_spec w ebreak) as [->|N].
      + destruct (String.eqb n (op ebreak)); lia.
      + rewrite of_app, of_one, app_length. cbn [length]. destruct (String.eqb n (op w)), (String.eqb n (op ebreak)); lia.
  Qed.
  Lemma inv_same q g s s' : t_insts s' = t_insts s -> inv q g s -> inv q g s'.
  Proof. intros E I n. rewrite E. apply I. Qed.

  Lemma lift_past q g s : inv q g s -> let '(q', s') := q_step_past exec evicted op q s in
    exists g', step_past gexec evicted (lift g s) = lift g' s' /\ inv q' g' s'.
  Proof.
    intros I. unfold q_step_past, step_past. change (t_pc (lift g s)) with (t_pc s). rewrite lift_original, lift_fetch.
    pose proof (fetch_insts (t_pc s) (write_original (t_pc s) s)) as F. rewrite original_insts in F.
    destruct (fetch evicted (t_pc s) (write_original (t_pc s) s)) as [w s1]. cbn [fst snd] in *.
    destruct (lift_execute q g w (t_pc s) s1 (inv_same _ _ _ _ F I)) as (g' & -> & I'). exists g'. split; [apply lift_breakpoint|].
    eapply inv_same; [apply breakpoint_insts|exact I'].
  Qed.
  Lemma lift_iteration b np q g s : inv q g s -> let '(q', (go, np', s')) := q_iteration exec evicted op b np q s in
    exists g', iteration gexec evicted b np (lift g s) = (go, np', lift g' s') /\ inv q' g' s'.
  Proof.
    intros I. unfold q_iteration, iteration. rewrite lift_fetch. pose proof (fetch_insts np s) as F. destruct (fetch evicted np s) as [w s1]. cbn [fst snd] in *.
    destruct (lift_execute q g w np s1 (inv_same _ _ _ _ F I)) as (g' & -> & I'). cbn [lift t_halted t_reason t_pc].
    set (s2 := execute exec w np s1) in *. destruct (negb (t_halted s2)); [exists g'; auto|]. destruct (reason_eqb (t_reason s2) RActionPoint); [|exists g'; auto].
    pose proof (lift_past _ _ _ I') as L. destruct (q_step_past exec evicted op (bump (op w) q) s2) as [q3 s3]. destruct L as (g3 & -> & I3). exists g3.
    destruct b; (split; [reflexivity|]); (eapply inv_same; [|exact I3]); reflexivity.
  Qed.
  Lemma lift_step_loop fuel : forall num count pc np q g s, inv q g s ->
    let '(q', (c', pc', np', s')) := q_step_loop exec evicted op fuel num count pc np q s in
    exists g', step_loop gexec evicted fuel num count pc np (lift g s) = (c', pc', np', lift g' s') /\ inv q' g' s'.
  Proof.
    induction fuel as [|f IH]; intros num count pc np q g s I; cbn [q_step_loop step_loop]; cbn [lift t_halted].
    - destruct (negb (t_halted s) && (count <? num)); exists g; auto.
    - destruct (negb (t_halted s) && (count <? num)); [|exists g; auto]. pose proof (lift_iteration true np q g s I) as L.
      destruct (q_iteration exec evicted op true np q s) as [q' [[go np'] s']]. destruct L as (g' & E & I'). rewrite E.
      destruct go; [exact (IH _ _ _ _ _ _ _ I')|exists g'; auto].
  Qed.
  Lemma lift_run_loop fuel : forall pc np q g s, inv q g s ->
    match q_run_loop exec evicted op fuel pc np q s with
    | (q', Some (pc', np', s')) => exists g', run_loop gexec evicted fuel pc np (lift g s) = Some (pc', np', lift g' s') /\ inv q' g' s'
    | (_, None) => True
    end.
  Proof.
    induction fuel as [|f IH]; intros pc np q g s I; cbn [q_run_loop run_loop]; cbn [lift t_halted].
    - destruct (negb (t_halted s)); [exact Logic.I|exists g; auto].
    - destruct (negb (t_halted s)); [|exists g; auto]. pose proof (lift_iteration false np q g s I) as L.
      destruct (q_iteration exec evicted op false np q s) as [q' [[go np'] s']]. destruct L as (g' & E & I'). rewrite E.
      destruct go; [exact (IH _ _ _ _ _ I')|exists g'; auto].
  Qed.

  Lemma lift_guarded g s k k' : k' = (fst k, lift g (snd k)) -> guarded (lift g s) k' = (fst (guarded s k), lift g (snd (guarded s k))).
  Proof. intros ->. unfold guarded. cbn [lift t_status]. destruct (is_halted (t_status s)); reflexivity. Qed.
  Lemma guarded_insts (s : top) k : t_insts (snd k) = t_insts s -> t_insts (snd (guarded s k)) = t_insts s.
  Proof. intros E. unfold guarded. destruct (is_halted (t_status s)); [exact E|reflexivity]. Qed.
  (** A call that executes nothing. *)
  Definition still (x : ret * top) (y : ret * TopModel.top (C := GC)) (g : list Z) (s : top) : Prop :=
    y = (fst x, lift g (snd x)) /\ t_insts (snd x) = t_insts s.
  Lemma still_guarded g s k k' : still k k' g s -> still (guarded s k) (guarded (lift g s) k') g s.
  Proof. intros [H1 H2]. split; [now apply lift_guarded|now apply guarded_insts]. Qed.
  Lemma still_write_memory g a buf s : still (write_memory a buf s) (write_memory a buf (lift g s)) g s.
  Proof. apply still_guarded. destruct (max_address <? a); split; reflexivity. Qed.
  Lemma still_chunks fuel : forall g l a s, still (load_chunks fuel l a s) (load_chunks fuel l a (lift g s)) g s.
  Proof.
    induction fuel as [|f IH]; intros g l a s; cbn [load_chunks]; [split; reflexivity|]. cbv zeta.
    destruct (Z.of_nat (length (firstn buffer_size l)) =? 0); [split; reflexivity|].
    destruct (still_write_memory g a (firstn buffer_size l) s) as [E1 E2]. destruct (write_memory a (firstn buffer_size l) s) as [r s']. cbn [fst snd] in *. rewrite E1.
    destruct r; try (split; [reflexivity|exact E2]). destruct (v =? Z.of_nat (length (firstn buffer_size l))); [|split; [reflexivity|exact E2]].
    destruct (Z.of_nat (length (firstn buffer_size l)) =? Z.of_nat buffer_size); [|split; [reflexivity|exact E2]].
    destruct (IH g (skipn buffer_size l) ((a + Z.of_nat (length (firstn buffer_size l))) mod 2 ^ 64) s') as [F1 F2]. split; [exact F1|congruence].
  Qed.
  Lemma still_clear g l : forall s, let f s a := write_original a (set_bps (drop_bp a (t_bps s)) s) in
    fold_left (fun s a => write_original a (set_bps (drop_bp a (t_bps s)) s)) l (lift g s) = lift g (fold_left f l s) /\ t_insts (fold_left f l s) = t_insts s.
  Proof.
    cbv zeta. induction l as [|a l IH]; intros s; cbn [fold_left]; [split; reflexivity|].
    change (set_bps (drop_bp a (t_bps (lift g s))) (lift g s)) with (lift g (set_bps (drop_bp a (t_bps s)) s)). rewrite lift_original.
    destruct (IH (write_original a (set_bps (drop_bp a (t_bps s)) s))) as [E F]. split; [exact E|]. rewrite F, original_insts. reflexivity.
  Qed.
  Lemma lift_call c q g s : inv q g s ->
    match q_call c q s with
    | (q', Some (Ok (r, s'))) => exists g', gdo c (lift g s) = Some (Ok (r, lift g' s')) /\ inv q' g' s'
    | _ => True
    end.
  Proof.
    intros I.
    assert (D : forall x y, still x y g s -> q_call c q s = (q, Some (Ok x)) -> gdo c (lift g s) = Some (Ok y) ->
      match q_call c q s with (q', Some (Ok (r, s'))) => exists g', gdo c (lift g s) = Some (Ok (r, lift g' s')) /\ inv q' g' s' | _ => True end).
    { intros [r s'] y [E1 E2] H1 H2. rewrite H1, H2, E1. cbn [fst snd] in *. exists g. split; [reflexivity|]. eapply inv_same; [exact E2|exact I]. }
    destruct c.
    - cbn [TallyModel.q_call do_call]. unfold q_step, step. destruct (n <=? 0); [exists g; auto|]. change (t_status (lift g s)) with (t_status s).
      destruct (negb (is_halted (t_status s))); [exists g; auto|]. cbv zeta.
      change (set_halted false (set_status SingleStep (lift g s))) with (lift g (set_halted false (set_status SingleStep s))).
      set (s0 := set_halted false (set_status SingleStep s)). assert (I0 : inv q g s0) by (eapply inv_same; [|exact I]; reflexivity).
      change (t_need (lift g s0)) with (t_need s0).
      assert (L : let '(k, (q1, s1)) := if t_need s0 then (1, q_step_past exec evicted op q (set_need false s0)) else (0, (q, s0)) in
        exists g1, (if t_need s0 then (1, step_past gexec evicted (set_need false (lift g s0))) else (0, lift g s0)) = (k, lift g1 s1) /\ inv q1 g1 s1).
      { destruct (t_need s0); [|exists g; auto]. assert (I1 : inv q g (set_need false s0)) by (eapply inv_same; [|exact I0]; reflexivity).
        pose proof (lift_past q g (set_need false s0) I1) as L. destruct (q_step_past exec evicted op q (set_need false s0)) as [q1 s1]. destruct L as (g1 & E & I2). exists g1.
        change (set_need false (lift g s0)) with (lift g (set_need false s0)). rewrite E. auto. }
      destruct (if t_need s0 then (1, q_step_past exec evicted op q (set_need false s0)) else (0, (q, s0))) as [k [q1 s1]]. destruct L as (g1 & -> & I1).
      change (t_pc (lift g1 s1)) with (t_pc s1). pose proof (lift_step_loop (Z.to_nat n) n k None (t_pc s1) q1 g1 s1 I1) as L.
      destruct (q_step_loop exec evicted op (Z.to_nat n) n k None (t_pc s1) q1 s1) as [q2 [[[c2 pc2] np2] s2]]. destruct L as (g2 & -> & I2).
      change (t_reason (lift g2 s2)) with (t_reason s2).
      assert (Z : forall p, exists g', @Some (outcome (ret * TopModel.top (C := GC))) (Ok (RVal c2, set_status Halted (if negb (t_halted (set_pc p (lift g2 s2))) then set_reason RNone (set_pc p (lift g2 s2)) else set_pc p (lift g2 s2)))) =
        Some (Ok (RVal c2, lift g' (set_status Halted (if negb (t_halted (set_pc p s2)) then set_reason RNone (set_pc p s2) else set_pc p s2)))) /\
        inv q2 g' (set_status Halted (if negb (t_halted (set_pc p s2)) then set_reason RNone (set_pc p s2) else set_pc p s2))).
      { intros p. exists g2. change (t_halted (set_pc p (lift g2 s2))) with (t_halted (set_pc p s2)). destruct (negb (t_halted (set_pc p s2))); (split; [reflexivity|]); (eapply inv_same; [|exact I2]); reflexivity. }
      destruct (reason_eqb (t_reason s2) RSwBreakpoint); [destruct pc2; [apply Z|exact Logic.I]|apply Z].
    - cbn [TallyModel.q_call do_call]. unfold q_run, run. change (t_status (lift g s)) with (t_status s).
      destruct (is_running (t_status s)); [exists g; auto|]. change (t_need (lift g s)) with (t_need s).
      assert (L : let '(q1, s1) := if t_need s then q_step_past exec evicted op q (set_need false s) else (q, s) in
        exists g1, (if t_need s then step_past gexec evicted (set_need false (lift g s)) else lift g s) = lift g1 s1 /\ inv q1 g1 s1).
      { destruct (t_need s); [|exists g; auto]. assert (I1 : inv q g (set_need false s)) by (eapply inv_same; [|exact I]; reflexivity).
        pose proof (lift_past q g (set_need false s) I1) as L. destruct (q_step_past exec evicted op q (set_need false s)) as [q1 s1]. destruct L as (g1 & E & I2). exists g1.
        change (set_need false (lift g s)) with (lift g (set_need false s)). auto. }
      destruct (if t_need s then q_step_past exec evicted op q (set_need false s) else (q, s)) as [q1 s1]. destruct L as (g1 & -> & I1). cbv zeta.
      change (set_halted false (set_status Running (lift g1 s1))) with (lift g1 (set_halted false (set_status Running s1))).
      set (s2 := set_halted false (set_status Running s1)). assert (I2 : inv q1 g1 s2) by (eapply inv_same; [|exact I1]; reflexivity).
      change (t_pc (lift g1 s2)) with (t_pc s2). pose proof (lift_run_loop fuel None (t_pc s2) q1 g1 s2 I2) as L.
      destruct (q_run_loop exec evicted op fuel None (t_pc s2) q1 s2) as [q3 [[[pc3 np3] s3]|]]; [|exact Logic.I]. destruct L as (g3 & -> & I3).
      change (t_reason (lift g3 s3)) with (t_reason s3).
      destruct (reason_eqb (t_reason s3) RSwBreakpoint); [destruct pc3; [|exact Logic.I]|]; exists g3; (split; [reflexivity|]); (eapply inv_same; [|exact I3]); reflexivity.
    - eapply D; [|reflexivity|reflexivity]. unfold halt. cbn [lift t_status]. destruct (t_status s); split; reflexivity.
    - eapply D; [|reflexivity|reflexivity]. unfold halt_with. rewrite lift_request. split; [reflexivity|apply request_insts].
    - eapply D; [|reflexivity|reflexivity]. apply still_guarded. change (has_bp a (lift g s)) with (has_bp a s). destruct (has_bp a s); [split; reflexivity|].
      change (set_bps (a :: t_bps (lift g s)) (lift g s)) with (lift g (set_bps (a :: t_bps s) s)). rewrite lift_breakpoint. split; [reflexivity|]. cbn [snd]. rewrite breakpoint_insts. reflexivity.
    - eapply D; [|reflexivity|reflexivity]. apply still_guarded. change (has_bp a (lift g s)) with (has_bp a s). destruct (has_bp a s); [|split; reflexivity].
      change (set_bps (drop_bp a (t_bps (lift g s))) (lift g s)) with (lift g (set_bps (drop_bp a (t_bps s)) s)). rewrite lift_original. split; [reflexivity|]. cbn [snd]. rewrite original_insts. reflexivity.
    - eapply D; [|reflexivity|reflexivity]. apply still_guarded. destruct (still_clear g (t_bps s) s) as [E F]. split; [cbn [fst snd]; f_equal; exact E|exact F].
    - eapply D; [|reflexivity|reflexivity]. split; reflexivity.
    - eapply D; [|reflexivity|reflexivity]. apply still_guarded. destruct (reg_id name) as [i|]; [|destruct (csr_id name); split; reflexivity].
      destruct (size_ok (reg_size i)); [|split; reflexivity]. unfold reg_value. cbn [lift t_pc t_arch la a_regs]. destruct (String.eqb name pc_name); split; reflexivity.
    - eapply D; [|reflexivity|reflexivity]. apply still_guarded. destruct (reg_id name) as [i|]; [|destruct (csr_id name); split; reflexivity]. cbn [lift t_reason].
      destruct (String.eqb name pc_name); cbn [andb]; destruct (reason_eqb (t_reason s) RSwBreakpoint), (size_ok (reg_size i)); split; reflexivity.
    - eapply D; [|reflexivity|reflexivity]. apply still_guarded. destruct (max_address <? a); split; reflexivity.
    - eapply D; [|reflexivity|reflexivity]. apply still_write_memory.
    - eapply D; [|reflexivity|reflexivity]. apply still_guarded. change (has_bp a (lift g s)) with (has_bp a s). destruct (has_bp a s).
      + rewrite lift_original, lift_fetch. pose proof (fetch_insts a (write_original a s)) as F. rewrite original_insts in F. destruct (fetch evicted a (write_original a s)) as [w s1]. cbn [fst snd] in *.
        rewrite lift_breakpoint. split; [reflexivity|]. cbn [snd]. rewrite breakpoint_insts. exact F.
      + rewrite lift_fetch. pose proof (fetch_insts a s) as F. destruct (fetch evicted a s) as [w s1]. split; [reflexivity|exact F].
    - eapply D; [|reflexivity|reflexivity]. unfold load_image. destruct file; [apply still_chunks|split; reflexivity].
    - eapply D; [|reflexivity|reflexivity]. split; reflexivity.
    - eapply D; [|reflexivity|reflexivity]. split; reflexivity.
  Qed.

  (** ** Histories *)
  Notation q_history := (q_history exec evicted reg_id reg_size csr_id csr_get csr_set op).
  Notation history := (history exec evicted reg_id reg_size csr_id csr_get csr_set).
  Notation ghistory := (TopSpec.history gexec evicted reg_id reg_size csr_id gget gset).
  Notation ran := (ran exec reg_id reg_size csr_id csr_set).
  Notation follows := (follows exec reg_id reg_size csr_id csr_set).
  Notation gfollows := (TopSpec.follows gexec reg_id reg_size csr_id gset).
  Lemma lift_history (P : call -> top -> Prop) (P' : call -> TopModel.top (C := GC) -> Prop) : (forall c g s, P c s -> P' c (lift g s)) ->
    forall q s h q' s', q_history P q s h q' s' -> forall g, inv q g s -> exists g', ghistory P' (lift g s) h (lift g' s') /\ inv q' g' s'.
  Proof.
    intros HP q s h q' s' H. induction H as [q s|q s c r q1 s1 h q2 s2 Hc E H IH]; intros g I; [exists g; split; [constructor|exact I]|].
    pose proof (lift_call c q g s I) as L. rewrite E in L. destruct L as (g1 & E1 & I1). destruct (IH g1 I1) as (g2 & H2 & I2).
    exists g2. split; [|exact I2]. econstructor; [apply HP; exact Hc|exact E1|exact H2].
  Qed.
  Lemma inv_fresh r m pc : inv (fun _ => 0) [] (fresh r m pc).
  Proof. intros n. cbn [fresh t_insts length]. destruct (String.eqb n (op ebreak)); reflexivity. Qed.

  (** ** Sums *)
  Definition known (l : list Z) : list Z := filter (fun w => negb (w =? ebreak)) l.
  Lemma total_add q1 q2 names : total (fun n => q1 n + q2 n) names = total q1 names + total q2 names.
  Proof. induction names as [|n l IH]; cbn [total fold_right]; [reflexivity|]. unfold total in *. rewrite IH. lia. Qed.
  Lemma total_ext q1 q2 names : (forall n, q1 n = q2 n) -> total q1 names = total q2 names.
  Proof. intros E. induction names as [|n l IH]; cbn [total fold_right]; [reflexivity|]. unfold total in *. now rewrite IH, E. Qed.
  Lemma total_zero names : total (fun _ => 0) names = 0.
  Proof. induction names as [|n l IH]; cbn [total fold_right]; [reflexivity|]. unfold total in IH. now rewrite IH. Qed.
  Lemma total_single x v names : NoDup names -> In x names -> total (fun n => if String.eqb n x then v else 0) names = v.
  Proof.
    intros N. assert (O : forall l, ~ In x l -> total (fun n => if String.eqb n x then v else 0) l = 0).
    { induction l as [|y l IH]; cbn [total fold_right In]; intros F; [reflexivity|]. unfold total in IH. rewrite IH by tauto.
      replace (String.eqb y x) with false by (symmetry; apply String.eqb_neq; intros ->; tauto). reflexivity. }
    induction N as [|y l H N IH]; cbn [In]; [tauto|]. intros I. cbn [total fold_right]. fold (total (fun n => if String.eqb n x then v else 0) l).
    destruct (string_dec y x) as [->|D].
    - rewrite (O l H), String.eqb_refl. lia.
    - rewrite IH by (destruct I; [congruence|assumption]). replace (String.eqb y x) with false by (symmetry; now apply String.eqb_neq). lia.
  Qed.
  Lemma total_of names l : NoDup names -> (forall w, In (op w) names) -> total (fun n => of_opcode n l) names = Z.of_nat (length l).
  Proof.
    intros N A. induction l as [|w l IH].
    - rewrite (total_ext _ (fun _ => 0)); [apply total_zero|]. reflexivity.
    - rewrite (total_ext _ (fun n => (if String.eqb n (op w) then 1 else 0) + of_opcode n l)) by (intros n; apply of_cons).
      rewrite total_add, IH, total_single by auto. cbn [length]. lia.
  Qed.
  Theorem total_insts P m0 h q s names : q_history P (fun _ => 0) (fresh (m_arch m0) (m_mem m0) (m_pc m0)) h q s ->
    NoDup names -> (forall w, In (op w) names) -> total q names = t_insts s.
  Proof.
    intros H N A. destruct (lift_history P (fun _ _ => True) (fun _ _ _ _ => Logic.I) _ _ _ _ _ H [] (inv_fresh _ _ _)) as (g & _ & I).
    rewrite (total_ext _ _ names I), total_add, total_of, total_single by auto. lia.
  Qed.
  Theorem never_used P m0 h q s n : q_history P (fun _ => 0) (fresh (m_arch m0) (m_mem m0) (m_pc m0)) h q s ->
    (forall w, op w <> n) -> q n = 0.
  Proof.
    intros H A. destruct (lift_history P (fun _ _ => True) (fun _ _ _ _ => Logic.I) _ _ _ _ _ H [] (inv_fresh _ _ _)) as (g & _ & I).
    rewrite (I n). replace (String.eqb n (op ebreak)) with false by (symmetry; apply String.eqb_neq; intros E; exact (A ebreak (eq_sym E))).
    assert (Z0 : forall l, of_opcode n l = 0).
    { induction l as [|w l IH]; [reflexivity|]. rewrite of_cons, IH. replace (String.eqb n (op w)) with false by (symmetry; apply String.eqb_neq; intros E; exact (A w (eq_sym E))). reflexivity. }
    now rewrite Z0.
  Qed.

  (** ** The program alone *)
  Lemma lm_word g m : word_at (lm g m) = word_at m.
  Proof. reflexivity. Qed.
  Lemma known_app l l' : known (l ++ l') = known l ++ known l'.
  Proof. apply filter_app. Qed.
  Lemma lm_step g m : ref_step gexec (lm g m) = lm (g ++ known [word_at m]) (ref_step exec m).
  Proof.
    unfold ref_step. rewrite lm_word. unfold known. cbn [filter]. destruct (word_at m =? ebreak); cbn [negb].
    - rewrite app_nil_r. reflexivity.
    - unfold gexec. cbn [lm m_pc m_arch m_mem la a_regs a_csr fst snd f_arch f_mem f_pc]. rewrite la_eta. reflexivity.
  Qed.
  Lemma lm_ref g m k : TopSpec.ref gexec k (lm g m) = lm (g ++ known (words m k)) (ref k m).
  Proof.
    induction k as [|k IH]; [cbn [TopSpec.ref]; now rewrite app_nil_r|]. cbn [TopSpec.ref]. rewrite IH, lm_step, (words_S exec m k), known_app, app_assoc. reflexivity.
  Qed.
  Lemma lm_poke g c m : poke reg_id reg_size csr_id gset c (lm g m) = lm g (poke reg_id reg_size csr_id csr_set c m).
  Proof.
    destruct c; try reflexivity. cbn [poke]. destruct (reg_id name) as [i|].
    - destruct (size_ok (reg_size i)); [|reflexivity]. destruct (String.eqb name pc_name); reflexivity.
    - destruct (csr_id name); reflexivity.
  Qed.
  Lemma lm_follows x h k y : gfollows x h k y -> forall g m, x = lm g m -> exists l m', ran m h l m' /\ k = length l /\ y = lm (g ++ known l) m'.
  Proof.
    induction 1 as [x|x c r n h k y Hc H IH|x c r h k y Hc H IH]; intros g m ->.
    - exists [], m. split; [constructor|]. split; [reflexivity|]. cbn [known filter]. now rewrite app_nil_r.
    - rewrite lm_ref in IH. destruct (IH _ _ eq_refl) as (l & m' & R & -> & ->). exists (words m n ++ l), m'.
      split; [now constructor|]. split; [rewrite app_length; unfold TallySpec.words; now rewrite map_length, seq_length|]. now rewrite known_app, app_assoc.
    - rewrite lm_poke in IH. destruct (IH _ _ eq_refl) as (l & m' & R & -> & ->). exists l, m'. split; [now apply RPoke|]. auto.
  Qed.
  Lemma ran_follows m h l m' : ran m h l m' -> follows m h (length l) m'.
  Proof.
    induction 1 as [m|m c r n h l m' Hc H IH|m c r h l m' Hc H IH]; [constructor| |now apply FPoke].
    rewrite app_length. unfold TallySpec.words. rewrite map_length, seq_length. now apply FGo.
  Qed.
  Lemma lm_clean code g m : clean exec code m -> clean gexec code (lm g m).
  Proof.
    intros (H1 & H2 & H3 & H4 & H5 & H6). split; [exact H1|]. split; [exact H2|]. split; [exact H3|].
    unfold gexec. rewrite lm_word. cbn [lm m_pc m_arch m_mem la a_regs a_csr fst snd f_arch f_mem f_pc f_halt]. rewrite la_eta. cbv zeta.
    split; [|split; [exact H5|exact H6]]. intros mem Hm. destruct (H4 mem Hm) as (K1 & K2 & K3 & K4 & K5).
    split; [exact K1|]. split; [exact K2|]. split; [now rewrite K3|]. split; [exact K4|exact K5].
  Qed.
  Lemma lm_along code m0 h n : clean_along exec reg_id reg_size csr_id csr_set code m0 h n -> clean_along gexec reg_id reg_size csr_id gset code (lm [] m0) h n.
  Proof.
    intros H h1 h2 k x E F Hk. destruct (lm_follows _ _ _ _ F [] m0 eq_refl) as (l & m & R & -> & ->). apply lm_clean. eapply H; [exact E|apply ran_follows; exact R|exact Hk].
  Qed.
  Lemma of_known n l : of_opcode n l = of_opcode n (known l) + (if String.eqb n (op ebreak) then Z.of_nat (length l) - Z.of_nat (length (known l)) else 0).
  Proof.
    induction l as [|w l IH]; [cbn; destruct (String.eqb n (op ebreak)); reflexivity|]. rewrite of_cons, IH. unfold known. cbn [filter length]. fold (known l).
    destruct (Z.eqb_spec w ebreak) as [->|N]; cbn [negb].
    - destruct (String.eqb n (op ebreak)); lia.
    - rewrite of_cons. cbn [length]. destruct (String.eqb n (op w)), (String.eqb n (op ebreak)); lia.
  Qed.
  Theorem each code m0 h q s : bytes_ok (m_mem m0) -> 0 <= m_pc m0 < 2 ^ 32 ->
    q_history (allowed code m0) (fun _ => 0) (fresh (m_arch m0) (m_mem m0) (m_pc m0)) h q s ->
    clean_along exec reg_id reg_size csr_id csr_set code m0 h (t_insts s) ->
    exists l m, ran m0 h l m /\ shows s m /\ Z.of_nat (length l) <= t_insts s /\
      forall n, q n = of_opcode n l + (if String.eqb n (op ebreak) then t_insts s - Z.of_nat (length l) else 0).
  Proof.
    intros B Hp H K.
    destruct (lift_history (allowed code m0) (allowed code (lm [] m0)) ltac:(intros [] g x A; exact A) _ _ _ _ _ H [] (inv_fresh _ _ _)) as (g & G & I).
    pose proof (TopCor.transparent gexec evicted reg_id reg_size csr_id gget gset code (lm [] m0) B Hp h (lift g s) G (lm_along code m0 h (t_insts s) K)) as T.
    destruct T as (k & x & F & Hk & Sh & _). destruct (lm_follows _ _ _ _ F [] m0 eq_refl) as (l & m & R & -> & ->). cbn [app] in Sh.
    exists l, m. split; [exact R|]. destruct Sh as (S1 & S2 & S3 & S4). cbn [lift lm t_arch t_pc t_mem t_bps m_pc m_arch m_mem] in *.
    assert (Eg : g = known l /\ t_arch s = m_arch m).
    { unfold la in S2. injection S2 as E1 E2 E3. split; [exact E3|]. destruct (t_arch s) as [r1 c1], (m_arch m) as [r2 c2]. cbn [a_regs a_csr] in *. congruence. }
    destruct Eg as [-> Ea]. split; [split; [exact S1|split; [exact Ea|split; [exact S3|exact S4]]]|]. split; [exact Hk|].
    intros n. rewrite (I n), (of_known n l). destruct (String.eqb n (op ebreak)); lia.
  Qed.
End G.
