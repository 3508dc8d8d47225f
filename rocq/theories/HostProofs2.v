(** * Proofs about semihosting: a program just loaded *)
From Coq Require Import ZArith List Bool String Lia ZifyBool ZifyNat.
From Verif Require Import CInt TopModel TopSpec HostModel HostSpec.
From Verif Require CliProofs HostProofs.
Import ListNotations.
Open Scope Z_scope.
Open Scope list_scope.

Section P.
  Context {C H : Type}.
  Variable exec : Z -> Z -> arch (C := C) -> (Z -> Z) -> effect (C := C).
  Variable evicted : Z -> Z -> bool.
  Variable use : bool.
  Variable serve : H -> arch (C := C) -> (Z -> Z) -> served C H.
  Notation top := (top (C := C)).
  Notation mach := (mach (C := C)).
  Notation host := (host H).
  Notation h_execute := (h_execute exec use serve).
  Notation h_run_loop := (h_run_loop exec evicted use serve).
  Notation h_run := (h_run exec evicted use serve).
  Notation is_call := (is_call use).
  Notation one := (one exec use serve).
  Notation path := (path exec use serve).
  Notation plain := (plain exec use serve).

  Lemma call_dec (m : mach) : {is_call m} + {~ is_call m}.
  Proof.
    unfold HostSpec.is_call, marked. destruct use; [|right; intros (E & _); discriminate]. destruct (Z.eq_dec (word_at m) ebreak) as [E|E]; [|right; tauto].
    destruct (Z.eq_dec (load32 (m_mem m) ((m_pc m - 4) mod 2 ^ 64)) mark_before) as [E1|E1]; [|right; tauto].
    destruct (Z.eq_dec (load32 (m_mem m) ((m_pc m + 4) mod 2 ^ 64)) mark_behind) as [E2|E2]; [left; tauto|right; tauto].
  Qed.
  Lemma call_bool (m : mach) : (word_at m =? ebreak) && use && between (m_mem m) (m_pc m) = true <-> is_call m.
  Proof. unfold HostSpec.is_call. rewrite !andb_true_iff, HostProofs.between_ok, Z.eqb_eq. tauto. Qed.
  Lemma one_fun x r y r' y' : one x r y -> one x r' y' -> r = r' /\ y = y'.
  Proof. intros [(A & B & D)|(A & B & D)] [(A' & B' & D')|(A' & B' & D')]; try contradiction; split; congruence. Qed.
  Lemma one_total x : exists r y, one x r y.
  Proof. destruct (call_dec (fst x)) as [E|E]; eexists; eexists; [left|right]; split; [exact E|split; reflexivity|exact E|split; reflexivity]. Qed.
  Lemma path_fun x t r y : path x t r y -> forall t' r' y', path x t' r' y' -> length t = length t' -> t = t' /\ r = r' /\ y = y'.
  Proof.
    induction 1 as [|t y r z P IH O]; intros t' r' y' P' L; destruct P' as [|t' y' r' z' P' O']; try (rewrite ?app_length in L; cbn [length] in L; lia); [auto|].
    rewrite !app_length in L. cbn [length] in L. destruct (IH _ _ _ P' ltac:(lia)) as (-> & _ & ->). destruct (one_fun _ _ _ _ _ O O') as [-> ->]. auto.
  Qed.

  Definition sim (x : mach * host) (t : list (mach * host)) (y : mach * host) (h : host) (s : top) : Prop :=
    path x t None y /\ h = snd y /\ t_halted s = false /\ t_bps s = [] /\ t_pc s = m_pc (fst y) /\ t_arch s = m_arch (fst y) /\ t_mem s = m_mem (fst y) /\
    t_reason s = RNone /\ t_insts s = Z.of_nat (length t) /\
    (forall a w, t_cache s a = Some w -> exists z, In z t /\ m_pc (fst z) = a /\ w = word_at (fst z)).

  Lemma fetch_ok x t y h s : plain x -> sim x t y h s ->
    exists s', fetch evicted (m_pc (fst y)) s = (word_at (fst y), s') /\
      t_halted s' = false /\ t_bps s' = [] /\ t_arch s' = m_arch (fst y) /\ t_mem s' = m_mem (fst y) /\ t_reason s' = RNone /\ t_insts s' = Z.of_nat (length t) /\
      (forall a w, t_cache s' a = Some w -> exists z, In z (t ++ [y]) /\ m_pc (fst z) = a /\ w = word_at (fst z)).
  Proof.
    intros [U _] (P & _ & S1 & S2 & S3 & S4 & S5 & S6 & S7 & S9). unfold fetch.
    destruct (if evicted (t_tick s) (m_pc (fst y)) then None else t_cache s (m_pc (fst y))) as [w|] eqn:E.
    - assert (Ec : t_cache s (m_pc (fst y)) = Some w) by (destruct (evicted _ _); [discriminate|exact E]).
      destruct (S9 _ _ Ec) as (z & Hz & Hp & ->). eexists. split; [f_equal; exact (U _ _ P z Hz Hp)|].
      cbn. repeat (split; [assumption|]). intros a w Ha. destruct (S9 a w Ha) as (z' & Hz' & G). exists z'. split; [apply in_or_app; now left|exact G].
    - eexists. split; [unfold word_at; rewrite <- S5; reflexivity|].
      cbn. repeat (split; [assumption|]). intros a w. unfold upd1. destruct (a =? m_pc (fst y)) eqn:Ea.
      + apply Z.eqb_eq in Ea. intros G. injection G as <-. exists y. split; [apply in_or_app; right; now left|]. split; [now rewrite Ea|]. unfold word_at. now rewrite S5.
      + intros Ha. destruct (S9 a w Ha) as (z' & Hz' & G). exists z'. split; [apply in_or_app; now left|exact G].
  Qed.
  Lemma execute_ok x t y r z s : plain x -> path x t None y -> one y r z ->
    t_halted s = false -> t_bps s = [] -> t_arch s = m_arch (fst y) -> t_mem s = m_mem (fst y) -> t_reason s = RNone ->
    exists s', h_execute (word_at (fst y)) (m_pc (fst y)) (snd y) s = (snd z, s') /\
    t_pc s' = m_pc (fst z) /\ t_arch s' = m_arch (fst z) /\ t_mem s' = m_mem (fst z) /\
    t_bps s' = [] /\ t_insts s' = t_insts s + 1 /\ t_cache s' = t_cache s /\
    match r with Some r => t_halted s' = true /\ t_reason s' = r | None => t_halted s' = false /\ t_reason s' = RNone end.
  Proof.
    intros [_ G] P O H1 H2 H3 H4 H5. assert (B : 0 <= m_pc (fst z) < 2 ^ 32) by (apply (G _ _ _ (PNext _ _ _ _ _ _ _ _ P O)); intros E; symmetry in E; now apply app_cons_not_nil in E).
    unfold HostModel.h_execute. rewrite H4. destruct ((word_at (fst y) =? ebreak) && use && between (m_mem (fst y)) (m_pc (fst y))) eqn:E.
    - apply call_bool in E. destruct O as [(_ & Ez & Er)|(N & _)]; [|contradiction]. cbv zeta in Ez, Er. cbn [set_pc set_pcv t_arch t_mem]. rewrite H3, H4, Ez, Er.
      destruct (v_exit _); eexists; (split; [reflexivity|]); unfold set_pc; cbn; rewrite ?H1, ?H2, ?H5; repeat (split; [reflexivity|]); auto.
    - destruct O as [(A & _)|(N & Ez & Er)]; [apply call_bool in A; congruence|]. rewrite Ez, Er in *. cbn [fst snd] in *.
      eexists. split; [reflexivity|]. pose proof (CliProofs.execute_ok exec (fst y) 0 s (word_at (fst y)) B eq_refl H1 H2 H3 H4 H5) as X. cbv zeta in X. cbn [ref] in X.
      destruct X as (X1 & X2 & X3 & X4 & X5 & X6 & X7 & X8). auto 10.
  Qed.
  Lemma loop_ok x : plain x -> forall fuel t y h s pc, sim x t y h s ->
    match h_run_loop fuel pc (m_pc (fst y)) h s with
    | (h', None) => exists t' y', length t' = (length t + fuel)%nat /\ path x t' None y' /\ h' = snd y'
    | (h', Some (_, np, s')) => exists t' r y', (length t < length t' <= length t + fuel)%nat /\ path x t' (Some r) y' /\ h' = snd y' /\ np = m_pc (fst y') /\
        t_arch s' = m_arch (fst y') /\ t_mem s' = m_mem (fst y') /\ t_reason s' = r /\ t_insts s' = Z.of_nat (length t')
    end.
  Proof.
    intros PL. induction fuel as [|f IH]; intros t y h s pc S; cbn [HostModel.h_run_loop].
    - destruct S as (P & -> & -> & _). cbn [negb]. exists t, y. split; [lia|auto].
    - assert (Hh : t_halted s = false) by apply S. rewrite Hh. cbn [negb]. unfold HostModel.h_iteration.
      destruct (fetch_ok x t y h s PL S) as (s1 & E & F1 & F2 & F4 & F5 & F6 & F7 & F9). rewrite E.
      destruct S as (P & -> & _). destruct (one_total y) as (r & z & O).
      destruct (execute_ok x t y r z s1 PL P O F1 F2 F4 F5 F6) as (s2 & E2 & X1 & X2 & X3 & X4 & X5 & X7 & X8). rewrite E2. cbv zeta.
      pose proof (PNext _ _ _ _ _ _ _ _ P O) as P'. assert (L : length (t ++ [y]) = Datatypes.S (length t)) by (rewrite app_length; cbn [length]; lia).
      destruct r as [r|]; destruct X8 as [Y1 Y2]; rewrite Y1; cbn [negb].
      + destruct (reason_eqb (t_reason s2) RActionPoint) eqn:Ea.
        * apply CliProofs.reason_eqb_ok in Ea. destruct (proj2 PL _ _ _ P') as (_ & N & _); [intros E3; symmetry in E3; now apply app_cons_not_nil in E3|]. congruence.
        * exists (t ++ [y]), r, z. rewrite L. split; [lia|]. split; [exact P'|]. split; [reflexivity|]. split; [exact X1|]. split; [exact X2|]. split; [exact X3|]. split; [exact Y2|]. lia.
      + rewrite X1. assert (S' : sim x (t ++ [y]) z (snd z) s2).
        { unfold sim. rewrite L, X5, F7, X7. split; [exact P'|]. split; [reflexivity|]. split; [exact Y1|]. split; [exact X4|]. split; [exact X1|]. split; [exact X2|]. split; [exact X3|].
          split; [exact Y2|]. split; [lia|exact F9]. }
        pose proof (IH _ _ _ _ (Some (m_pc (fst y))) S') as I. rewrite L in I.
        destruct (h_run_loop f (Some (m_pc (fst y))) (m_pc (fst z)) (snd z) s2) as [h' [[[p np] s']|]].
        * destruct I as (t' & r & y' & I1 & I2). exists t', r, y'. split; [lia|exact I2].
        * destruct I as (t' & y' & I1 & I2). exists t', y'. split; [lia|exact I2].
  Qed.
  Theorem run_ok fuel h (s : top) : t_status s = Halted -> t_reason s = RNone -> t_halted s = false -> t_need s = false -> t_bps s = [] -> (forall a, t_cache s a = None) -> t_insts s = 0 ->
    let x := (Mach (t_pc s) (t_arch s) (t_mem s), h) in plain x ->
    match h_run fuel h s with
    | (h', None) => exists t y, length t = fuel /\ path x t None y /\ h' = snd y
    | (h', Some o) => exists t r y s', (length t <= fuel)%nat /\ path x t (Some r) y /\ h' = snd y /\ o = Ok (ROk, s') /\
        t_pc s' = m_pc (fst y) /\ t_arch s' = m_arch (fst y) /\ t_mem s' = m_mem (fst y) /\ t_reason s' = r /\ t_status s' = Halted /\ t_insts s' = Z.of_nat (length t)
    end.
  Proof.
    intros H1 H2 H3 H4 H5 H6 H7 x PL. unfold HostModel.h_run. rewrite H1, H4. cbn [is_running]. cbv zeta.
    set (s0 := set_halted false (set_status Running s)).
    assert (S : sim x [] x h s0).
    { unfold sim, s0, x. cbn. split; [constructor|]. repeat (split; [first [reflexivity|assumption]|]). intros a w E. rewrite H6 in E. discriminate. }
    pose proof (loop_ok x PL fuel [] x h s0 None S) as L. change (m_pc (fst x)) with (t_pc s0) in L.
    destruct (h_run_loop fuel None (t_pc s0) h s0) as [h' [[[p np] s']|]].
    - destruct L as (t & r & y & L1 & L2 & L3 & L4 & L5 & L6 & L7 & L8). cbn [length] in L1.
      destruct (proj2 PL _ _ _ L2) as (B & _ & N); [intros ->; cbn in L1; lia|].
      destruct (reason_eqb (t_reason s') RSwBreakpoint) eqn:Ea; [apply CliProofs.reason_eqb_ok in Ea; congruence|].
      exists t, r, y. eexists. split; [lia|]. split; [exact L2|]. split; [exact L3|]. split; [reflexivity|]. cbn. split; [rewrite L4; now apply Z.mod_small|]. auto 10.
    - destruct L as (t & y & L1 & L2). cbn [length] in L1. exists t, y. auto.
  Qed.

  (** ** Computed paths, for straight programs *)
  Definition next (x : mach * host) : option reason * (mach * host) :=
    if (word_at (fst x) =? ebreak) && use && between (m_mem (fst x)) (m_pc (fst x)) then
      let v := serve (h_state (snd x)) (m_arch (fst x)) (m_mem (fst x)) in
      (if v_exit v then Some RSemihost else None, (Mach ((m_pc (fst x) + 4) mod 2 ^ 32) (v_arch v) (v_mem v), Host _ (h_calls (snd x) + 1) (v_state v)))
    else (ref_halt exec (fst x), (ref_step exec (fst x), snd x)).
  Lemma next_one x : one x (fst (next x)) (snd (next x)).
  Proof.
    unfold next. destruct ((word_at (fst x) =? ebreak) && use && between (m_mem (fst x)) (m_pc (fst x))) eqn:E; cbn [fst snd].
    - left. split; [now apply call_bool|]. split; reflexivity.
    - right. split; [intros A; apply call_bool in A; congruence|]. split; reflexivity.
  Qed.
  Fixpoint walk (n : nat) (x : mach * host) : list (mach * host) * (option reason * (mach * host)) :=
    match n with
    | O => ([], (None, x))
    | S n => let '(t, (r, y)) := walk n x in match r with None => (t ++ [y], next y) | Some _ => (t, (r, y)) end
    end.
  Lemma walk_path n x : path x (fst (walk n x)) (fst (snd (walk n x))) (snd (snd (walk n x))).
  Proof.
    induction n as [|n IH]; [constructor|]. cbn [walk]. destruct (walk n x) as [t [r y]]. cbn [fst snd] in IH. destruct r as [r|]; cbn [fst snd]; [exact IH|].
    apply (PNext _ _ _ _ _ _ _ _ IH). apply next_one.
  Qed.
  Lemma path_prefix x t r y : path x t r y -> forall t' r' y', path x t' (Some r') y' -> exists u, t' ++ [y'] = t ++ y :: u /\ (r <> None -> t = t' /\ r = Some r' /\ y = y').
  Proof.
    assert (K : forall t' r' y', path x t' r' y' -> forall t r y, path x t r y -> (length t <= length t')%nat -> exists u, t' ++ [y'] = t ++ y :: u /\ (length t < length t' -> r = None)%nat).
    { induction 1 as [|t' y' r' z' P' IH O']; intros t0 r0 y0 P L.
      - destruct P as [|t0 z0 r0 y0 P O]; [exists []; split; [reflexivity|cbn; lia]|]. rewrite app_length in L. cbn in L. lia.
      - rewrite app_length in L. cbn [length] in L. destruct (Nat.eq_dec (length t0) (Datatypes.S (length t'))) as [E|E].
        + destruct (path_fun _ _ _ _ (PNext _ _ _ _ _ _ _ _ P' O') _ _ _ P ltac:(rewrite app_length; cbn [length]; lia)) as (-> & _ & ->). exists []. split; [reflexivity|lia].
        + destruct (IH _ _ _ P ltac:(lia)) as (u & U1 & U2). exists (u ++ [z'])%list. split; [rewrite U1, <- app_assoc; reflexivity|]. intros _.
          destruct (Nat.eq_dec (length t0) (length t')) as [E'|E']; [|apply U2; lia]. destruct (path_fun _ _ _ _ P _ _ _ P' E') as (_ & -> & _). reflexivity. }
    intros P t' r' y' P'. destruct (Nat.le_gt_cases (length t) (length t')) as [L|L].
    - destruct (K _ _ _ P' _ _ _ P L) as (u & U1 & U2). exists u. split; [exact U1|]. intros N. destruct (Nat.eq_dec (length t) (length t')) as [E|E]; [|destruct N; apply U2; lia].
      destruct (path_fun _ _ _ _ P _ _ _ P' E) as (-> & -> & ->). auto.
    - destruct (K _ _ _ P _ _ _ P' ltac:(lia)) as (u & _ & U2). specialize (U2 L). discriminate.
  Qed.
  Lemma straight x t r y : path x t (Some r) y -> NoDup (map (fun z => m_pc (fst z)) (t ++ [y])) -> (forall z, In z (t ++ [y]) -> 0 <= m_pc (fst z) < 2 ^ 32) ->
    r <> RActionPoint -> r <> RSwBreakpoint -> plain x.
  Proof.
    intros P N B R1 R2. split.
    - intros t0 y0 P0 z Hz E. exfalso. destruct (path_prefix _ _ _ _ P0 _ _ _ P) as (u & U & _). rewrite U, map_app in N. cbn [map] in N. apply NoDup_remove_2 in N.
      apply N, in_or_app. left. rewrite <- E. exact (in_map (fun z => m_pc (fst z)) _ _ Hz).
    - intros t0 r0 y0 P0 _. destruct (path_prefix _ _ _ _ P0 _ _ _ P) as (u & U & V). split; [apply B; rewrite U; apply in_or_app; right; now left|].
      destruct r0 as [r0|]; [|split; discriminate]. destruct V as (_ & E & _); [discriminate|]. split; congruence.
  Qed.
End P.
