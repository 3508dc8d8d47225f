(** * Proofs about Run, Halt and Wait *)
From Coq Require Import Lia.
From Verif Require Import ConcModel ConcSpec.
Import ListNotations.

Lemma upd_length {A} (l : list A) i x : i < length l -> length (upd l i x) = length l.
Proof. intro H. unfold upd. rewrite app_length, firstn_length. cbn [length]. rewrite skipn_length. lia. Qed.
Lemma nth_upd {A} (l : list A) i x j : i < length l -> nth_error (upd l i x) j = if Nat.eqb j i then Some x else nth_error l j.
Proof.
  intro H. unfold upd. assert (L : length (firstn i l) = i) by (rewrite firstn_length; lia).
  destruct (Nat.eqb_spec j i) as [-> | N].
  - rewrite nth_error_app2 by lia. rewrite L, Nat.sub_diag. reflexivity.
  - destruct (Nat.lt_ge_cases j i) as [J|J].
    + rewrite nth_error_app1 by lia. rewrite <- (firstn_skipn i l) at 2. rewrite nth_error_app1 by lia. reflexivity.
    + rewrite nth_error_app2 by lia. rewrite L. replace (j - i) with (S (j - S i)) by lia. cbn [nth_error].
      rewrite <- (firstn_skipn (S i) l) at 2. rewrite nth_error_app2 by (rewrite firstn_length; lia).
      f_equal. rewrite firstn_length. lia.
Qed.
Lemma nth_snoc {A} (l : list A) x j : nth_error (l ++ [x]) j = if Nat.eqb j (length l) then Some x else nth_error l j.
Proof.
  destruct (Nat.eqb_spec j (length l)) as [-> | N].
  - rewrite nth_error_app2 by lia. rewrite Nat.sub_diag. reflexivity.
  - destruct (Nat.lt_ge_cases j (length l)) as [J|J]; [apply nth_error_app1; exact J|].
    rewrite (proj2 (nth_error_None l j)) by lia. apply nth_error_None. rewrite app_length. cbn. lia.
Qed.
Lemma nth_lt {A} (l : list A) i x : nth_error l i = Some x -> i < length l.
Proof. intro H. apply nth_error_Some. congruence. Qed.
Lemma Forall_nth_error {A} (P : A -> Prop) l : Forall P l <-> forall i x, nth_error l i = Some x -> P x.
Proof.
  rewrite Forall_forall. split.
  - intros H i x E. apply H. exact (nth_error_In _ _ E).
  - intros H x I. destruct (In_nth_error _ _ I) as [i E]. exact (H i x E).
Qed.

(** The new place of a thread, and what else changed, after its step. *)

Lemma not_running x : is_running x = false -> x = Halted.
Proof. destruct x; [reflexivity | discriminate]. Qed.

(** ** Any client: one run at a time *)
Definition running_pc (c : cpc) : Prop := match c with CRun2 | CRun3 | CRun4 => True | _ => False end.
Definition run_pc (c : cpc) : Prop := match c with CRun1 => True | _ => running_pc c end.
Record inv (s : state) : Prop := {
  i_one : forall i j ti tj, nth_error (g_threads s) i = Some ti -> nth_error (g_threads s) j = Some tj -> active ti -> active tj -> i = j;
  i_halted : g_status s = Halted -> no_active s;
  i_run : run_pc (g_cpc s) -> no_active s;
  i_running : running_pc (g_cpc s) -> g_status s = Running }.

Lemma inv_start : inv start.
Proof.
  constructor; cbn.
  - intros i j ti tj H. destruct i; discriminate.
  - intros _. constructor.
  - contradiction.
  - contradiction.
Qed.
(** Threads only become inactive. *)
Lemma thread_step i t req s s' : nth_error (g_threads s) i = Some t -> tstep i t req s = Next s' ->
  exists t', g_threads s' = upd (g_threads s) i t' /\ g_cpc s' = g_cpc s /\ g_ptr s' = g_ptr s /\ g_alive s' = g_alive s /\ g_events s' = g_events s /\
    (active t' -> active t) /\
    (g_status s' = g_status s \/ (t = TStatus /\ t' = TNotify /\ g_status s' = Halted)).
Proof.
  intros N E. unfold tstep in E.
  destruct t; try discriminate E;
    try (destruct (g_alive s) in E; [|discriminate E]; cbn [negb] in E);
    try (match type of E with context [match req with _ => _ end] => destruct req as [r|] end);
    try (unfold use in E; destruct p as [| |n]; try discriminate E; destruct (nth_error (g_notifs s) n) as [[[]|]|]; try discriminate E);
    injection E as <-;
    (eexists; split; [reflexivity|]; cbn; split; [reflexivity|]; split; [reflexivity|]; split; [reflexivity|]; split; [reflexivity|]);
    (split; [try destruct (g_halted s); try destruct (is_ap (g_reason s)); cbn; tauto|]);
    first [left; reflexivity | right; split; [reflexivity|]; split; reflexivity].
Qed.
Lemma no_active_upd s s' i t t' : nth_error (g_threads s) i = Some t -> g_threads s' = upd (g_threads s) i t' ->
  (active t' -> active t) -> no_active s -> no_active s'.
Proof.
  intros N E A H. unfold no_active in *. rewrite Forall_nth_error in *. intros j x X. rewrite E, nth_upd in X by exact (nth_lt _ _ _ N).
  destruct (Nat.eqb_spec j i) as [-> | _]; [|exact (H j x X)]. injection X as <-. intro Y. exact (H i t N (A Y)).
Qed.
Lemma inv_step mv s s' : inv s -> step mv s = Next s' -> inv s'.
Proof.
  intros [I1 I2 I3 I4] E. destruct mv as [o|i req]; cbn [step] in E.
  - unfold cstep in E. destruct (g_cpc s) eqn:C;
      try (match type of C with _ = CIdle => destruct o end; try (destruct (is_running (g_status s)) eqn:R));
      try (unfold use in E; destruct p as [| |n]; try discriminate E; destruct (nth_error (g_notifs s) n) as [[[]|]|]; try discriminate E);
      try (unfold use in E; destruct (g_ptr s) as [| |n]; try discriminate E; destruct (nth_error (g_notifs s) n) as [[b|]|]; try discriminate E);
      try discriminate E; injection E as <-; cbn in I3, I4;
      try (constructor; cbn; [exact I1 | exact I2 | try contradiction; try (intros _; apply I3; exact I); intros _; apply I2; exact (not_running _ R) | try contradiction; intros _; apply I4; exact I]).
    + constructor; cbn; [exact I1 | intros X; discriminate | intros _; apply I3; exact I | reflexivity].
    + (* spawn *)
      specialize (I3 I). specialize (I4 I). constructor; cbn; [| | contradiction | contradiction].
      * intros i j ti tj Hi Hj Ai Aj. rewrite nth_snoc in Hi, Hj. unfold no_active in I3. rewrite Forall_nth_error in I3.
        destruct (Nat.eqb_spec i (length (g_threads s))) as [-> | _]; [|exfalso; exact (I3 i ti Hi Ai)].
        destruct (Nat.eqb_spec j (length (g_threads s))) as [-> | _]; [reflexivity | exfalso; exact (I3 j tj Hj Aj)].
      * rewrite I4. discriminate.
  - destruct (nth_error (g_threads s) i) as [t|] eqn:N; [|discriminate].
    destruct (thread_step i t req s s' N E) as [t' [E1 [E2 [E3 [E4 [E5 [A St]]]]]]].
    assert (L : i < length (g_threads s)) by exact (nth_lt _ _ _ N).
    constructor.
    + intros a b ta tb Ha Hb Aa Ab. rewrite E1, nth_upd in Ha, Hb by exact L.
      assert (Xa : exists ua, nth_error (g_threads s) a = Some ua /\ active ua).
      { destruct (Nat.eqb_spec a i) as [-> | _]; [injection Ha as <-; exists t; auto | exists ta; auto]. }
      assert (Xb : exists ub, nth_error (g_threads s) b = Some ub /\ active ub).
      { destruct (Nat.eqb_spec b i) as [-> | _]; [injection Hb as <-; exists t; auto | exists tb; auto]. }
      destruct Xa as [ua [Ua Va]]. destruct Xb as [ub [Ub Vb]]. exact (I1 a b ua ub Ua Ub Va Vb).
    + intro H. destruct St as [St | [-> [-> _]]].
      * apply (no_active_upd s s' i t t' N E1 A). apply I2. congruence.
      * unfold no_active. apply Forall_nth_error. intros j x X. rewrite E1, nth_upd in X by exact L.
        destruct (Nat.eqb_spec j i) as [-> | Ne]; [injection X as <-; cbn; tauto|]. intro Ax. apply Ne. exact (I1 j i x TStatus X N Ax I).
    + rewrite E2. intro H. apply (no_active_upd s s' i t t' N E1 A). exact (I3 H).
    + rewrite E2. intro H. destruct St as [St | [-> [-> _]]]; [rewrite St; exact (I4 H)|]. exfalso.
      assert (NA : no_active s) by (apply I3; destruct (g_cpc s); cbn in *; tauto). unfold no_active in NA. rewrite Forall_nth_error in NA.
      exact (NA i TStatus N I).
Qed.
Lemma inv_exec ms : forall s s', inv s -> exec ms s = inl s' -> inv s'.
Proof.
  induction ms as [|mv ms IH]; intros s s' I E; cbn [exec] in E; [injection E as <-; exact I|].
  destruct (step mv s) as [s1| |f] eqn:S1; [apply (IH s1); [exact (inv_step mv s s1 I S1) | exact E] | exact (IH s s' I E) | discriminate].
Qed.

(** ** Without action points *)
Definition calm (s : state) : Prop := g_reason s <> ActionPoint /\
  Forall (fun t => t <> TClearHalted /\ t <> TClearReason) (g_threads s).
Lemma calm_step mv s s' : (forall i, mv <> T i (Some ActionPoint)) -> calm s -> step mv s = Next s' -> calm s'.
Proof.
  intros H [R F] E. destruct mv as [o|i req]; cbn [step] in E.
  - unfold cstep in E. destruct (g_cpc s) eqn:C;
      try (match type of C with _ = CIdle => destruct o end; try (destruct (is_running (g_status s))));
      try (unfold use in E; destruct p as [| |n]; try discriminate E; destruct (nth_error (g_notifs s) n) as [[[]|]|]; try discriminate E);
      try (unfold use in E; destruct (g_ptr s) as [| |n]; try discriminate E; destruct (nth_error (g_notifs s) n) as [[b|]|]; try discriminate E);
      try discriminate E; injection E as <-; (split; cbn; [first [exact R | discriminate]|]); try exact F.
    apply Forall_app. split; [exact F|]. constructor; [split; discriminate | constructor].
  - destruct (nth_error (g_threads s) i) as [t|] eqn:N; [|discriminate].
    assert (P : t <> TClearHalted /\ t <> TClearReason) by (rewrite Forall_nth_error in F; exact (F i t N)).
    assert (G : forall t', t' <> TClearHalted /\ t' <> TClearReason -> Forall (fun t => t <> TClearHalted /\ t <> TClearReason) (upd (g_threads s) i t')).
    { intros t' P'. apply Forall_nth_error. intros j x X. rewrite nth_upd in X by exact (nth_lt _ _ _ N).
      rewrite Forall_nth_error in F. destruct (Nat.eqb j i); [injection X as <-; exact P' | exact (F j x X)]. }
    unfold tstep in E. destruct t; try discriminate E;
      try (destruct (g_alive s) in E; [|discriminate E]; cbn [negb] in E); try (exfalso; tauto);
      try (match type of E with context [match req with _ => _ end] => destruct req as [r|] end);
      try (unfold use in E; destruct p as [| |n]; try discriminate E; destruct (nth_error (g_notifs s) n) as [[[]|]|]; try discriminate E);
      injection E as <-; (split; cbn; [try exact R | apply G]); try (split; discriminate).
    + destruct (g_halted s); split; discriminate.
    + intros ->. exact (H i eq_refl).
    + destruct (g_halted s); split; discriminate.
    + destruct (g_reason s); cbn; try (split; discriminate). exfalso. apply R. reflexivity.
Qed.
Definition rank (t : tpc) : nat :=
  match t with
  | TDone => 0 | TNotify2 _ => 1 | TNotify => 2 | TStatus => 3 | TReason => 4 | TLoop => 4 | TCheck => 5 | TReq => 6 | TExec => 7
  | TClearReason => 0 | TClearHalted => 0
  end.
Lemma rank_le t : rank t <= 7.
Proof. destruct t; cbn; lia. Qed.
(** A thread that has been asked to halt. *)
Definition asked (i : nat) (s : state) : Prop := forall t, nth_error (g_threads s) i = Some t -> active t -> g_halted s = true.

Lemma asked_step i mv s s' t : inv s -> calm s -> asked i s -> nth_error (g_threads s) i = Some t ->
  (forall i, mv <> T i (Some ActionPoint)) -> step mv s = Next s' ->
  asked i s' /\ exists t', nth_error (g_threads s') i = Some t' /\
    (match mv with T j _ => if Nat.eqb i j then rank t' < rank t else t' = t | C _ => t' = t end).
Proof.
  intros [I1 I2 I3 I4] [R F] A N H E. assert (L : i < length (g_threads s)) by exact (nth_lt _ _ _ N).
  destruct mv as [o|j req]; cbn [step] in E.
  - assert (G : (g_threads s' = g_threads s \/ g_threads s' = g_threads s ++ [TLoop]) /\ (g_halted s = true -> active t -> g_halted s' = true)).
    { unfold cstep in E. destruct (g_cpc s) eqn:C;
      try (match type of C with _ = CIdle => destruct o end; try (destruct (is_running (g_status s))));
      try (unfold use in E; destruct p as [| |n]; try discriminate E; destruct (nth_error (g_notifs s) n) as [[[]|]|]; try discriminate E);
      try (unfold use in E; destruct (g_ptr s) as [| |n]; try discriminate E; destruct (nth_error (g_notifs s) n) as [[b|]|]; try discriminate E);
      try discriminate E; injection E as <-; cbn; (split; [first [left; reflexivity | right; reflexivity] | intros X Y; try exact X; try reflexivity]).
      exfalso. pose proof (I3 I) as NA. unfold no_active in NA. rewrite Forall_nth_error in NA. exact (NA i t N Y). }
    destruct G as [G1 G2].
    assert (N' : nth_error (g_threads s') i = Some t).
    { destruct G1 as [-> | ->]; [exact N|]. rewrite nth_error_app1 by exact L. exact N. }
    split; [|exists t; split; [exact N' | reflexivity]].
    intros t1 H1 Act. assert (t1 = t) by congruence. subst t1. apply G2; [exact (A t N Act) | exact Act].
  - destruct (nth_error (g_threads s) j) as [u|] eqn:Nj; [|discriminate].
    assert (Lj : j < length (g_threads s)) by exact (nth_lt _ _ _ Nj).
    destruct (Nat.eqb_spec i j) as [<- | Ne].
    + assert (u = t) by congruence. subst u.
      assert (P : t <> TClearHalted /\ t <> TClearReason) by (rewrite Forall_nth_error in F; exact (F i t N)).
      assert (Hh : active t -> g_halted s = true) by exact (A t N).
      unfold tstep in E. destruct t; try discriminate E;
        try (destruct (g_alive s) in E; [|discriminate E]; cbn [negb] in E); try (exfalso; tauto);
        try (match type of E with context [match req with _ => _ end] => destruct req as [r|] end);
        try (unfold use in E; destruct p as [| |n]; try discriminate E; destruct (nth_error (g_notifs s) n) as [[[]|]|]; try discriminate E);
        try rewrite (Hh I) in E; injection E as <-;
        (split; [intros t1 H1 Act; cbn in H1; rewrite nth_upd, Nat.eqb_refl in H1 by exact L; injection H1 as <-; cbn in *; try contradiction; try reflexivity; exact (Hh I)
                | eexists; split; [cbn; rewrite nth_upd, Nat.eqb_refl by exact L; reflexivity | cbn; try lia]]).
      destruct (g_reason s); cbn; lia.
    + destruct (thread_step j u req s s' Nj E) as [t' [E1 [E2 [E3 [E4 [E5 [Au St]]]]]]].
      assert (N' : nth_error (g_threads s') i = Some t).
      { rewrite E1, nth_upd by exact Lj. destruct (Nat.eqb_spec i j); [contradiction | exact N]. }
      split; [|exists t; split; [exact N' | reflexivity]].
      intros t1 H1 Act. assert (t1 = t) by congruence. subst t1. pose proof (A t N Act) as Hh.
      assert (P : u <> TClearHalted) by (rewrite Forall_nth_error in F; exact (proj1 (F j u Nj))).
      clear - Hh E P. unfold tstep in E. destruct u; try discriminate E;
        try (destruct (g_alive s) in E; [|discriminate E]; cbn [negb] in E);
        try (match type of E with context [match req with _ => _ end] => destruct req as [r|] end);
        try (unfold use in E; destruct p as [| |n]; try discriminate E; destruct (nth_error (g_notifs s) n) as [[[]|]|]; try discriminate E);
        injection E as <-; cbn; try exact Hh; try reflexivity. exfalso. apply P. reflexivity.
Qed.
Lemma asked_stops i ms : forall s t, inv s -> calm s -> asked i s -> nth_error (g_threads s) i = Some t ->
  no_action_points ms -> rank t <= moves_of i ms ->
  match exec ms s with inl s' => nth_error (g_threads s') i = Some TDone | inr _ => True end.
Proof.
  induction ms as [|mv ms IH]; intros s t I K A N F L.
  - cbn [exec]. cbn in L. destruct t; cbn in L; try lia; try exact N;
      destruct K as [_ K]; rewrite Forall_nth_error in K; destruct (K i _ N); congruence.
  - inversion_clear F as [|? ? F1 F2]. cbn [exec]. destruct (step mv s) as [s1| |f] eqn:S1; [| |exact I0 || exact Logic.I].
    + destruct (asked_step i mv s s1 t I K A N F1 S1) as [A' [t' [N' Rk]]].
      apply (IH s1 t'); [exact (inv_step mv s s1 I S1) | exact (calm_step mv s s1 F1 K S1) | exact A' | exact N' | exact F2 |].
      unfold moves_of in *. cbn [filter] in L. destruct mv as [o|j req]; [subst t'; exact L|].
      destruct (Nat.eqb i j); [cbn [length] in L; lia | subst t'; exact L].
    + apply (IH s t); try assumption. unfold moves_of in *. cbn [filter] in L. destruct mv as [o|j req]; [exact L|].
      destruct (Nat.eqb_spec i j) as [<- | _]; [|exact L]. cbn [step] in S1. rewrite N in S1.
      (* a blocked thread is done *)
      assert (t = TDone).
      { unfold tstep in S1. destruct t; try reflexivity; exfalso;
          try (destruct (g_alive s) in S1; [|discriminate S1]; cbn [negb] in S1); try (destruct req; discriminate S1); try discriminate S1.
        unfold use in S1. destruct p as [| |n]; try discriminate S1. destruct (nth_error (g_notifs s) n) as [[[]|]|]; discriminate S1. }
      subst t. cbn. lia.
Qed.
Lemma calm_exec ms : forall s s', no_action_points ms -> calm s -> exec ms s = inl s' -> calm s'.
Proof.
  induction ms as [|mv ms IH]; intros s s' F K E; cbn [exec] in E; [injection E as <-; exact K|].
  inversion_clear F as [|? ? F1 F2].
  destruct (step mv s) as [s1| |f] eqn:S1; [exact (IH s1 s' F2 (calm_step mv s s1 F1 K S1) E) | exact (IH s s' F2 K E) | discriminate].
Qed.
Theorem halt_stops ms s mv s' ms' i : exec ms start = inl s -> no_action_points ms ->
  step mv s = Next s' -> g_events s' = RetHalt :: g_events s -> (forall j, mv <> T j (Some ActionPoint)) ->
  i < length (g_threads s') -> no_action_points ms' -> 7 <= moves_of i ms' ->
  match exec ms' s' with inl s'' => nth_error (g_threads s'') i = Some TDone | inr _ => True end.
Proof.
  intros E F S1 Ev F1 L F' M. pose proof (inv_exec ms _ _ inv_start E) as I.
  assert (K0 : calm start) by (split; [discriminate | constructor]).
  pose proof (calm_exec ms _ _ F K0 E) as K.
  destruct (nth_error (g_threads s') i) as [t|] eqn:N; [|apply nth_error_None in N; lia].
  apply (asked_stops i ms' s' t); [exact (inv_step mv s s' I S1) | exact (calm_step mv s s' F1 K S1) | | exact N | exact F' | pose proof (rank_le t); lia].
  intros t1 H1 Act. destruct mv as [o|j req]; cbn [step] in S1.
  - unfold cstep in S1. destruct (g_cpc s) eqn:C;
      try (match type of C with _ = CIdle => destruct o end; try (destruct (is_running (g_status s)) eqn:R));
      try (unfold use in S1; destruct p as [| |n]; try discriminate S1; destruct (nth_error (g_notifs s) n) as [[[]|]|]; try discriminate S1);
      try (unfold use in S1; destruct (g_ptr s) as [| |n]; try discriminate S1; destruct (nth_error (g_notifs s) n) as [[b|]|]; try discriminate S1);
      try discriminate S1; injection S1 as <-; cbn in Ev; try discriminate Ev;
      try (exfalso; apply (f_equal (@length event)) in Ev; cbn [length] in Ev; lia).
    + exfalso. destruct I as [_ I2 _ _]. pose proof (not_running _ R) as Hs.
      specialize (I2 Hs). unfold no_active in I2. rewrite Forall_nth_error in I2. exact (I2 i t1 H1 Act).
    + reflexivity.
  - destruct (nth_error (g_threads s) j) as [u|] eqn:Nj; [|discriminate].
    destruct (thread_step j u req s s' Nj S1) as [t' [_ [_ [_ [_ [E5 _]]]]]]. rewrite E5 in Ev.
    apply (f_equal (@length event)) in Ev. cbn [length] in Ev. lia.
Qed.

(** ** A patient client *)
Definition live (s : state) (b : bool) : Prop := exists n, g_ptr s = Ptr n /\ nth_error (g_notifs s) n = Some (Live b).
Definition undone (s : state) : Prop := exists i t, nth_error (g_threads s) i = Some t /\ t <> TDone.
(** Places of the controlling thread where no run thread may be left. *)
Definition closed_pc (c : cpc) : Prop :=
  match c with CRun1 | CRun2 | CRun3 | CRun4 | CWait3 | CWait4 | CDtor3 | CDtor4 | CGone => True | _ => False end.
Definition place_ok (s : state) : Prop :=
  match g_cpc s with
  | CRun4 => live s false
  | CWait1 | CDtor1 => live s true \/ undone s
  | CWait2 q | CDtor2 q => q = g_ptr s /\ (live s true \/ undone s)
  | CWait3 | CDtor3 => live s true
  | _ => True
  end.
Record kept (s : state) : Prop := {
  k_inv : inv s;
  k_one : forall i j ti tj, nth_error (g_threads s) i = Some ti -> nth_error (g_threads s) j = Some tj -> ti <> TDone -> tj <> TDone -> i = j;
  k_live : forall i t, nth_error (g_threads s) i = Some t -> t <> TDone ->
             live s false /\ ~ closed_pc (g_cpc s) /\ forall q, t = TNotify2 q -> q = g_ptr s;
  k_place : place_ok s;
  k_alive : g_alive s = true \/ g_cpc s = CGone;
  k_running : g_status s = Running -> running_pc (g_cpc s) \/ exists i t, nth_error (g_threads s) i = Some t /\ active t }.

Lemma kept_start : kept start.
Proof.
  constructor; cbn.
  - exact inv_start.
  - intros i j ti tj H. destruct i; discriminate.
  - intros i t H. destruct i; discriminate.
  - exact I.
  - left. reflexivity.
  - discriminate.
Qed.
Lemma all_done_not s i t : all_done s -> nth_error (g_threads s) i = Some t -> t <> TDone -> False.
Proof. intros A N H. unfold all_done in A. rewrite Forall_nth_error in A. exact (H (A i t N)). Qed.
Lemma active_undone t : active t -> t <> TDone.
Proof. intros A ->. exact A. Qed.
Lemma tpc_done t : t = TDone \/ t <> TDone.
Proof. destruct t; try (left; reflexivity); right; discriminate. Qed.
Lemma closed_done s : kept s -> closed_pc (g_cpc s) -> all_done s.
Proof.
  intros K C. apply Forall_nth_error. intros i t N. destruct (tpc_done t) as [D|D]; [exact D|].
  exfalso. destruct (k_live s K i t N D) as [_ [X _]]. exact (X C).
Qed.

(** A step of the controlling thread that leaves the threads. *)
Lemma kept_same s s' : kept s -> inv s' -> g_threads s' = g_threads s -> g_ptr s' = g_ptr s \/ all_done s ->
  (undone s -> (live s false -> live s' false) /\ ~ closed_pc (g_cpc s')) ->
  place_ok s' -> g_alive s' = true \/ g_cpc s' = CGone ->
  (g_status s' = Running -> running_pc (g_cpc s') \/ (g_status s = Running /\ ~ running_pc (g_cpc s))) -> kept s'.
Proof.
  intros K I' ET EP U P A R. constructor; [exact I' | | | exact P | exact A |].
  - rewrite ET. exact (k_one s K).
  - rewrite ET. intros i t N D. destruct (k_live s K i t N D) as [L [_ Q]].
    destruct (U (ex_intro _ i (ex_intro _ t (conj N D)))) as [U1 U2].
    split; [exact (U1 L)|]. split; [exact U2|]. destruct EP as [-> | AD]; [exact Q|]. exfalso. exact (all_done_not s i t AD N D).
  - intro H. destruct (R H) as [X | [X Y]]; [left; exact X | right]. rewrite ET. destruct (k_running s K X) as [Z | Z]; [contradiction | exact Z].
Qed.
Lemma running_undone s : kept s -> g_status s = Running -> ~ running_pc (g_cpc s) -> undone s.
Proof.
  intros K H N. destruct (k_running s K H) as [X | [i [t [Ni At]]]]; [contradiction|]. exists i, t. split; [exact Ni | exact (active_undone t At)].
Qed.
Lemma not_halted x : is_running x = true -> x = Running.
Proof. destruct x; [discriminate | reflexivity]. Qed.
Lemma done_undone s : all_done s -> ~ undone s.
Proof. intros A [i [t [N D]]]. exact (all_done_not s i t A N D). Qed.
Lemma live_of s : kept s -> undone s -> live s false.
Proof. intros K [i [t [N D]]]. exact (proj1 (k_live s K i t N D)). Qed.

Lemma kept_cstep o s : kept s -> (g_cpc s = CIdle -> o = Run -> g_status s = Halted -> all_done s) ->
  (g_cpc s = CIdle -> o = Destroy -> g_status s = Halted -> all_done s) ->
  match cstep o s with Next s' => kept s' | Blocked => True | Fault _ => False end.
Proof.
  intros K PR PD. pose proof (k_inv s K) as I0. pose proof (k_place s K) as P. pose proof (k_alive s K) as A. unfold place_ok in P.
  assert (G : forall s', cstep o s = Next s' -> inv s') by (intros s' E; exact (inv_step (C o) s s' I0 E)).
  pose proof (closed_done s K) as CD. pose proof (running_undone s K) as RU.
  unfold cstep in *. destruct (g_cpc s) eqn:C; cbn in CD, RU.
  - (* idle *)
    assert (A1 : g_alive s = true) by (destruct A as [A|A]; [exact A | discriminate]).
    destruct o; destruct (is_running (g_status s)) eqn:R;
      try (pose proof (not_halted _ R) as Rn; pose proof (RU Rn (fun x => x)) as U); try (pose proof (not_running _ R) as Hl);
      apply (kept_same s _ K (G _ eq_refl)); cbn; try reflexivity; try (left; reflexivity); try (left; exact A1);
      try (intros Hu; split; [exact (fun l => l) | exact (fun x => x)]);
      try (intro Hr; right; split; [exact Hr | rewrite C; exact (fun x => x)]);
      try (intro Hr; exfalso; congruence);
      try exact Logic.I; try (right; exact U);
      try (intros Hu; exfalso; exact (done_undone s (PR eq_refl eq_refl Hl) Hu));
      try (intros Hu; exfalso; exact (done_undone s (PD eq_refl eq_refl Hl) Hu)).
  - specialize (CD I). apply (kept_same s _ K (G _ eq_refl)); cbn; [reflexivity | | | | | ].
    + left. reflexivity.
    + intro U. exfalso. exact (done_undone s CD U).
    + exact I.
    + destruct A as [A|A]; [left; exact A | discriminate].
    + intros _. left. exact I.
  - specialize (CD I). apply (kept_same s _ K (G _ eq_refl)); cbn; [reflexivity | | | | | ].
    + left. reflexivity.
    + intro U. exfalso. exact (done_undone s CD U).
    + exact I.
    + destruct A as [A|A]; [left; exact A | discriminate].
    + intros _. left. exact I.
  - specialize (CD I). apply (kept_same s _ K (G _ eq_refl)); cbn; [reflexivity | | | | | ].
    + right. exact CD.
    + intro U. exfalso. exact (done_undone s CD U).
    + unfold place_ok. cbn. exists (length (g_notifs s)). split; [reflexivity|]. cbn. rewrite nth_snoc, Nat.eqb_refl. reflexivity.
    + destruct A as [A|A]; [left; exact A | discriminate].
    + intros _. left. exact I.
  - (* spawn *)
    specialize (CD I). pose proof (G _ eq_refl) as I'. constructor; [exact I' | | | exact I | |]; cbn.
    + intros i j ti tj Hi Hj Di Dj. rewrite nth_snoc in Hi, Hj.
      destruct (Nat.eqb_spec i (length (g_threads s))) as [-> | _]; [|exfalso; exact (all_done_not s i ti CD Hi Di)].
      destruct (Nat.eqb_spec j (length (g_threads s))) as [-> | _]; [reflexivity | exfalso; exact (all_done_not s j tj CD Hj Dj)].
    + intros i t Hi Di. rewrite nth_snoc in Hi.
      destruct (Nat.eqb_spec i (length (g_threads s))) as [-> | _]; [|exfalso; exact (all_done_not s i t CD Hi Di)].
      injection Hi as <-. split; [exact P|]. split; [exact (fun x => x) | discriminate].
    + destruct A as [A|A]; [left; exact A | discriminate].
    + intros _. right. exists (length (g_threads s)), TLoop. rewrite nth_snoc, Nat.eqb_refl. split; [reflexivity | exact I].
  - apply (kept_same s _ K (G _ eq_refl)); cbn; [reflexivity | | | | | ].
    + left. reflexivity.
    + intros _. split; [exact (fun l => l) | exact (fun x => x)].
    + exact I.
    + destruct A as [A|A]; [left; exact A | discriminate].
    + intro H. right. split; [exact H | rewrite C; exact (fun x => x)].
  - apply (kept_same s _ K (G _ eq_refl)); cbn; [reflexivity | | | | | ].
    + left. reflexivity.
    + intros _. split; [exact (fun l => l) | exact (fun x => x)].
    + exact I.
    + destruct A as [A|A]; [left; exact A | discriminate].
    + intro H. right. split; [exact H | rewrite C; exact (fun x => x)].
  - (* CWait1 *) apply (kept_same s _ K (G _ eq_refl)); cbn; [reflexivity | | | | | ].
    + left. reflexivity.
    + intros _. split; [exact (fun l => l) | exact (fun x => x)].
    + split; [reflexivity | exact P].
    + destruct A as [A|A]; [left; exact A | discriminate].
    + intro H. right. split; [exact H | rewrite C; exact (fun x => x)].
  - (* CWait2 *) destruct P as [-> P].
    assert (L : live s true \/ live s false) by (destruct P as [P|P]; [left; exact P | right; exact (live_of s K P)]).
    destruct L as [[n [E1 E2]] | [n [E1 E2]]]; unfold use in *; rewrite E1, E2 in *; [|exact I].
    assert (NU : ~ undone s).
    { intro U. destruct (live_of s K U) as [n' [E1' E2']]. congruence. }
    apply (kept_same s _ K (G _ eq_refl)); cbn; [reflexivity | | | | | ].
    + left. reflexivity.
    + intro U. contradiction.
    + exists n. split; assumption.
    + destruct A as [A|A]; [left; exact A | discriminate].
    + intro H. right. split; [exact H | rewrite C; exact (fun x => x)].
  - (* CWait3 *) specialize (CD I). destruct P as [n [E1 E2]]. unfold use in *. rewrite E1, E2 in *.
    apply (kept_same s _ K (G _ eq_refl)); cbn; [reflexivity | | | | | ].
    + left. reflexivity.
    + intro U. exfalso. exact (done_undone s CD U).
    + exact I.
    + destruct A as [A|A]; [left; exact A | discriminate].
    + intro H. right. split; [exact H | rewrite C; exact (fun x => x)].
  - (* CWait4 *) specialize (CD I). apply (kept_same s _ K (G _ eq_refl)); cbn; [reflexivity | | | | | ].
    + right. exact CD.
    + intro U. exfalso. exact (done_undone s CD U).
    + exact I.
    + destruct A as [A|A]; [left; exact A | discriminate].
    + intro H. right. split; [exact H | rewrite C; exact (fun x => x)].
  - (* CDtor1 *) apply (kept_same s _ K (G _ eq_refl)); cbn; [reflexivity | | | | | ].
    + left. reflexivity.
    + intros _. split; [exact (fun l => l) | exact (fun x => x)].
    + split; [reflexivity | exact P].
    + destruct A as [A|A]; [left; exact A | discriminate].
    + intro H. right. split; [exact H | rewrite C; exact (fun x => x)].
  - (* CDtor2 *) destruct P as [-> P].
    assert (L : live s true \/ live s false) by (destruct P as [P|P]; [left; exact P | right; exact (live_of s K P)]).
    destruct L as [[n [E1 E2]] | [n [E1 E2]]]; unfold use in *; rewrite E1, E2 in *; [|exact I].
    assert (NU : ~ undone s).
    { intro U. destruct (live_of s K U) as [n' [E1' E2']]. congruence. }
    apply (kept_same s _ K (G _ eq_refl)); cbn; [reflexivity | | | | | ].
    + left. reflexivity.
    + intro U. contradiction.
    + exists n. split; assumption.
    + destruct A as [A|A]; [left; exact A | discriminate].
    + intro H. right. split; [exact H | rewrite C; exact (fun x => x)].
  - (* CDtor3 *) specialize (CD I). destruct P as [n [E1 E2]]. unfold use in *. rewrite E1, E2 in *.
    apply (kept_same s _ K (G _ eq_refl)); cbn; [reflexivity | | | | | ].
    + left. reflexivity.
    + intro U. exfalso. exact (done_undone s CD U).
    + exact I.
    + destruct A as [A|A]; [left; exact A | discriminate].
    + intro H. right. split; [exact H | rewrite C; exact (fun x => x)].
  - (* CDtor4 *) specialize (CD I). apply (kept_same s _ K (G _ eq_refl)); cbn; [reflexivity | | | | | ].
    + left. reflexivity.
    + intro U. exfalso. exact (done_undone s CD U).
    + exact I.
    + right. reflexivity.
    + intro H. right. split; [exact H | rewrite C; exact (fun x => x)].
  - exact I.
Qed.

(** A run thread. *)
Lemma kept_tstep i t req s : kept s -> nth_error (g_threads s) i = Some t ->
  match tstep i t req s with Next s' => kept s' | Blocked => True | Fault _ => False end.
Proof.
  intros K N. destruct (tpc_done t) as [-> | D]; [exact I|].
  destruct (k_live s K i t N D) as [L [NC Q]]. assert (Li : i < length (g_threads s)) by exact (nth_lt _ _ _ N).
  assert (A : g_alive s = true) by (destruct (k_alive s K) as [A|A]; [exact A | exfalso; apply NC; rewrite A; exact I]).
  destruct (tstep i t req s) as [s'| |f] eqn:E; [| exact I |].
  - assert (I' : inv s') by (apply (inv_step (T i req) s s' (k_inv s K)); cbn [step]; rewrite N; exact E).
    destruct (thread_step i t req s s' N E) as [t' [E1 [E2 [E3 [E4 [E5 [Au St]]]]]]].
    assert (X : (t' <> TDone /\ g_notifs s' = g_notifs s /\ (forall q, t' = TNotify2 q -> q = g_ptr s)) \/ (t' = TDone /\ live s' true)).
    { destruct L as [n [L1 L2]].
      assert (Q2 : forall p, t = TNotify2 p -> p = Ptr n) by (intros p Hp; rewrite (Q p Hp); exact L1).
      clear - N E E1 E3 L1 L2 A Q2 Li.
      assert (Inj : forall a, g_threads s' = upd (g_threads s) i a -> a = t').
      { intros a Ha. assert (nth_error (g_threads s') i = Some a) by (rewrite Ha, nth_upd, Nat.eqb_refl by exact Li; reflexivity).
        assert (nth_error (g_threads s') i = Some t') by (rewrite E1, nth_upd, Nat.eqb_refl by exact Li; reflexivity). congruence. }
      unfold tstep in E. rewrite A in E. cbn [negb] in E. destruct t; try discriminate E;
        try (match type of E with context [match req with _ => _ end] => destruct req as [r|] end);
        try (rewrite (Q2 p eq_refl) in E; unfold use in E; rewrite L2 in E);
        injection E as E; subst s'; specialize (Inj _ eq_refl); subst t'.
      all: try (left; split; [try destruct (g_halted s); try destruct (is_ap (g_reason s)); discriminate|]; split; [reflexivity|];
                try destruct (g_halted s); try destruct (is_ap (g_reason s)); intros q Hq; try discriminate Hq; congruence).
      right. split; [reflexivity|]. exists n. split; [exact L1|]. cbn. rewrite nth_upd, Nat.eqb_refl by exact (nth_lt _ _ _ L2). reflexivity. }
    assert (Live' : t' <> TDone -> live s' false).
    { intro H. destruct X as [[_ [X _]] | [X _]]; [|contradiction]. destruct L as [n [L1 L2]]. exists n. rewrite E3, X. split; assumption. }
    assert (Old : forall j x, nth_error (g_threads s') j = Some x -> x <> TDone -> j = i /\ x = t').
    { intros j x Hj Dj. rewrite E1, nth_upd in Hj by exact Li. destruct (Nat.eqb_spec j i) as [-> | Ne]; [split; [reflexivity | congruence]|].
      exfalso. apply Ne. exact (k_one s K j i x t Hj N Dj D). }
    assert (Ni' : nth_error (g_threads s') i = Some t') by (rewrite E1, nth_upd, Nat.eqb_refl by exact Li; reflexivity).
    constructor; [exact I' | | | | |].
    + intros a b ta tb Ha Hb Da Db. destruct (Old a ta Ha Da) as [-> _]. destruct (Old b tb Hb Db) as [-> _]. reflexivity.
    + intros j x Hj Dj. destruct (Old j x Hj Dj) as [-> ->]. split; [exact (Live' Dj)|]. rewrite E2, E3. split; [exact NC|].
      destruct X as [[_ [_ X]] | [X _]]; [exact X | contradiction].
    + assert (LU : live s' true \/ undone s').
      { destruct X as [[X _] | [_ X]]; [right; exists i, t'; split; [exact Ni' | exact X] | left; exact X]. }
      pose proof (k_place s K) as P. unfold place_ok in *. rewrite E2, E3.
      destruct (g_cpc s); try exact I; try (exfalso; apply NC; exact I); try exact LU; destruct P as [P1 P2]; split; [exact P1 | exact LU | exact P1 | exact LU].
    + left. congruence.
    + intro H. rewrite E2. destruct St as [St | [_ [_ St]]]; [|congruence]. rewrite St in H.
      destruct (k_running s K H) as [Z | [j [x [Nj Ax]]]]; [left; exact Z|]. right.
      assert (j = i) by exact (k_one s K j i x t Nj N (active_undone x Ax) D). subst j. assert (x = t) by congruence. subst x.
      exists i, t'. split; [exact Ni'|].
      (* an active thread stays active unless it sets the status *)
      clear - E E1 Ax H St N Li A. unfold tstep in E. rewrite A in E. cbn [negb] in E.
      assert (Inj : forall a, g_threads s' = upd (g_threads s) i a -> a = t').
      { intros a Ha. assert (nth_error (g_threads s') i = Some a) by (rewrite Ha, nth_upd, Nat.eqb_refl by exact Li; reflexivity).
        assert (nth_error (g_threads s') i = Some t') by (rewrite E1, nth_upd, Nat.eqb_refl by exact Li; reflexivity). congruence. }
      destruct t; try discriminate E; try (destruct Ax);
        try (match type of E with context [match req with _ => _ end] => destruct req as [r|] end);
        injection E as E; subst s'; specialize (Inj _ eq_refl); subst t'; try exact I;
        try (destruct (g_halted s); exact I); try (destruct (is_ap (g_reason s)); exact I).
      cbn in St. congruence.
  - destruct L as [n [L1 L2]]. unfold tstep in E. rewrite A in E. cbn [negb] in E. destruct t; try discriminate E;
      try (match type of E with context [match req with _ => _ end] => destruct req as [r|] end); try discriminate E.
    rewrite (Q p eq_refl), L1 in E. unfold use in E. rewrite L2 in E. discriminate E.
Qed.
Lemma kept_step mv s : kept s -> (g_cpc s = CIdle -> mv = C Run -> g_status s = Halted -> all_done s) ->
  (g_cpc s = CIdle -> mv = C Destroy -> g_status s = Halted -> all_done s) ->
  match step mv s with Next s' => kept s' | Blocked => True | Fault _ => False end.
Proof.
  intros K P1 P2. destruct mv as [o|i req]; cbn [step].
  - apply kept_cstep; [exact K | intros H ->; exact (P1 H eq_refl) | intros H ->; exact (P2 H eq_refl)].
  - destruct (nth_error (g_threads s) i) as [t|] eqn:N; [exact (kept_tstep i t req s K N) | exact I].
Qed.
Lemma kept_exec ms : forall s, kept s -> patient ms s -> exists s', exec ms s = inl s' /\ kept s'.
Proof.
  induction ms as [|mv ms IH]; intros s K P; cbn [exec]; [exists s; split; [reflexivity | exact K]|].
  destruct P as [P1 [P2 P3]]. pose proof (kept_step mv s K P1 P2) as S. destruct (step mv s) as [s1| |f]; [exact (IH s1 S P3) | exact (IH s K P3) | destruct S].
Qed.
Lemma wait_ended mv s s' : kept s -> step mv s = Next s' -> g_events s' = RetWait :: g_events s -> no_active s'.
Proof.
  intros K S1 Ev. destruct mv as [o|j req]; cbn [step] in S1.
  - pose proof (closed_done s K) as CD.
    unfold cstep in S1. destruct (g_cpc s) eqn:C;
      try (match type of C with _ = CIdle => destruct o end; try (destruct (is_running (g_status s)) eqn:R));
      try (unfold use in S1; destruct p as [| |n]; try discriminate S1; destruct (nth_error (g_notifs s) n) as [[[]|]|]; try discriminate S1);
      try (unfold use in S1; destruct (g_ptr s) as [| |n]; try discriminate S1; destruct (nth_error (g_notifs s) n) as [[b|]|]; try discriminate S1);
      try discriminate S1; injection S1 as <-; cbn in Ev; try discriminate Ev;
      try (exfalso; apply (f_equal (@length event)) in Ev; cbn [length] in Ev; lia).
    + exact (i_halted s (k_inv s K) (not_running _ R)).
    + specialize (CD I). unfold no_active, all_done in *. cbn. rewrite Forall_nth_error in *. intros i t N. rewrite (CD i t N). exact (fun x => x).
  - destruct (nth_error (g_threads s) j) as [u|] eqn:Nj; [|discriminate].
    destruct (thread_step j u req s s' Nj S1) as [t' [_ [_ [_ [_ [E5 _]]]]]]. rewrite E5 in Ev.
    apply (f_equal (@length event)) in Ev. cbn [length] in Ev. lia.
Qed.
Lemma wait_enabled s o p : kept s -> g_cpc s = CWait2 p \/ g_cpc s = CDtor2 p -> all_done s -> exists s', step (C o) s = Next s'.
Proof.
  intros K C D. pose proof (k_place s K) as P. unfold place_ok in P. cbn [step]. unfold cstep.
  destruct C as [C|C]; rewrite C in *; destruct P as [-> [[n [E1 E2]] | U]];
    try (exfalso; exact (done_undone s D U)); unfold use; rewrite E1, E2; eexists; reflexivity.
Qed.

(** ** Run *)
Lemma step_started mv s s' : step mv s = Next s' ->
  length (g_threads s') + started s = length (g_threads s) + started s' /\
  (g_events s' = RetRun false :: g_events s -> g_status s = Running /\ s' = returns (RetRun false) s).
Proof.
  assert (X : forall (e : event) l, e :: l = l -> False) by (intros e l H; apply (f_equal (@length _)) in H; cbn in H; lia).
  destruct mv as [o | i req]; cbn [step].
  - unfold cstep, use. destruct (g_cpc s) eqn:P; [destruct o; destruct (g_status s) eqn:Q; cbn [is_running]|..];
      repeat match goal with |- context [match ?x with _ => _ end = _] => destruct x end; intro E; try discriminate E; injection E as <-;
      unfold started; cbn; rewrite ?app_length; cbn; (split; [lia|]); intro V; try (exfalso; exact (X _ _ (eq_sym V))); try (exfalso; discriminate V); auto.
  - destruct (nth_error (g_threads s) i) as [t|] eqn:N; [|discriminate]. intro E. apply nth_lt in N.
    assert (Y : g_events s' = g_events s /\ length (g_threads s') = length (g_threads s)).
    { unfold tstep, use in E. destruct t; try destruct (g_alive s); cbn [negb] in E;
        repeat match type of E with context [match ?x with _ => _ end] => destruct x end; try discriminate E; injection E as <-;
        cbn; rewrite ?upd_length by exact N; auto. }
    destruct Y as [Y1 Y2]. unfold started. rewrite Y1, Y2. split; [lia|]. intro V. exfalso. exact (X _ _ (eq_sym V)).
Qed.
Lemma exec_started ms : forall s s', exec ms s = inl s' -> length (g_threads s') + started s = length (g_threads s) + started s'.
Proof.
  induction ms as [|mv ms IH]; cbn [exec]; intros s s' E; [injection E as <-; lia|].
  destruct (step mv s) as [s1| |f] eqn:F; [|exact (IH _ _ E)|discriminate]. apply IH in E. apply step_started in F. lia.
Qed.
