(** * Proofs about the mailbox simulator *)
From Coq Require Import ZifyBool ZifyNat.
From Verif Require Import CInt HwSimModel HwSimSpec.
Import ListNotations.
Ltac Zify.zify_post_hook ::= Z.div_mod_to_equations.

Section P.
  Context {Core : Type} (asserts : bool) (busy : Core -> bool) (pc : Core -> Z)
    (step1 : Core -> (Z -> Z) -> bool * Core * (Z -> Z)).
  Context (free : forall c, busy c = false) (bytes : forall c m, is_bytes m -> is_bytes (snd (step1 c m))).
  Notation steps := (steps step1).
  Notation final := (final pc).
  Notation wait := (wait asserts busy pc step1).

  Lemma steps_front n : forall c m, steps (S n) c m =
    let '(ok, c', m') := step1 c m in if ok then steps n c' m' else None.
  Proof.
    induction n as [|n IH]; intros c m.
    - cbn [HwSimSpec.steps]. destruct (step1 c m) as [[ok c'] m']. destruct ok; reflexivity.
    - change (steps (S (S n)) c m) with
        (match steps (S n) c m with Some (c, m) => let '(ok, c, m) := step1 c m in if ok then Some (c, m) else None | None => None end).
      rewrite IH. destruct (step1 c m) as [[ok c'] m']. destruct ok; reflexivity.
  Qed.
  Lemma steps_more n k c m : (k <= n)%nat -> steps k c m = None -> steps n c m = None.
  Proof. induction 1 as [|n H IH]; intro E; [exact E|]. cbn [HwSimSpec.steps]. rewrite (IH E). reflexivity. Qed.

  Lemma stop_final c m b : is_bytes m -> exists r, stop_here asserts busy pc (Sim c m b) = Ok r /\ (r = true <-> final c m).
  Proof.
    intro B. unfold stop_here, read_tcm. cbn [s_core s_mem]. rewrite free. cbn [bind]. eexists. split; [reflexivity|].
    unfold HwSimSpec.final, word. set (p := pc c mod 2 ^ 32).
    pose proof (B p) as B0. pose proof (B (p + 1)) as B1. pose proof (B (p + 2)) as B2. pose proof (B (p + 3)) as B3.
    set (w := m p + 256 * m (p + 1) + 65536 * m (p + 2) + 16777216 * m (p + 3)).
    destruct (0x1FFF <? p) eqn:E1; [split; [left; lia | reflexivity]|].
    destruct (w =? 0x08000073) eqn:E2.
    - split; [intros _; right; left; unfold w in E2; lia | reflexivity].
    - destruct (w =? 0x10500073) eqn:E3.
      + split; [intros _; right; right; unfold w in E3; lia | reflexivity].
      + split; [discriminate|]. unfold w in E2, E3. lia.
  Qed.
  Lemma refresh_ok s : refresh asserts busy s = Ok (Sim (s_core s) (s_mem s) (message (s_mem s))).
  Proof. unfold refresh. rewrite free. reflexivity. Qed.

  Lemma first_final_front n c m ok c' m' : step1 c m = (ok, c', m') -> ok = true -> ~ final c' m' ->
    (first_final pc step1 (S n) c m <-> first_final pc step1 n c' m').
  Proof.
    intros E -> NF. assert (F : forall k, steps (S k) c m = steps k c' m') by (intro k; rewrite steps_front, E; reflexivity).
    unfold first_final. rewrite F. split; intros [H1 [H2 H3]].
    - assert (N : (1 <= n)%nat).
      { destruct n as [|n]; [|lia]. destruct H2 as [a [b [Q R]]]. cbn in Q. injection Q as <- <-. contradiction. }
      split; [exact N|]. split; [exact H2|]. intros k Hk. rewrite <- F. apply H3. lia.
    - split; [lia|]. split; [exact H2|]. intros k Hk. destruct k as [|k]; [lia|]. rewrite F.
      destruct k as [|k]; [exists c', m'; split; [reflexivity | exact NF] | apply H3; lia].
  Qed.

  Lemma wait_true n : forall fuel c m b, is_bytes m -> first_final pc step1 n c m -> (n <= fuel)%nat ->
    exists c' m', steps n c m = Some (c', m') /\ wait fuel (Sim c m b) = Some (Ok (Sim c' m' (message m'), true)).
  Proof.
    induction n as [|n IH]; intros fuel c m b B F L; [destruct F; lia|]. destruct fuel as [|fuel]; [lia|].
    rewrite steps_front. cbn [HwSimModel.wait s_core s_mem s_box]. destruct (step1 c m) as [[ok c'] m'] eqn:E.
    assert (B' : is_bytes m') by (pose proof (bytes c m B) as X; rewrite E in X; exact X).
    assert (ok = true).
    { destruct F as [_ [[a [d [Q _]]] _]]. rewrite steps_front, E in Q. destruct ok; [reflexivity | discriminate]. }
    subst ok. destruct (stop_final c' m' b B') as [r [-> R]]. destruct r.
    - assert (Fin : final c' m') by (apply R; reflexivity).
      assert (n = 0%nat).
      { destruct n as [|n]; [reflexivity|]. destruct F as [_ [_ H3]]. destruct (H3 1%nat ltac:(lia)) as [a [d [Q N]]].
        rewrite steps_front, E in Q. cbn in Q. injection Q as <- <-. contradiction. }
      subst n. exists c', m'. split; [reflexivity|]. rewrite refresh_ok. reflexivity.
    - assert (NF : ~ final c' m') by (intro X; apply R in X; discriminate).
      apply IH; [exact B' | | lia]. apply (first_final_front n c m true c' m' E eq_refl NF). exact F.
  Qed.
  (** What a returning call has done. *)
  Lemma wait_returns fuel : forall c m b s r, is_bytes m -> wait fuel (Sim c m b) = Some (Ok (s, r)) ->
    if r then exists n, (n <= fuel)%nat /\ first_final pc step1 n c m /\ steps n c m = Some (s_core s, s_mem s) /\ s_box s = message (s_mem s)
    else exists n c' m', steps n c m = Some (c', m') /\ step1 c' m' = (false, s_core s, s_mem s) /\ s_box s = b /\
           forall k, (1 <= k <= n)%nat -> exists c' m', steps k c m = Some (c', m') /\ ~ final c' m'.
  Proof.
    induction fuel as [|fuel IH]; intros c m b s r B W; [discriminate|].
    cbn [HwSimModel.wait s_core s_mem s_box] in W. destruct (step1 c m) as [[ok c'] m'] eqn:E.
    assert (B' : is_bytes m') by (pose proof (bytes c m B) as X; rewrite E in X; exact X).
    assert (F : ok = true -> forall k, steps (S k) c m = steps k c' m') by (intros -> k; rewrite steps_front, E; reflexivity).
    destruct ok.
    - specialize (F eq_refl). destruct (stop_final c' m' b B') as [q [Q R]]. rewrite Q in W. destruct q.
      + rewrite refresh_ok in W. cbn [bind s_core s_mem] in W. injection W as <- <-. exists 1%nat. cbn [s_core s_mem s_box].
        rewrite F. split; [lia|]. split; [|split; reflexivity]. split; [lia|]. split; [|lia].
        exists c', m'. split; [apply F|]. apply R. reflexivity.
      + assert (NF : ~ final c' m') by (intro X; apply R in X; discriminate).
        specialize (IH c' m' b s r B' W). destruct r.
        * destruct IH as [n [H1 [H2 [H3 H4]]]]. exists (S n). rewrite F.
          split; [lia|]. split; [apply (first_final_front n c m true c' m' E eq_refl NF); exact H2|]. split; assumption.
        * destruct IH as [n [c2 [m2 [H1 [H2 [H3 H4]]]]]]. exists (S n), c2, m2. rewrite F.
          split; [exact H1|]. split; [exact H2|]. split; [exact H3|]. intros k Hk. destruct k as [|k]; [lia|]. rewrite F.
          destruct k as [|k]; [exists c', m'; split; [reflexivity | exact NF] | apply H4; lia].
    - injection W as <- <-. exists 0%nat, c, m. split; [reflexivity|]. split; [exact E|]. split; [reflexivity|]. lia.
  Qed.
  (** It never crashes, and returns as soon as there is a reason. *)
  Lemma wait_never c m b : is_bytes m ->
    (forall k, (1 <= k)%nat -> exists c' m', steps k c m = Some (c', m') /\ ~ final c' m') ->
    forall fuel, wait fuel (Sim c m b) = None.
  Proof.
    intros B H fuel. revert c m b B H. induction fuel as [|fuel IH]; intros c m b B H; [reflexivity|].
    cbn [HwSimModel.wait s_core s_mem s_box]. destruct (step1 c m) as [[ok c'] m'] eqn:E.
    assert (B' : is_bytes m') by (pose proof (bytes c m B) as X; rewrite E in X; exact X).
    destruct (H 1%nat ltac:(lia)) as [c1 [m1 [Q NF]]]. rewrite steps_front, E in Q. destruct ok; [|discriminate]. cbn in Q. injection Q as <- <-.
    destruct (stop_final c' m' b B') as [q [-> R]]. destruct q; [exfalso; apply NF; apply R; reflexivity|].
    apply IH; [exact B'|]. intros k Hk. destruct (H (S k) ltac:(lia)) as [a [d [Q N]]]. rewrite steps_front, E in Q. exists a, d. split; assumption.
  Qed.
  Lemma wait_false n : forall fuel c m b c1 m1 c2 m2, is_bytes m -> steps n c m = Some (c1, m1) -> step1 c1 m1 = (false, c2, m2) ->
    (forall k, (1 <= k <= n)%nat -> exists c' m', steps k c m = Some (c', m') /\ ~ final c' m') -> (n < fuel)%nat ->
    wait fuel (Sim c m b) = Some (Ok (Sim c2 m2 b, false)).
  Proof.
    induction n as [|n IH]; intros fuel c m b c1 m1 c2 m2 B S1 S2 NF L; destruct fuel as [|fuel]; try lia.
    - cbn in S1. injection S1 as <- <-. cbn [HwSimModel.wait s_core s_mem s_box]. rewrite S2. reflexivity.
    - cbn [HwSimModel.wait s_core s_mem s_box]. rewrite steps_front in S1. destruct (step1 c m) as [[ok c'] m'] eqn:E.
      destruct ok; [|discriminate].
      assert (B' : is_bytes m') by (pose proof (bytes c m B) as X; rewrite E in X; exact X).
      destruct (NF 1%nat ltac:(lia)) as [a [d [Q N]]]. rewrite steps_front, E in Q. cbn in Q. injection Q as <- <-.
      destruct (stop_final c' m' b B') as [q [-> R]]. destruct q; [exfalso; apply N; apply R; reflexivity|].
      apply (IH fuel c' m' b c1 m1 c2 m2 B' S1 S2); [|lia]. intros k Hk. destruct (NF (S k) ltac:(lia)) as [a [d [Q N']]].
      rewrite steps_front, E in Q. exists a, d. split; assumption.
  Qed.
End P.

(** The mailbox. *)
Lemma message_bytes_word w : 0 <= w < 2 ^ 32 ->
  byte_of w 0 + 256 * byte_of w 1 + 65536 * byte_of w 2 + 16777216 * byte_of w 3 = w.
Proof.
  intro H. unfold byte_of. change (2 ^ (8 * 0)) with 1. change (2 ^ (8 * 1)) with 256. change (2 ^ (8 * 2)) with 65536.
  change (2 ^ (8 * 3)) with 16777216. lia.
Qed.
Lemma message_same m m' : same_box m m' -> message m' = message m.
Proof.
  intro E. unfold message, word. cbn [map].
  repeat match goal with |- context [m' ?x] => rewrite (E x) by (unfold addr_mailbox; lia) end. reflexivity.
Qed.
Lemma four (l : list Z) : length l = 4%nat -> exists a b c d, l = [a; b; c; d].
Proof.
  intro H. destruct l as [|a [|b [|c [|d [|e l]]]]]; try discriminate. exists a, b, c, d. reflexivity.
Qed.
Lemma put_message m msg : length msg = 4%nat -> Forall (fun w => 0 <= w < 2 ^ 32) msg ->
  message (put m addr_mailbox (message_bytes msg)) = msg.
Proof.
  intros L F. destruct (four msg L) as [a [b [c [d ->]]]].
  inversion_clear F as [|? ? Ha F']. inversion_clear F' as [|? ? Hb F'']. inversion_clear F'' as [|? ? Hc F3]. inversion_clear F3 as [|? ? Hd _].
  unfold message_bytes. cbn [flat_map map app]. unfold message. cbn [map].
  assert (P : forall i, 0 <= i < 16 -> forall l, length l = 16%nat -> put m addr_mailbox l (addr_mailbox + i) = nth (Z.to_nat i) l 0).
  { intros i Hi l Hl. unfold put. rewrite Hl. replace ((addr_mailbox <=? addr_mailbox + i) && (addr_mailbox + i <? addr_mailbox + Z.of_nat 16)) with true by lia.
    f_equal. lia. }
  assert (Wd : forall i, 0 <= i <= 12 -> forall l, length l = 16%nat -> word (put m addr_mailbox l) (addr_mailbox + i) =
    nth (Z.to_nat i) l 0 + 256 * nth (Z.to_nat (i + 1)) l 0 + 65536 * nth (Z.to_nat (i + 2)) l 0 + 16777216 * nth (Z.to_nat (i + 3)) l 0).
  { intros i Hi l Hl. unfold word. rewrite <- !Z.add_assoc. rewrite !P by (exact Hl || lia). reflexivity. }
  rewrite !Wd by (reflexivity || lia).
  f_equal; [exact (message_bytes_word a Ha)|]. f_equal; [exact (message_bytes_word b Hb)|].
  f_equal; [exact (message_bytes_word c Hc)|]. f_equal. exact (message_bytes_word d Hd).
Qed.

Section Calls.
  Context {Core : Type} (asserts : bool) (busy : Core -> bool) (pc : Core -> Z) (set_pc : Z -> Core -> Core)
    (step1 : Core -> (Z -> Z) -> bool * Core * (Z -> Z)).
  Context (free : forall c, busy c = false).

  Lemma wait_box fuel : forall s s' r, program_quiet step1 (s_core s) (s_mem s) ->
    wait asserts busy pc step1 fuel s = Some (Ok (s', r)) -> same_box (s_mem s) (s_mem s').
  Proof.
    induction fuel as [|fuel IH]; intros s s' r Q0 E; [discriminate|]. cbn [wait] in E.
    pose proof (Q0 0%nat _ _ eq_refl) as Q. destruct (step1 (s_core s) (s_mem s)) as [[ok c] m] eqn:S1. cbn [snd] in Q.
    destruct ok.
    - destruct (stop_here asserts busy pc (Sim c m (s_box s))) as [[] | |]; try discriminate.
      + unfold refresh in E. rewrite free in E. cbn [bind] in E. injection E as <- <-. exact Q.
      + apply IH in E.
        * cbn [s_mem] in E. intros a Ha. rewrite (E a Ha). apply Q. exact Ha.
        * cbn [s_core s_mem]. intros n c' m' Sn. apply (Q0 (S n)). rewrite steps_front, S1. exact Sn.
    - injection E as <- <-. exact Q.
  Qed.
  Lemma call_box fuel k s s' a : keeps_box k ->
    match k with WaitForTermination _ => program_quiet step1 (s_core s) (s_mem s) | _ => True end ->
    do_call asserts busy pc set_pc step1 fuel k s = Some (Ok (s', a)) ->
    same_box (s_mem s) (s_mem s').
  Proof.
    intros K PQ E. destruct k as [ad n|ad l| |msg|ad|t]; cbn [do_call] in E; unfold read_tcm, write_tcm, refresh in E; try rewrite free in E; cbn [bind] in E.
    - injection E as <- <-. intros x _. reflexivity.
    - injection E as <- <-. cbn [s_mem]. intros x Hx. cbn [keeps_box] in K. unfold put.
      replace ((ad <=? x) && (x <? ad + Z.of_nat (length l))) with false by lia. reflexivity.
    - injection E as <- <-. intros x _. reflexivity.
    - destruct K.
    - injection E as <- <-. intros x _. reflexivity.
    - destruct (wait asserts busy pc step1 fuel s) as [[[s1 r]| |]|] eqn:W; try discriminate. cbn [bind fst snd] in E. injection E as <- <-.
      exact (wait_box fuel s s1 r PQ W).
  Qed.
  (** Written, then left alone, then read. *)
  Lemma mailbox_kept fuel msg ks s s' l : length msg = 4%nat -> Forall (fun w => 0 <= w < 2 ^ 32) msg ->
    (forall s1 a, do_call asserts busy pc set_pc step1 fuel (WriteMailbox msg) s = Some (Ok (s1, a)) ->
       quiet_calls step1 (do_call asserts busy pc set_pc step1 fuel) ks s1) ->
    run asserts busy pc set_pc step1 fuel (WriteMailbox msg :: ks ++ [ReadMailbox]) s = Some (Ok (s', l)) ->
    exists l0, l = l0 ++ [Message msg].
  Proof.
    intros L F K E. cbn [run] in E.
    destruct (do_call asserts busy pc set_pc step1 fuel (WriteMailbox msg) s) as [[[s1 a1]| |]|] eqn:D1; try discriminate.
    specialize (K s1 a1 eq_refl).
    assert (M1 : message (s_mem s1) = msg).
    { cbn [do_call] in D1. unfold write_mailbox, write_tcm in D1. rewrite free in D1. cbn [bind s_core s_mem s_box] in D1.
      injection D1 as <- <-. cbn [s_mem]. apply put_message; assumption. }
    assert (G : forall ks s1 s' l, quiet_calls step1 (do_call asserts busy pc set_pc step1 fuel) ks s1 -> message (s_mem s1) = msg ->
      run asserts busy pc set_pc step1 fuel (ks ++ [ReadMailbox]) s1 = Some (Ok (s', l)) -> exists l0, l = l0 ++ [Message msg]).
    { clear - free. induction ks as [|k ks IH]; intros s1 s' l Fk M1 E; cbn [app run] in E.
      - cbn [do_call] in E. unfold refresh in E. rewrite free in E. cbn [bind run fst snd s_box] in E. injection E as <- <-.
        exists []. cbn [app]. rewrite M1. reflexivity.
      - destruct Fk as [Fk [Fq Fs]].
        destruct (do_call asserts busy pc set_pc step1 fuel k s1) as [[[s2 a]| |]|] eqn:D; try discriminate.
        destruct (run asserts busy pc set_pc step1 fuel (ks ++ [ReadMailbox]) s2) as [[[s3 l2]| |]|] eqn:R; try discriminate.
        cbn [bind fst snd] in E. injection E as <- <-.
        destruct (IH s2 s3 l2 (Fs _ _ eq_refl)) as [l0 ->]; [|exact R|exists (a :: l0); reflexivity].
        rewrite <- M1. apply message_same. exact (call_box fuel k s1 s2 a Fk Fq D). }
    destruct (run asserts busy pc set_pc step1 fuel (ks ++ [ReadMailbox]) s1) as [[[s2 l2]| |]|] eqn:R; try discriminate.
    cbn [bind fst snd] in E. injection E as <- <-. destruct (G ks s1 s2 l2 K M1 R) as [l0 ->]. exists (a1 :: l0). reflexivity.
  Qed.
End Calls.
