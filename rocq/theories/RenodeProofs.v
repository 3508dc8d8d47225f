(** * Proofs about the Renode interface *)
From Coq Require Import ZArith List Bool Lia ZifyBool ZifyNat.
From Verif Require Import CInt RenodeModel RenodeSpec.
Import ListNotations.
Open Scope Z_scope.
Ltac Zify.zify_post_hook ::= Z.div_mod_to_equations.

Lemma s32_inj x y : 0 <= x < 2 ^ 32 -> 0 <= y < 2 ^ 32 -> s32 x = s32 y -> x = y.
Proof. unfold s32, wrap, half, modulus. cbn [is_signed bits]. lia. Qed.
Lemma s32_u32 x : s32 (u32 x) = s32 x.
Proof. unfold s32, u32, wrap, half, modulus. cbn [is_signed bits]. lia. Qed.
Lemma u32_s32 x : u32 (s32 x) = u32 x.
Proof.
  unfold s32, u32, wrap, half, modulus. cbn [is_signed bits]. change 4294967296 with (2 ^ 32).
  rewrite Zminus_mod_idemp_l. f_equal. ring.
Qed.
Lemma asked_app a b : asked (a ++ b) = asked a + asked b.
Proof. unfold asked in *. induction a as [|x a IH]; cbn [app fold_right] in *; lia. Qed.
Lemma executed_app a b : executed (a ++ b) = executed a + executed b.
Proof. unfold executed in *. induction a as [|x a IH]; cbn [app fold_right] in *; lia. Qed.

Section Ag.
  Context {Dbg File Blocks : Type} (o : ops Dbg File Blocks).
  Notation agent := (@agent Dbg).
  Notation call := (call File Blocks).

  Lemma find_obj id (a : agent) : find id a = object a id.
  Proof. reflexivity. Qed.

  (** What a call does to the agent, in one lemma. *)
  Lemma call_cases fuel k (a a' : agent) r : do_call o fuel k a = Some (Ok (a', r)) ->
    match target k with
    | None => exists max mem d, k = Construct max mem /\ create o (a_count a) mem = Ok d /\
                a' = A (u32 (a_count a + 1)) (emplace (a_count a) d (a_inst a)) (emplace (a_count a) max (a_len a)) /\
                r = ret (s32 (a_count a))
    | Some i => a_count a' = a_count a /\ a_len a' = a_len a /\
                (forall x, x <> u32 i -> a_inst a' x = a_inst a x) /\
                (a_inst a (u32 i) = None -> a' = a /\ rejected k r)
    end.
  Proof.
    intro E. destruct k; cbn [target do_call] in *; unfold find in *.
    - unfold construct, bind in E. destruct (create o (a_count a) mem) as [d| |] eqn:C; try discriminate.
      injection E as <- <-. exists max, mem, d. repeat split; assumption.
    - destruct (a_inst a (u32 id)) eqn:F; injection E as <- <-; cbn [a_count a_len a_inst].
      + repeat split; try discriminate. intros x Hx. unfold put. replace (x =? u32 id) with false by lia. reflexivity.
      + repeat split.
    - destruct (a_inst a (u32 id)) eqn:F; injection E as <- <-; repeat split; discriminate.
    - destruct (a_inst a (u32 id)) eqn:F; injection E as <- <-; repeat split; discriminate.
    - destruct info; cbn [negb] in E; [|injection E as <- <-; repeat split].
      destruct (a_inst a (u32 id)) eqn:F; [|injection E as <- <-; repeat split].
      destruct (a_len a (u32 id)); [|discriminate]. unfold bind in E.
      destruct register_info as [x| |]; try discriminate. injection E as <- <-. repeat split; discriminate.
    - destruct (a_inst a (u32 id)) eqn:F.
      + destruct (load_obj o f d) as [[e s] d']. destruct st; [|discriminate]. injection E as <- <-.
        cbn [upd a_count a_len a_inst]. repeat split; try discriminate.
        intros x Hx. unfold put. replace (x =? u32 id) with false by lia. reflexivity.
      + destruct st; [|discriminate]. injection E as <- <-. repeat split.
    - destruct (a_inst a (u32 id)) eqn:F.
      + destruct (d_image o f a0 d) as [ok d']. injection E as <- <-.
        cbn [upd a_count a_len a_inst]. repeat split; try discriminate.
        intros x Hx. unfold put. replace (x =? u32 id) with false by lia. reflexivity.
      + injection E as <- <-. repeat split.
    - destruct val; cbn [negb] in E; [|injection E as <- <-; repeat split].
      destruct (a_inst a (u32 id)) eqn:F; [|injection E as <- <-; repeat split].
      destruct (reg_name o (u32 r0)); [|injection E as <- <-; repeat split; discriminate].
      destruct (d_read o l d) as [v d']. injection E as <- <-.
      cbn [upd a_count a_len a_inst]. repeat split; try discriminate.
      intros x Hx. unfold put. replace (x =? u32 id) with false by lia. reflexivity.
    - destruct (a_inst a (u32 id)) eqn:F; [|injection E as <- <-; repeat split].
      destruct (reg_name o (u32 r0)); [|injection E as <- <-; repeat split; discriminate].
      destruct (d_write o l v d) as [ok d']. injection E as <- <-.
      cbn [upd a_count a_len a_inst]. repeat split; try discriminate.
      intros x Hx. unfold put. replace (x =? u32 id) with false by lia. reflexivity.
    - destruct (a_inst a (u32 id)) eqn:F; [|injection E as <- <-; repeat split].
      destruct (d_rmem o a0 n d) as [v d']. injection E as <- <-.
      cbn [upd a_count a_len a_inst]. repeat split; try discriminate.
      intros x Hx. unfold put. replace (x =? u32 id) with false by lia. reflexivity.
    - destruct (a_inst a (u32 id)) eqn:F; [|injection E as <- <-; repeat split].
      destruct (d_wmem o a0 bytes d) as [v d']. injection E as <- <-.
      cbn [upd a_count a_len a_inst]. repeat split; try discriminate.
      intros x Hx. unfold put. replace (x =? u32 id) with false by lia. reflexivity.
    - destruct (a_inst a (u32 id)) eqn:F.
      + destruct (step_obj o fuel n d) as [[[[t s] d'] tr]|]; [|discriminate]. injection E as <- <-.
        cbn [upd a_count a_len a_inst]. repeat split; try discriminate.
        intros x Hx. unfold put. replace (x =? u32 id) with false by lia. reflexivity.
      + injection E as <- <-. repeat split.
    - destruct (a_inst a (u32 id)) eqn:F; [|injection E as <- <-; repeat split].
      destruct (halt_obj o d) as [[v s] d']. injection E as <- <-.
      cbn [upd a_count a_len a_inst]. repeat split; try discriminate.
      intros x Hx. unfold put. replace (x =? u32 id) with false by lia. reflexivity.
  Qed.

  (** A call depends only on the instance it is about. *)
  Lemma call_local fuel k (a b a' : agent) r : do_call o fuel k a = Some (Ok (a', r)) ->
    match target k with
    | None => a_count a = a_count b
    | Some i => a_inst a (u32 i) = a_inst b (u32 i) /\ a_len a (u32 i) = a_len b (u32 i)
    end ->
    exists b', do_call o fuel k b = Some (Ok (b', r)) /\
      forall i, target k = Some i -> a_inst a' (u32 i) = a_inst b' (u32 i).
  Proof.
    intros E H. destruct k; cbn [target do_call] in *; unfold find in *.
    1: { unfold construct, bind in *. rewrite <- H. destruct (create o (a_count a) mem) as [d| |] eqn:C; try discriminate.
         injection E as <- <-. eexists. split; [reflexivity|]. discriminate. }
    all: destruct H as [H1 H2]; try rewrite <- H1; try rewrite <- H2.
    all: repeat match type of E with
      | context [if negb ?b then _ else _] => destruct b; cbn [negb] in *
      | context [match a_inst ?y ?x with _ => _ end] => destruct (a_inst y x) eqn:?
      end.
    all: try (injection E as <- <-; eexists; split; [reflexivity|]; intros i Hi; injection Hi as <-; unfold upd, put in *; cbn [a_inst]; rewrite ?Z.eqb_refl; congruence).
    - destruct (a_len a (u32 id)) eqn:L; [|discriminate]. unfold bind in *.
      destruct register_info as [x| |]; try discriminate. injection E as <- <-.
      eexists. split; [reflexivity|]. intros i Hi. injection Hi as <-. congruence.
    - destruct (load_obj o f d) as [[e s] d']. destruct st; [|discriminate]. injection E as <- <-.
      eexists. split; [reflexivity|]. intros i Hi. injection Hi as <-. unfold upd, put; cbn [a_inst]. rewrite !Z.eqb_refl. reflexivity.
    - destruct st; [|discriminate]. injection E as <- <-. eexists. split; [reflexivity|]. intros i Hi. injection Hi as <-. congruence.
    - destruct (d_image o f a0 d) as [ok d']. injection E as <- <-.
      eexists. split; [reflexivity|]. intros i Hi. injection Hi as <-. unfold upd, put; cbn [a_inst]. rewrite !Z.eqb_refl. reflexivity.
    - destruct (reg_name o (u32 r0)).
      + destruct (d_read o l d) as [v d']. injection E as <- <-.
        eexists. split; [reflexivity|]. intros i Hi. injection Hi as <-. unfold upd, put; cbn [a_inst]. rewrite !Z.eqb_refl. reflexivity.
      + injection E as <- <-. eexists. split; [reflexivity|]. intros i Hi. injection Hi as <-. congruence.
    - destruct (reg_name o (u32 r0)).
      + destruct (d_write o l v d) as [ok d']. injection E as <- <-.
        eexists. split; [reflexivity|]. intros i Hi. injection Hi as <-. unfold upd, put; cbn [a_inst]. rewrite !Z.eqb_refl. reflexivity.
      + injection E as <- <-. eexists. split; [reflexivity|]. intros i Hi. injection Hi as <-. congruence.
    - destruct (d_rmem o a0 n d) as [v d']. injection E as <- <-.
      eexists. split; [reflexivity|]. intros i Hi. injection Hi as <-. unfold upd, put; cbn [a_inst]. rewrite !Z.eqb_refl. reflexivity.
    - destruct (d_wmem o a0 bytes d) as [v d']. injection E as <- <-.
      eexists. split; [reflexivity|]. intros i Hi. injection Hi as <-. unfold upd, put; cbn [a_inst]. rewrite !Z.eqb_refl. reflexivity.
    - destruct (step_obj o fuel n d) as [[[[t s] d'] tr]|]; [|discriminate]. injection E as <- <-.
      eexists. split; [reflexivity|]. intros i Hi. injection Hi as <-. unfold upd, put; cbn [a_inst]. rewrite !Z.eqb_refl. reflexivity.
    - destruct (halt_obj o d) as [[v s] d']. injection E as <- <-.
      eexists. split; [reflexivity|]. intros i Hi. injection Hi as <-. unfold upd, put; cbn [a_inst]. rewrite !Z.eqb_refl. reflexivity.
  Qed.

  (** Runs, one call at a time. *)
  Lemma run_cons fuel k ks (a a' : agent) rs : run o fuel (k :: ks) a = Some (Ok (a', rs)) ->
    exists a1 r rs', do_call o fuel k a = Some (Ok (a1, r)) /\ run o fuel ks a1 = Some (Ok (a', rs')) /\ rs = r :: rs'.
  Proof.
    intro E. cbn [run] in E. destruct (do_call o fuel k a) as [[[a1 r]| |]|]; try discriminate.
    destruct (run o fuel ks a1) as [[[a2 rs2]| |]|] eqn:E2; try discriminate.
    injection E as <- <-. exists a1, r, rs2. repeat split. exact E2.
  Qed.
  Lemma run_app fuel ks ks' (a a' : agent) rs : run o fuel (ks ++ ks') a = Some (Ok (a', rs)) ->
    exists a1 r1 r2, run o fuel ks a = Some (Ok (a1, r1)) /\ run o fuel ks' a1 = Some (Ok (a', r2)) /\ rs = r1 ++ r2.
  Proof.
    revert a rs. induction ks as [|k ks IH]; intros a rs E.
    - exists a, [], rs. repeat split. exact E.
    - destruct (run_cons _ _ _ _ _ _ E) as [a1 [r [rs' [E1 [E2 ->]]]]].
      destruct (IH a1 rs' E2) as [a2 [r1 [r2 [F1 [F2 ->]]]]].
      exists a2, (r :: r1), r2. cbn [run]. rewrite E1, F1. repeat split. exact F2.
  Qed.
  Lemma run_length fuel ks (a a' : agent) rs : run o fuel ks a = Some (Ok (a', rs)) -> length rs = length ks.
  Proof.
    revert a rs. induction ks as [|k ks IH]; intros a rs E.
    - injection E as <- <-. reflexivity.
    - destruct (run_cons _ _ _ _ _ _ E) as [a1 [r [rs' [E1 [E2 ->]]]]]. cbn. f_equal. exact (IH _ _ E2).
  Qed.

  (** Ids in order. *)
  Lemma ids_from fuel ks (a a' : agent) rs c : run o fuel ks a = Some (Ok (a', rs)) -> a_count a = u32 (Z.of_nat c) ->
    map (fun p => r_ret (snd p)) (filter (fun p => is_construct (fst p)) (combine ks rs)) =
    map (fun i => s32 (Z.of_nat i)) (seq c (length (filter is_construct ks))) /\
    a_count a' = u32 (Z.of_nat (c + length (filter is_construct ks))).
  Proof.
    revert a rs c. induction ks as [|k ks IH]; intros a rs c E H.
    - injection E as <- <-. cbn. split; [reflexivity|]. rewrite H. f_equal. lia.
    - destruct (run_cons _ _ _ _ _ _ E) as [a1 [r [rs' [E1 [E2 ->]]]]].
      pose proof (call_cases _ _ _ _ _ E1) as C. destruct (target k) as [i|] eqn:T.
      + assert (is_construct k = false) as K by (destruct k; [discriminate | reflexivity ..]).
        cbn [combine filter fst map]. rewrite K. apply (IH a1); [exact E2|]. destruct C as [C _]. congruence.
      + destruct C as [max [mem [d [-> [_ [-> ->]]]]]]. cbn [is_construct combine filter fst map length seq snd r_ret ret].
        destruct (IH _ rs' (S c) E2) as [I1 I2].
        { cbn [a_count]. rewrite H. unfold u32. rewrite Zplus_mod_idemp_l. f_equal. lia. }
        split; [f_equal; [rewrite H; apply s32_u32 | exact I1]|]. rewrite I2. f_equal. lia.
  Qed.
  Lemma ids_distinct n : Z.of_nat n <= 2 ^ 32 -> NoDup (map (fun i => s32 (Z.of_nat i)) (seq 0 n)).
  Proof.
    intro Hn. assert (H : forall m l, (l + m <= n)%nat -> NoDup (map (fun i => s32 (Z.of_nat i)) (seq l m))).
    { induction m as [|m IH]; intros l Hl; [constructor|]. cbn [seq map]. constructor; [|apply IH; lia].
      intro I. apply in_map_iff in I. destruct I as [x [Hx Ix]]. apply in_seq in Ix.
      apply s32_inj in Hx; lia. }
    apply H. lia.
  Qed.

  (** The instance created by a construct is the new id's. *)
  Definition below (a : agent) : Prop := forall i, a_inst a i <> None -> 0 <= i < a_count a.
  Lemma below_step fuel k (a a' : agent) r : do_call o fuel k a = Some (Ok (a', r)) ->
    0 <= a_count a -> a_count a + 1 < 2 ^ 32 -> below a ->
    below a' /\ a_count a <= a_count a' <= a_count a + 1 /\
    a_count a' = a_count a + (if is_construct k then 1 else 0) /\
    (forall i, 0 <= i < a_count a -> a_inst a i = None -> a_inst a' i = None).
  Proof.
    intros E H0 H1 B. pose proof (call_cases _ _ _ _ _ E) as C. destruct (target k) as [i|] eqn:T.
    - assert (is_construct k = false) as -> by (destruct k; [discriminate | reflexivity ..]).
      destruct C as [C1 [_ [C2 C3]]]. split; [|split; [lia|split; [lia|]]].
      + intros x Hx. rewrite C1. destruct (Z.eq_dec x (u32 i)) as [->|N]; [|apply B; rewrite <- C2 by exact N; exact Hx].
        apply B. intro F. destruct (C3 F) as [-> _]. apply Hx. exact F.
      + intros x Hx F. destruct (Z.eq_dec x (u32 i)) as [->|N]; [|rewrite C2 by exact N; exact F].
        destruct (C3 F) as [-> _]. exact F.
    - destruct C as [max [mem [d [-> [_ [-> ->]]]]]]. cbn [is_construct a_count a_inst].
      unfold u32. rewrite (Z.mod_small (a_count a + 1)) by lia.
      assert (N : a_inst a (a_count a) = None).
      { destruct (a_inst a (a_count a)) eqn:F; [|reflexivity]. assert (a_inst a (a_count a) <> None) as X by congruence.
        apply B in X. lia. }
      unfold emplace. rewrite N. split; [|split; [lia|split; [lia|]]].
      + intros x Hx. cbn [a_inst a_count] in *. unfold put in Hx. destruct (x =? a_count a) eqn:X; [lia|]. apply B in Hx. lia.
      + intros x Hx F. cbn. unfold put. replace (x =? a_count a) with false by lia. exact F.
  Qed.
  Lemma below_run fuel ks (a a' : agent) rs : run o fuel ks a = Some (Ok (a', rs)) ->
    0 <= a_count a -> a_count a + Z.of_nat (length (filter is_construct ks)) + 1 < 2 ^ 32 -> below a ->
    below a' /\ a_count a' = a_count a + Z.of_nat (length (filter is_construct ks)) /\
    (forall i, 0 <= i < a_count a -> a_inst a i = None -> a_inst a' i = None).
  Proof.
    revert a rs. induction ks as [|k ks IH]; intros a rs E H0 H1 B.
    - injection E as <- <-. cbn [filter length]. split; [exact B|]. split; [lia | auto].
    - destruct (run_cons _ _ _ _ _ _ E) as [a1 [r [rs' [E1 [E2 ->]]]]].
      cbn [filter] in *. assert (L : Z.of_nat (length (if is_construct k then k :: filter is_construct ks else filter is_construct ks)) =
                    (if is_construct k then 1 else 0) + Z.of_nat (length (filter is_construct ks)))
        by (destruct (is_construct k); cbn [length]; lia).
      rewrite L in *. destruct (below_step _ _ _ _ _ E1 H0) as [B1 [C1 [C2 D1]]]; [destruct (is_construct k); lia | exact B |].
      destruct (IH a1 rs' E2) as [B2 [C3 D2]]; [lia | destruct (is_construct k); lia | exact B1 |].
      split; [exact B2|]. split; [lia|]. intros i Hi F. apply D2; [lia|]. apply D1; [lia | exact F].
  Qed.

  (** A destroyed id. *)
  Lemma destroyed_run fuel ks1 ks2 id (a : agent) rs r1 : 
    run o fuel (ks1 ++ Destroy id :: ks2) agent0 = Some (Ok (a, rs)) ->
    nth_error rs (length ks1) = Some r1 -> r_ret r1 = 0 ->
    Z.of_nat (length (filter is_construct (ks1 ++ ks2))) + 1 < 2 ^ 32 ->
    a_inst a (u32 id) = None.
  Proof.
    intros E Hr H0 Hc. destruct (run_app _ _ _ _ _ _ E) as [a1 [q1 [q2 [E1 [E2 ->]]]]].
    destruct (run_cons _ _ _ _ _ _ E2) as [a2 [r [q3 [E3 [E4 ->]]]]].
    rewrite filter_app, app_length in Hc.
    rewrite <- (run_length _ _ _ _ _ E1), nth_error_app2, Nat.sub_diag in Hr by lia. injection Hr as ->.
    destruct (below_run _ _ _ _ _ E1) as [B1 [C1 _]]; [cbn; lia | cbn; lia | intros i Hi; exfalso; apply Hi; reflexivity |].
    cbn [agent0 a_count] in C1.
    cbn [do_call] in E3. unfold find in E3. destruct (a_inst a1 (u32 id)) as [d|] eqn:F; [|injection E3 as <- <-; discriminate].
    injection E3 as <- <-.
    destruct (below_run _ _ _ _ _ E4) as [_ [_ D]]; cbn [a_count a_inst]; [lia | lia | |].
    - intros i Hi. cbn in *. unfold put in Hi. destruct (i =? u32 id) eqn:X; [congruence|]. apply B1. exact Hi.
    - cbn [a_count a_inst] in D. apply D; [|unfold put; rewrite Z.eqb_refl; reflexivity].
      apply B1. congruence.
  Qed.

  (** Non-interference. *)
  Lemma isolated fuel j ks : forall (a b a' : agent) rs, run o fuel ks a = Some (Ok (a', rs)) ->
    a_count a = a_count b -> a_inst a (u32 j) = a_inst b (u32 j) -> a_len a (u32 j) = a_len b (u32 j) ->
    exists b', run o fuel (filter (keeps j) ks) b =
                 Some (Ok (b', map snd (filter (fun p => keeps j (fst p)) (combine ks rs)))) /\
               a_inst a' (u32 j) = a_inst b' (u32 j).
  Proof.
    induction ks as [|k ks IH]; intros a b a' rs E H1 H2 H3.
    - injection E as <- <-. exists b. split; [reflexivity | exact H2].
    - destruct (run_cons _ _ _ _ _ _ E) as [a1 [r [rs' [E1 [E2 ->]]]]].
      pose proof (call_cases _ _ _ _ _ E1) as C. cbn [combine filter fst].
      destruct (keeps j k) eqn:K.
      + destruct (target k) as [i|] eqn:T.
        * unfold keeps in K. rewrite T in K. assert (u32 i = u32 j) as U by (unfold u32; lia).
          destruct (call_local _ _ _ b _ _ E1) as [b1 [F1 F2]]; [rewrite T, U; split; assumption|].
          pose proof (call_cases _ _ _ _ _ F1) as C'. rewrite T in C'.
          destruct C as [C1 [C2 _]]. destruct C' as [C1' [C2' _]]. specialize (F2 i T). rewrite U in F2.
          destruct (IH a1 b1 a' rs' E2) as [b' [I1 I2]]; [congruence | congruence | congruence |].
          exists b'. split; [|exact I2]. cbn [run map snd]. rewrite F1, I1. reflexivity.
        * destruct (call_local _ _ _ b _ _ E1) as [b1 [F1 _]]; [rewrite T; exact H1|].
          pose proof (call_cases _ _ _ _ _ F1) as C'. rewrite T in C'.
          destruct C as [max [mem [d [-> [D [-> ->]]]]]]. destruct C' as [max' [mem' [d' [X [D' [-> _]]]]]].
          injection X as <- <-. rewrite <- H1 in D'. assert (d' = d) by congruence. subst d'.
          destruct (IH _ (A (u32 (a_count b + 1)) (emplace (a_count b) d (a_inst b)) (emplace (a_count b) max (a_len b))) a' rs' E2) as [b' [I1 I2]].
          { cbn. congruence. }
          { cbn. rewrite <- H1. destruct (Z.eq_dec (a_count a) (u32 j)) as [Q|Q].
            - rewrite Q. unfold emplace. rewrite <- H2. destruct (a_inst a (u32 j)) eqn:W; [congruence|]. unfold put. rewrite Z.eqb_refl. reflexivity.
            - unfold emplace. destruct (a_inst a (a_count a)), (a_inst b (a_count a)); unfold put; replace (u32 j =? a_count a) with false by lia; exact H2. }
          { cbn. rewrite <- H1. destruct (Z.eq_dec (a_count a) (u32 j)) as [Q|Q].
            - rewrite Q. unfold emplace. rewrite <- H3. destruct (a_len a (u32 j)) eqn:W; [congruence|]. unfold put. rewrite Z.eqb_refl. reflexivity.
            - unfold emplace. destruct (a_len a (a_count a)), (a_len b (a_count a)); unfold put; replace (u32 j =? a_count a) with false by lia; exact H3. }
          exists b'. split; [|exact I2]. cbn [run map snd]. rewrite F1, I1. reflexivity.
      + unfold keeps in K. destruct (target k) as [i|] eqn:T; [|discriminate].
        destruct C as [C1 [C2 [C3 _]]]. apply (IH a1); [exact E2 | congruence | | congruence].
        rewrite C3; [exact H2|]. unfold u32. lia.
  Qed.

  (** The step loop. *)
  Lemma replays_app d tr d1 tr' d2 : replays o d tr d1 -> replays o d1 tr' d2 -> replays o d (tr ++ tr') d2.
  Proof. induction 1; intro H1; [exact H1|]. cbn. econstructor; [eassumption|]. apply IHreplays. exact H1. Qed.
  Lemma step_loop_ok : step_contract o -> forall fuel n total d tr0 total' st d' tr,
    0 <= n < 2 ^ 64 -> step_loop o fuel n total d tr0 = Some (total', st, d', tr) ->
    0 <= total < 2 ^ 32 ->
    exists new, tr = tr0 ++ new /\ replays o d new d' /\ Forall (fun c => 0 < fst c <= int_max) new /\
      total' = u32 (total + executed new) /\ asked new <= n /\
      (n = 0 -> new = [] /\ st = 0) /\
      (0 < n -> exists pre lst, new = pre ++ [lst] /\ Forall (fun c => snd c = Some (fst c)) pre /\
         st = step_status (snd lst) (d_reason o d') /\
         (goes_on lst (d_reason o d') -> asked new = n)).
  Proof.
    intro SC. induction fuel as [|fuel IH]; intros n total d tr0 total' st d' tr Hn E Ht; cbn [step_loop] in E.
    - rewrite Z.gtb_ltb in E. destruct (0 <? n) eqn:N; [discriminate|]. injection E as <- <- <- <-.
      exists []. rewrite app_nil_r. split; [reflexivity|]. split; [constructor|]. split; [constructor|].
      split; [cbn; unfold u32; rewrite Z.add_0_r, Z.mod_small; lia|]. split; [cbn; lia|]. split; [auto|]. lia.
    - rewrite Z.gtb_ltb in E. destruct (0 <? n) eqn:N.
      2: { injection E as <- <- <- <-.
      exists []. rewrite app_nil_r. split; [reflexivity|]. split; [constructor|]. split; [constructor|].
      split; [cbn; unfold u32; rewrite Z.add_0_r, Z.mod_small; lia|]. split; [cbn; lia|]. split; [auto|]. lia. }
      rewrite Z.gtb_ltb in E. set (sc := if int_max <? n then int_max else n) in *.
      assert (Hsc : 0 < sc <= int_max /\ sc <= n) by (subst sc; destruct (int_max <? n) eqn:X; unfold int_max in *; lia).
      clearbody sc. destruct (d_step o sc d) as [res d1] eqn:D.
      (* the ways to stop after this call *)
      assert (Stop : forall e s, res = e -> (total', st, d', tr) = (u32 (total + match e with Some e => e | None => 0 end), s, d1, tr0 ++ [(sc, res)]) ->
        s = step_status res (d_reason o d1) -> ~ goes_on (sc, res) (d_reason o d1) ->
        exists new, tr = tr0 ++ new /\ replays o d new d' /\ Forall (fun c => 0 < fst c <= int_max) new /\
          total' = u32 (total + executed new) /\ asked new <= n /\ (n = 0 -> new = [] /\ st = 0) /\
          (0 < n -> exists pre lst, new = pre ++ [lst] /\ Forall (fun c => snd c = Some (fst c)) pre /\
             st = step_status (snd lst) (d_reason o d') /\ (goes_on lst (d_reason o d') -> asked new = n))).
      { intros e s He X Hs Hg. injection X as -> -> -> ->. exists [(sc, res)]. split; [reflexivity|].
        split; [econstructor; [exact D | constructor]|]. split; [repeat constructor; apply Hsc|].
        split; [cbn [executed fold_right snd]; rewrite He, Z.add_0_r; reflexivity|]. split; [cbn; lia|]. split; [lia|].
        intros _. exists [], (sc, res). split; [reflexivity|]. split; [constructor|]. split; [exact Hs|].
        intro G. contradiction. }
      destruct res as [e|].
      2: { injection E as <- <- <- <-. apply (Stop None kAborted eq_refl); [rewrite Z.add_0_r; unfold u32; rewrite Z.mod_small by lia; reflexivity | reflexivity |].
           intros [X _]. discriminate. }
      pose proof (SC sc d e d1 D ltac:(lia)) as He.
      assert (Go : (if e <? sc then Some (u32 (total + e), kOk, d1, tr0 ++ [(sc, Some e)])
                    else step_loop o fuel ((n - e) mod 2 ^ 64) (u32 (total + e)) d1 (tr0 ++ [(sc, Some e)])) =
                   Some (total', st, d', tr) ->
                   d_reason o d1 = Some HNone \/ (exists k, d_reason o d1 = Some (HOther k)) ->
        exists new, tr = tr0 ++ new /\ replays o d new d' /\ Forall (fun c => 0 < fst c <= int_max) new /\
          total' = u32 (total + executed new) /\ asked new <= n /\ (n = 0 -> new = [] /\ st = 0) /\
          (0 < n -> exists pre lst, new = pre ++ [lst] /\ Forall (fun c => snd c = Some (fst c)) pre /\
             st = step_status (snd lst) (d_reason o d') /\ (goes_on lst (d_reason o d') -> asked new = n))).
      { intros F Hr. assert (SS : step_status (Some e) (d_reason o d1) = 0) by (destruct Hr as [-> | [k ->]]; reflexivity).
        destruct (e <? sc) eqn:L.
        - injection F as <- <- <- <-. apply (Stop (Some e) kOk eq_refl); [reflexivity | rewrite SS; reflexivity |].
          intros [X _]. cbn in X. injection X as X. lia.
        - assert (e = sc) by lia. subst e. rewrite (Z.mod_small (n - sc)) in F by lia.
          assert (R : 0 <= u32 (total + sc) < 2 ^ 32) by (unfold u32; lia).
          assert (Hn1 : 0 <= n - sc < 2 ^ 64) by lia.
          destruct (IH _ _ _ _ _ _ _ _ Hn1 F R) as [new [-> [P1 [P2 [P3 [P4 [P5 P6]]]]]]].
          exists ((sc, Some sc) :: new). split; [rewrite <- app_assoc; reflexivity|].
          split; [econstructor; eassumption|]. split; [constructor; [apply Hsc | exact P2]|].
          split; [cbn [executed fold_right snd]; rewrite P3; unfold u32; rewrite Zplus_mod_idemp_l; f_equal; fold (executed new); lia|].
          split; [cbn [asked fold_right fst]; fold (asked new); lia|]. split; [lia|]. intros _.
          destruct (Z.eq_dec (n - sc) 0) as [Z0|Z0].
          + destruct (P5 Z0) as [-> ->]. inversion P1; subst. exists [], (sc, Some sc). split; [reflexivity|]. split; [constructor|].
            split; [symmetry; exact SS|]. intros _. cbn. lia.
          + destruct (P6 ltac:(lia)) as [pre [lst [-> [Q1 [Q2 Q3]]]]].
            exists ((sc, Some sc) :: pre), lst. split; [reflexivity|]. split; [constructor; [reflexivity | exact Q1]|].
            split; [exact Q2|]. intro G. specialize (Q3 G). cbn [asked fold_right fst]. fold (asked (pre ++ [lst])). lia. }
      destruct (d_reason o d1) as [[]|] eqn:Hr.
      all: try (apply Go; [exact E | first [left; reflexivity | right; eexists; reflexivity]]).
      all: injection E as <- <- <- <-; eapply (Stop (Some e)); [reflexivity | reflexivity | reflexivity |];
           intros [_ [X|[k X]]]; discriminate.
  Qed.
  Lemma step_loop_fuel : step_contract o -> forall fuel n total d tr0, 0 <= n < 2 ^ 64 ->
    n / int_max < Z.of_nat fuel -> exists x, step_loop o fuel n total d tr0 = Some x.
  Proof.
    intro SC. induction fuel as [|fuel IH]; intros n total d tr0 Hn Hf.
    - assert (n / int_max >= 0) by (apply Z.ge_le_iff, Z.div_pos; unfold int_max; lia). lia.
    - cbn [step_loop]. rewrite !Z.gtb_ltb. destruct (0 <? n) eqn:N; [|eexists; reflexivity].
      set (sc := if int_max <? n then int_max else n).
      assert (Hsc : 0 < sc <= int_max /\ sc <= n /\ (sc = int_max \/ sc = n)) by (subst sc; destruct (int_max <? n) eqn:X; unfold int_max in *; lia).
      clearbody sc. destruct (d_step o sc d) as [res d1] eqn:D. destruct res as [e|]; [|eexists; reflexivity].
      pose proof (SC sc d e d1 D ltac:(lia)) as He.
      assert (Go : exists x, (if e <? sc then Some (u32 (total + e), kOk, d1, tr0 ++ [(sc, Some e)])
                    else step_loop o fuel ((n - e) mod 2 ^ 64) (u32 (total + e)) d1 (tr0 ++ [(sc, Some e)])) = Some x).
      { destruct (e <? sc) eqn:L; [eexists; reflexivity|]. assert (e = sc) by lia. subst e.
        rewrite (Z.mod_small (n - sc)) by lia. destruct (Z.eq_dec sc n) as [->|Ns].
        - rewrite Z.sub_diag. destruct fuel; cbn [step_loop]; eexists; reflexivity.
        - apply IH; [lia|]. assert (sc = int_max) by lia. subst sc.
          replace (n - int_max) with (n + (-1) * int_max) by lia. rewrite Z.div_add by (unfold int_max; lia). lia. }
      destruct (d_reason o d1) as [[]|]; try exact Go; eexists; reflexivity.
  Qed.
End Ag.

(** ** Register information *)
Lemma reg_table_nth en i : 0 <= i < 33 ->
  nth_error (reg_table en) (Z.to_nat i) =
  Some (RI (if i =? 0 then en DPc else en (DX (i - 1))) 32 true (i =? 1)).
Proof.
  intro H. assert (E : exists n, (n < 33)%nat /\ i = Z.of_nat n) by (exists (Z.to_nat i); lia).
  destruct E as [n [Hn ->]]. rewrite Nat2Z.id. clear H.
  do 33 (destruct n as [|n]; [reflexivity|]). lia.
Qed.
Lemma register_info_range en nm i max cap : ~ (0 <= i < 33) -> register_info en nm i max cap = Ok None.
Proof.
  intro H. unfold register_info. change (Z.of_nat (length (reg_table en))) with 33.
  replace ((i <? 0) || (33 <=? i)) with true by lia. reflexivity.
Qed.
Lemma register_info_ok en nm i max cap : 0 <= i < 33 ->
  let info := RI (if i =? 0 then en DPc else en (DX (i - 1))) 32 true (i =? 1) in
  register_info en nm i max cap =
  match nm (i_index info) with
  | None => if cap <? 1 then UB OutOfBounds else Ok (Some (info, [0]))
  | Some s => if (max <? 0) || (cap <? max) then UB OutOfBounds
              else Ok (Some (info, firstn (Z.to_nat max) s ++ repeat 0 (Z.to_nat max - length s)))
  end.
Proof.
  intros H info. unfold register_info. change (Z.of_nat (length (reg_table en))) with 33.
  replace ((i <? 0) || (33 <=? i)) with false by lia. rewrite reg_table_nth by exact H. fold info.
  destruct (nm (i_index info)) as [s|]; [|reflexivity]. unfold strncpy. destruct (_ || _); reflexivity.
Qed.
Lemma strncpy_holds s n : ~ In 0 s -> Z.of_nat (length s) < n ->
  holds_string (firstn (Z.to_nat n) s ++ repeat 0 (Z.to_nat n - length s)) s n.
Proof.
  intros H L. unfold holds_string. rewrite firstn_all2 by lia. rewrite app_length, repeat_length.
  split; [lia|]. split; [rewrite firstn_app, Nat.sub_diag, firstn_all, firstn_O, app_nil_r; reflexivity|].
  split; [|exact H]. rewrite nth_error_app2, Nat.sub_diag by lia.
  destruct (Z.to_nat n - length s)%nat eqn:Q; [lia|]. reflexivity.
Qed.
Lemma strncpy_no_nul s n : ~ In 0 s -> 0 <= n <= Z.of_nat (length s) ->
  ~ In 0 (firstn (Z.to_nat n) s ++ repeat 0 (Z.to_nat n - length s)).
Proof.
  intros H L. replace (Z.to_nat n - length s)%nat with 0%nat by lia. cbn [repeat]. rewrite app_nil_r.
  intro I. apply H. rewrite <- (firstn_skipn (Z.to_nat n) s). apply in_or_app. left. exact I.
Qed.
Lemma len_keep {Dbg File Blocks} (o : ops Dbg File Blocks) fuel ks (a a' : agent) rs x max :
  run o fuel ks a = Some (Ok (a', rs)) -> a_len a x = Some max -> a_len a' x = Some max.
Proof.
  revert a rs. induction ks as [|k ks IH]; intros a rs E H; [injection E as <- <-; exact H|].
  destruct (run_cons _ _ _ _ _ _ _ E) as [a1 [r [rs' [E1 [E2 ->]]]]]. apply (IH a1 rs' E2).
  pose proof (call_cases _ _ _ _ _ _ E1) as C. destruct (target k).
  - destruct C as [_ [-> _]]. exact H.
  - destruct C as [mx [mem [d [-> [_ [-> _]]]]]]. cbn [a_len]. unfold emplace.
    destruct (a_len a (a_count a)) eqn:W; [exact H|]. unfold put. destruct (x =? a_count a) eqn:Q; [|exact H].
    assert (x = a_count a) by lia. subst x. congruence.
Qed.
Lemma len_below {Dbg File Blocks} (o : ops Dbg File Blocks) fuel ks (a a' : agent) rs :
  run o fuel ks a = Some (Ok (a', rs)) ->
  0 <= a_count a -> a_count a + Z.of_nat (length (filter is_construct ks)) + 1 < 2 ^ 32 -> 
  (forall i, a_len a i <> None -> 0 <= i < a_count a) ->
  (forall i, a_len a' i <> None -> 0 <= i < a_count a').
Proof.
  revert a rs. induction ks as [|k ks IH]; intros a rs E H0 H1 B; [injection E as <- <-; exact B|].
  destruct (run_cons _ _ _ _ _ _ _ E) as [a1 [r [rs' [E1 [E2 ->]]]]].
  pose proof (call_cases _ _ _ _ _ _ E1) as C. destruct (target k) as [t|] eqn:T.
  - assert (is_construct k = false) as K by (destruct k; [discriminate | reflexivity ..]).
    cbn [filter] in H1. rewrite K in H1.
    destruct C as [C1 [C2 _]]. apply (IH a1 rs' E2); [lia | lia |]. rewrite C2, C1. exact B.
  - destruct C as [mx [mem [d [-> [_ [-> _]]]]]]. cbn [filter is_construct length] in H1.
    assert (U : u32 (a_count a + 1) = a_count a + 1) by (unfold u32; apply Z.mod_small; lia).
    apply (IH _ rs' E2); cbn [a_count a_len]; rewrite U; [lia | lia |].
    intros i. unfold emplace. destruct (a_len a (a_count a)) eqn:W.
    + intro Hi. apply B in Hi. lia.
    + unfold put. destruct (i =? a_count a) eqn:Q; [lia|]. intro Hi. apply B in Hi. lia.
Qed.
Lemma len_run {Dbg File Blocks} (o : ops Dbg File Blocks) fuel ks max mem (a : agent) rs a' r :
  run o fuel ks agent0 = Some (Ok (a, rs)) ->
  Z.of_nat (length (filter is_construct ks)) + 1 < 2 ^ 32 ->
  do_call o fuel (Construct max mem) a = Some (Ok (a', r)) ->
  forall ks' a'' rs', run o fuel ks' a' = Some (Ok (a'', rs')) -> a_len a'' (u32 (r_ret r)) = Some max.
Proof.
  intros E Hn C ks' a'' rs' E'.
  destruct (below_run o fuel ks _ a rs E) as [_ [Hc _]]; [cbn; lia | exact Hn | intros i Hi; exfalso; apply Hi; reflexivity |].
  pose proof (len_below o fuel ks _ a rs E) as B. cbn [agent0 a_count a_len] in *.
  specialize (B ltac:(lia) ltac:(lia) ltac:(intros i Hi; exfalso; apply Hi; reflexivity)).
  pose proof (call_cases o fuel _ _ _ _ C) as [max' [mem' [d [X [D [-> ->]]]]]]. injection X as <- <-.
  assert (N : a_len a (a_count a) = None).
  { destruct (a_len a (a_count a)) eqn:F; [|reflexivity]. assert (Q : a_len a (a_count a) <> None) by congruence.
    apply B in Q. lia. }
  apply (len_keep o fuel ks' _ _ _ _ _ E'). cbn [r_ret ret a_len]. rewrite u32_s32.
  assert (U : u32 (a_count a) = a_count a) by (unfold u32; apply Z.mod_small; lia).
  rewrite U. unfold emplace, put. rewrite N, Z.eqb_refl. reflexivity.
Qed.
