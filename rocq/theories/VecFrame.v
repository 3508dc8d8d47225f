(** * What a vector instruction writes and depends on; round trips *)
From Verif Require Import CInt Lane LaneSpec VecModel VecSpec LaneProofs LaneProofs2 LaneProofs3
  LaneProofs4 LaneCor VecProofs VecEl VecFam VecPerm.
From Coq Require Import ZifyBool ZifyNat.
Import ListNotations.
Ltac Zify.zify_post_hook ::= Z.div_mod_to_equations.

(** ** Two runs side by side *)
Definition rel_out {A} (R : A -> A -> Prop) (a b : outcome A) : Prop :=
  match a, b with Ok x, Ok y => R x y | UB x, UB y => x = y | Crash, Crash => True | _, _ => False end.
Lemma for_n_rel {S} (R : Z -> S -> S -> Prop) f g n : forall s t,
  R 0 s t ->
  (forall i s t, 0 <= i < Z.of_nat n -> R i s t -> rel_out (R (i + 1)) (f i s) (g i t)) ->
  rel_out (R (Z.of_nat n)) (for_n n f s) (for_n n g t).
Proof.
  induction n as [|m IH]; intros s t H0 Hs; [exact H0|].
  cbn [for_n]. pose proof (IH s t H0) as H. 
  assert (Hs' : forall i s t, 0 <= i < Z.of_nat m -> R i s t -> rel_out (R (i + 1)) (f i s) (g i t))
    by (intros; apply Hs; [lia|assumption]).
  specialize (H Hs').
  destruct (for_n m f s), (for_n m g t); cbn [rel_out bind] in *; try contradiction; auto.
  replace (Z.of_nat (Datatypes.S m)) with (Z.of_nat m + 1) by lia. apply Hs; [lia|assumption].
Qed.
Lemma for_n_post {S} (I : Z -> S -> Prop) f n : forall s s',
  for_n n f s = Ok s' -> I 0 s ->
  (forall i s s', 0 <= i < Z.of_nat n -> I i s -> f i s = Ok s' -> I (i + 1) s') -> I (Z.of_nat n) s'.
Proof.
  induction n as [|m IH]; intros s s' H H0 Hs.
  - injection H as <-. exact H0.
  - cbn [for_n] in H. destruct (for_n m f s) as [t| |] eqn:E; try discriminate. cbn [bind] in H.
    replace (Z.of_nat (Datatypes.S m)) with (Z.of_nat m + 1) by lia.
    apply (Hs _ t); [lia| |exact H]. apply (IH s); [exact E|exact H0|]. intros; eapply Hs; eauto. lia.
Qed.
Lemma bind_ok {A B} (o : outcome A) (f : A -> outcome B) v :
  bind o f = Ok v -> exists a, o = Ok a /\ f a = Ok v.
Proof. destruct o; cbn [bind]; intros; try discriminate. eauto. Qed.

Lemma get_src_same T s rf1 rf2 idx : small T -> same_regs rf1 rf2 ->
  get_src T s rf1 idx = get_src T s rf2 idx.
Proof.
  intros HT H. destruct s as [b n|x]; cbn [get_src]; [|reflexivity].
  destruct ((0 <=? idx) && (idx / elts T <? n)) eqn:E; [|reflexivity]. f_equal.
  pose proof (elts_sizeof T HT). pose proof (elts_pos T HT).
  assert (0 <= idx mod elts T < elts T) by (apply Z.mod_pos_bound; lia).
  apply lane_get_ext. intros j Hj. apply H. nia.
Qed.

Section Rel.
  Variables (s : vsem) (o : voperands) (scalar : bool) (N : Z) (j1 j2 : Z -> vbytes).
  Hypothesis HTd : small (v_td s).
  Hypothesis HT1 : small (v_ts1 s).
  Hypothesis HT2 : small (v_ts2 s).
  Hypothesis Hirr : v_rdest s = false -> forall d d' a b, v_op s d a b = v_op s d' a b.
  Let Td := v_td s.

  Definition agree (lim : Z -> Z) (b1 b2 : Z -> vbytes) : Prop :=
    forall d, 0 <= d < dest_per_op s ->
    forall j, 0 <= j < 32 -> v_rdest s = true \/ j < lim d * sizeof Td -> b1 d j = b2 d j.

  Lemma exec_op_rel op rf1 rf2 : same_regs rf1 rf2 ->
    rel_out same_regs (exec_op s o scalar N j1 op rf1) (exec_op s o scalar N j2 op rf2).
  Proof.
    intros Hs. unfold exec_op. fold Td.
    destruct (op + (dest_per_op s - 1) * N <? o_nd o); [|reflexivity].
    pose proof (elts_sizeof Td HTd) as He32. pose proof (sizeof_pos Td) as Hsz.
    pose proof (elts_pos Td HTd) as Hel.
    pose proof (dpo12 s) as Hdpo.
    set (b1 := fun i : Z => if v_rdest s then rf1 (o_vd o + (op + i * N)) else j1 (op + i * N)).
    set (b2 := fun i : Z => if v_rdest s then rf2 (o_vd o + (op + i * N)) else j2 (op + i * N)).
    pose proof (for_n_rel (S := Z -> vbytes) (fun e => agree (fun _ => e))
      (fun e => for_n (Z.to_nat (dest_per_op s)) (fun d => elem_step s o scalar N op rf1 e d))
      (fun e => for_n (Z.to_nat (dest_per_op s)) (fun d => elem_step s o scalar N op rf2 e d))
      (Z.to_nat (elts Td)) b1 b2) as H.
    cbv beta in H.
    match type of H with ?A -> ?B -> _ => assert (HA : A); [|assert (HB : B)] end.
    { intros d Hd j Hj [Hr|Hr]; [|lia]. unfold b1, b2. rewrite Hr. now apply Hs. }
    { intros e c1 c2 He Hag.
      pose proof (for_n_rel (S := Z -> vbytes) (fun d0 => agree (fun d => if d <? d0 then e + 1 else e))
        (fun d => elem_step s o scalar N op rf1 e d) (fun d => elem_step s o scalar N op rf2 e d)
        (Z.to_nat (dest_per_op s)) c1 c2) as K. cbv beta in K.
      match type of K with ?A -> ?B -> _ => assert (KA : A); [|assert (KB : B)] end.
      { intros d Hd j Hj Hl. apply Hag; [assumption..|]. assert (d <? 0 = false) as E by lia. now rewrite E in Hl. }
      { intros d a1 a2 Hd Ha. unfold elem_step.
        rewrite (get_src_same (v_ts1 s) _ rf1 rf2) by assumption.
        destruct (get_src (v_ts1 s) _ rf2 _) as [x| |]; cbn [bind rel_out]; try reflexivity.
        rewrite (get_src_same (v_ts2 s) _ rf1 rf2) by assumption.
        destruct (get_src (v_ts2 s) _ rf2 _) as [y| |]; cbn [bind rel_out]; try reflexivity.
        assert (Hop : v_op s (lane_get (v_td s) (a1 d) e) x y = v_op s (lane_get (v_td s) (a2 d) e) x y).
        { destruct (v_rdest s) eqn:Er; [|now apply Hirr]. f_equal. apply lane_get_ext. fold Td.
          intros j Hj. apply Ha; [lia|nia|auto]. }
        rewrite Hop. clear Hop. destruct (v_op s (lane_get (v_td s) (a2 d) e) x y) as [v| |]; cbn [bind rel_out]; try reflexivity.
        intros d' Hd' j Hj Hl. unfold upd. destruct (d' =? d) eqn:Ed.
        - assert (d' = d) by lia. subst d'. fold Td.
          destruct (Z_lt_ge_dec j (e * sizeof Td)) as [G|G].
          + rewrite !lane_put_out by lia. apply Ha; [assumption..|]. right.
            assert (d <? d = false) as E by lia. rewrite E. lia.
          + destruct (Z_lt_ge_dec j ((e + 1) * sizeof Td)) as [G2|G2].
            * replace j with (e * sizeof Td + (j - e * sizeof Td)) by ring. rewrite !lane_put_in by lia. reflexivity.
            * rewrite !lane_put_out by lia. apply Ha; [assumption..|].
              destruct Hl as [Hl|Hl]; [auto|]. assert (d <? d + 1 = true) as E by lia. rewrite E in Hl. lia.
        - apply Ha; [assumption..|]. destruct Hl as [Hl|Hl]; [auto|right].
          replace (d' <? d) with (d' <? d + 1) by lia. exact Hl. }
      specialize (K KA KB).
      destruct (for_n (Z.to_nat (dest_per_op s)) _ c1), (for_n (Z.to_nat (dest_per_op s)) _ c2);
        cbn [rel_out] in *; try contradiction; try assumption; auto.
      intros d Hd j Hj Hl. apply K; [assumption..|]. destruct Hl as [Hl|Hl]; [auto|right].
      assert (d <? Z.of_nat (Z.to_nat (dest_per_op s)) = true) as -> by lia. exact Hl. }
    specialize (H HA HB). clear HA HB.
    destruct (for_n (Z.to_nat (elts Td)) _ b1) as [c1| |], (for_n (Z.to_nat (elts Td)) _ b2) as [c2| |];
      cbn [rel_out bind] in *; try contradiction; auto.
    rewrite Z2Nat.id in H by lia.
    assert (Hc : forall d, 0 <= d < dest_per_op s -> forall j, 0 <= j < 32 -> c1 d j = c2 d j).
    { intros d Hd j Hj. apply H; [assumption..|]. right. lia. }
    intros r j Hj. destruct (dest_per_op s =? 2) eqn:E2.
    - unfold upd. destruct (r =? o_vd o + (op + N)); [apply Hc; lia|].
      destruct (r =? o_vd o + op); [apply Hc; lia|now apply Hs].
    - unfold upd. destruct (r =? o_vd o + op); [apply Hc; lia|now apply Hs].
  Qed.
End Rel.

Lemma exec_binary_rel s o scalar strip j1 j2 rf1 rf2 :
  small (v_td s) -> small (v_ts1 s) -> small (v_ts2 s) ->
  (v_rdest s = false -> forall d d' a b, v_op s d a b = v_op s d' a b) ->
  same_regs rf1 rf2 ->
  rel_out same_regs (exec_binary s o scalar strip j1 rf1) (exec_binary s o scalar strip j2 rf2).
Proof.
  intros H1 H2 H3 H4 Hs. unfold exec_binary.
  apply (for_n_rel (S := vregs) (fun _ => same_regs)); [exact Hs|].
  intros. now apply exec_op_rel.
Qed.

Lemma exec_unary_rel T f o strip j1 j2 rf1 rf2 : small T -> same_regs rf1 rf2 ->
  rel_out same_regs (exec_unary {| u_td := T; u_ts := T; u_op := f |} o strip j1 rf1)
                    (exec_unary {| u_td := T; u_ts := T; u_op := f |} o strip j2 rf2).
Proof.
  intros HT Hs. unfold exec_unary. pose proof (elts_sizeof T HT) as He32. pose proof (sizeof_pos T) as Hsz.
  pose proof (elts_pos T HT) as Hel.
  apply (for_n_rel (S := vregs) (fun _ => same_regs)); [exact Hs|].
  intros op a1 a2 Hop Ha. unfold uexec_op. cbn [u_td u_ts u_op].
  destruct (op <? o_nd o); [|reflexivity].
  pose proof (for_n_rel (S := vbytes) (fun e b1 b2 => forall j, 0 <= j < e * sizeof T -> b1 j = b2 j)
    (fun e => uelem_step {| u_td := T; u_ts := T; u_op := f |} o (num_ops strip) op a1 e)
    (fun e => uelem_step {| u_td := T; u_ts := T; u_op := f |} o (num_ops strip) op a2 e)
    (Z.to_nat (elts T)) (j1 op) (j2 op)) as H. cbv beta in H.
  match type of H with ?A -> ?B -> _ => assert (HA : A); [|assert (HB : B)] end.
  { intros; lia. }
  { intros e b1 b2 He Hb. unfold uelem_step. cbn [u_td u_ts u_op].
    rewrite (get_src_same T _ a1 a2) by assumption.
    destruct (get_src T _ a2 _) as [x| |]; cbn [bind rel_out]; try reflexivity.
    destruct (f x) as [v| |]; cbn [bind rel_out]; try reflexivity.
    intros j Hj. destruct (Z_lt_ge_dec j (e * sizeof T)).
    - rewrite !lane_put_out by lia. apply Hb. lia.
    - replace j with (e * sizeof T + (j - e * sizeof T)) by ring. rewrite !lane_put_in by lia. reflexivity. }
  specialize (H HA HB).
  destruct (for_n (Z.to_nat (elts T)) _ (j1 op)) as [c1| |], (for_n (Z.to_nat (elts T)) _ (j2 op)) as [c2| |];
    cbn [rel_out bind] in *; try contradiction; auto.
  rewrite Z2Nat.id in H by lia.
  intros r j Hj. unfold upd. destruct (r =? o_vd o + op); [apply H; lia|now apply Ha].
Qed.

Lemma In3_small T : In T [I8; I16; I32] -> small T.
Proof. unfold small. cbn [In]. intuition. Qed.
Lemma In6_small T : In T [I8; I16; I32; U8; U16; U32] -> small T.
Proof. unfold small. cbn [In]. intuition. Qed.
Lemma any_small T : In T [I8; I16; I32] \/ In T [U8; U16; U32] -> small T.
Proof. unfold small. cbn [In]. intuition. Qed.

Theorem inst_determined i scalar strip o junk1 junk2 rf1 rf2 :
  legal_inst i -> same_regs rf1 rf2 ->
  same_outcome (exec i scalar strip o junk1 rf1) (exec i scalar strip o junk2 rf2).
Proof.
  intros HL Hs.
  assert (Hred : forall a b, rel_out same_regs a b -> same_outcome a b).
  { intros a b. destruct a, b; cbn; auto. }
  apply Hred. destruct i; cbn [legal_inst exec] in *.
  - apply exec_binary_rel; try assumption; cbn [sem_el v_td v_ts1 v_ts2 v_rdest v_op].
    + now apply legal_td_small.
    + now apply (legal_small o0).
    + now apply (legal_small o0).
    + intros Hr d d' a b. now apply el_op_irrel.
  - destruct (wide_small _ _ HL). apply exec_binary_rel; try assumption; reflexivity.
  - destruct (wide_small _ _ HL). apply exec_binary_rel; try assumption; reflexivity.
  - destruct (wide_small _ _ HL). apply exec_binary_rel; try assumption; reflexivity.
  - apply exec_unary_rel; [now apply (un_small o0)|assumption].
  - destruct (narrow_small _ _ HL). apply exec_binary_rel; try assumption; reflexivity.
  - apply In6_small in HL. destruct p; apply exec_binary_rel; try assumption; reflexivity.
Qed.

(** ** Frame *)
Lemma exec_binary_frame s o scalar strip junk rf rf' :
  exec_binary s o scalar strip junk rf = Ok rf' ->
  only_written (o_vd o) (dest_per_op s * nops strip) rf rf' /\
  dest_per_op s * nops strip <= o_nd o.
Proof.
  intros H. set (N := nops strip) in *. pose proof (dpo12 s) as Hd.
  assert (HN : N = 1 \/ N = 4) by (unfold N, nops; destruct strip; auto).
  unfold exec_binary in H. change (num_ops strip) with N in H.
  pose proof (for_n_post (S := vregs) (fun op rf2 =>
     only_written (o_vd o) (dest_per_op s * N) rf rf2 /\ (0 < op -> op + (dest_per_op s - 1) * N <= o_nd o))
     _ _ _ _ H) as K. cbv beta in K.
  rewrite Z2Nat.id in K by lia.
  destruct K as [K1 K2].
  - split; [intros r Hr j; reflexivity|lia].
  - intros op a b Hop [Ha _] Hb. unfold exec_op in Hb.
    destruct (op + (dest_per_op s - 1) * N <? o_nd o) eqn:E; [|discriminate].
    apply bind_ok in Hb. destruct Hb as (bufs & _ & Hb). injection Hb as <-.
    split; [|lia]. intros r Hr j.
    destruct Hd as [D|D]; rewrite D in *; cbn [Z.eqb Pos.eqb]; unfold upd.
    + assert (r =? o_vd o + op = false) as -> by lia. apply Ha. lia.
    + assert (r =? o_vd o + (op + N) = false) as -> by lia.
      assert (r =? o_vd o + op = false) as -> by lia. apply Ha. lia.
  - split; [exact K1|]. destruct Hd as [D|D]; rewrite D in *; lia.
Qed.
Lemma exec_unary_frame s o strip junk rf rf' :
  exec_unary s o strip junk rf = Ok rf' ->
  only_written (o_vd o) (nops strip) rf rf' /\ nops strip <= o_nd o.
Proof.
  intros H. set (N := nops strip) in *.
  assert (HN : N = 1 \/ N = 4) by (unfold N, nops; destruct strip; auto).
  unfold exec_unary in H. change (num_ops strip) with N in H.
  pose proof (for_n_post (S := vregs) (fun op rf2 =>
     only_written (o_vd o) N rf rf2 /\ (0 < op -> op <= o_nd o)) _ _ _ _ H) as K. cbv beta in K.
  rewrite Z2Nat.id in K by lia.
  destruct K as [K1 K2].
  - split; [intros r Hr j; reflexivity|lia].
  - intros op a b Hop [Ha _] Hb. unfold uexec_op in Hb.
    destruct (op <? o_nd o) eqn:E; [|discriminate].
    apply bind_ok in Hb. destruct Hb as (buf & _ & Hb). injection Hb as <-.
    split; [|lia]. intros r Hr j. unfold upd.
    assert (r =? o_vd o + op = false) as -> by lia. apply Ha. lia.
  - split; [exact K1|lia].
Qed.
Theorem inst_frame i scalar strip o junk rf rf' :
  legal_inst i -> exec i scalar strip o junk rf = Ok rf' ->
  only_written (o_vd o) (dest_regs i strip) rf rf' /\ dest_regs i strip <= o_nd o.
Proof.
  intros HL H.
  assert (B : forall s sc st, exec_binary s o sc st junk rf = Ok rf' ->
     dest_per_op s * nops st = dest_regs i strip ->
     only_written (o_vd o) (dest_regs i strip) rf rf' /\ dest_regs i strip <= o_nd o).
  { intros s sc st Hx <-. eapply exec_binary_frame; eassumption. }
  destruct i; cbn [legal_inst exec] in *.
  - eapply B; [exact H|]. rewrite el_dpo by assumption. cbn [dest_regs]. ring.
  - eapply B; [exact H|]. now rewrite (wide_dpo Td Ts).
  - eapply B; [exact H|]. now rewrite (wide_dpo Td Ts).
  - eapply B; [exact H|]. unfold dest_per_op. cbn [sem_pair v_ts2 v_td v_half v_wdst negb].
    rewrite Bool.andb_false_r. cbn [orb dest_regs]. ring.
  - exact (exec_unary_frame _ _ _ _ _ _ H).
  - eapply B; [exact H|]. unfold dest_per_op. cbn [sem_narrow v_ts2 v_td v_half v_wdst negb].
    rewrite Z.ltb_irrefl. cbn [andb orb dest_regs]. ring.
  - destruct p; (eapply B; [exact H|]); rewrite perm_dpo; cbn [dest_regs perm_regs]; try reflexivity;
      destruct horizontal; reflexivity.
Qed.

(** ** Registers are determined by their lanes *)
Lemma le_range b n : forall off, (forall j, 0 <= j < Z.of_nat n -> 0 <= b (off + j) < 256) ->
  0 <= le b off n < 256 ^ Z.of_nat n.
Proof.
  induction n as [|m IH]; intros off H; [cbn; lia|]. cbn [le].
  replace (Z.of_nat (S m)) with (1 + Z.of_nat m) by lia. rewrite Z.pow_add_r by lia. change (256 ^ 1) with 256.
  pose proof (H 0 ltac:(lia)) as H0. rewrite Z.add_0_r in H0.
  assert (H1 : 0 <= le b (off + 1) m < 256 ^ Z.of_nat m).
  { apply IH. intros j Hj. rewrite <- Z.add_assoc. apply H. lia. }
  lia.
Qed.
Lemma le_inj n : forall b b' off,
  (forall j, 0 <= j < Z.of_nat n -> 0 <= b (off + j) < 256) ->
  (forall j, 0 <= j < Z.of_nat n -> 0 <= b' (off + j) < 256) ->
  le b off n = le b' off n -> forall j, 0 <= j < Z.of_nat n -> b (off + j) = b' (off + j).
Proof.
  induction n as [|m IH]; intros b b' off H H' E j Hj; [lia|]. cbn [le] in E.
  pose proof (H 0 ltac:(lia)) as H0. pose proof (H' 0 ltac:(lia)) as H0'.
  rewrite Z.add_0_r in H0, H0'.
  assert (E1 : b off = b' off) by lia. assert (E2 : le b (off + 1) m = le b' (off + 1) m) by lia.
  destruct (Z.eq_dec j 0) as [->|Hne]; [now rewrite Z.add_0_r|].
  replace (off + j) with (off + 1 + (j - 1)) by ring.
  apply IH; [| |exact E2|lia].
  - intros i Hi. rewrite <- Z.add_assoc. apply H. lia.
  - intros i Hi. rewrite <- Z.add_assoc. apply H'. lia.
Qed.
Lemma wrap_inj T u v : 0 <= u < modulus T -> 0 <= v < modulus T -> wrap T u = wrap T v -> u = v.
Proof.
  intros Hu Hv E. pose proof (wrap_is_mod T u) as [_ A]. pose proof (wrap_is_mod T v) as [_ B].
  rewrite E in A. set (w := wrap T v) in *.
  assert (M : 2 ^ bits T = modulus T) by (destruct T; reflexivity). rewrite M in *.
  assert (P : 0 < modulus T) by lia.
  apply Z.mod_divide in A; [|lia]. apply Z.mod_divide in B; [|lia].
  destruct A as [qa Ea], B as [qb Eb].
  assert (D : v - u = (qa - qb) * modulus T)
    by (replace (v - u) with ((w - u) - (w - v)) by ring; rewrite Ea, Eb; ring).
  set (q := qa - qb) in *. set (M' := modulus T) in *. clearbody q M' w.
  assert (q = 0) by nia. nia.
Qed.
Lemma lanes_bytes T (r r' : vbytes) : small T ->
  (forall j, 0 <= j < 32 -> 0 <= r j < 256) -> (forall j, 0 <= j < 32 -> 0 <= r' j < 256) ->
  (forall i, 0 <= i < nlanes T -> lane T r i = lane T r' i) ->
  forall j, 0 <= j < 32 -> r j = r' j.
Proof.
  intros HT H H' HL j Hj. pose proof (elts_sizeof T HT) as He. pose proof (sizeof_pos T) as Hz.
  pose proof (elts_pos T HT). rewrite nlanes_elts in HL by assumption.
  set (i := j / sizeof T). set (m := j mod sizeof T).
  assert (Hm : 0 <= m < sizeof T) by (apply Z.mod_pos_bound; lia).
  assert (Hi : 0 <= i < elts T) by (unfold i; split; [apply Z.div_pos; lia|apply Z.div_lt_upper_bound; lia]).
  assert (Hj2 : j = i * sizeof T + m) by (unfold i, m; rewrite Z.mod_eq by lia; ring).
  clearbody i m. subst j. specialize (HL i Hi). rewrite !lane_lane_get in HL. unfold lane_get in HL.
  assert (Hb : forall k, 0 <= k < Z.of_nat (Z.to_nat (sizeof T)) -> 0 <= i * sizeof T + k < 32) by (intros; nia).
  apply wrap_inj in HL.
  - apply (le_inj (Z.to_nat (sizeof T))); auto. lia.
  - rewrite <- pow256. replace (256 ^ sizeof T) with (256 ^ Z.of_nat (Z.to_nat (sizeof T))) by (f_equal; lia).
    apply le_range. auto.
  - rewrite <- pow256. replace (256 ^ sizeof T) with (256 ^ Z.of_nat (Z.to_nat (sizeof T))) by (f_equal; lia).
    apply le_range. auto.
Qed.
