(** * Proofs about the command-line simulators *)
From Coq Require Import ZArith List Bool String Lia ZifyBool ZifyNat.
From Verif Require Import CInt LogModel LogSpec V2Model V2Spec TopModel TopSpec CliModel CliSpec.
From Verif Require TopProofs4 LogProofs.
Import ListNotations.
Open Scope Z_scope.
Open Scope list_scope.
Ltac Zify.zify_post_hook ::= Z.div_mod_to_equations.

(** ** Digits *)
Lemma positional_zero b s v : 2 <= b -> positional b s v -> positional b (48 :: s) v.
Proof.
  intros Hb H. induction H as [|s v c d H IH Hd Hl].
  - change [48] with ([] ++ [48]). replace 0 with (0 * b + 0) at 1 by lia. constructor; [constructor|reflexivity|lia].
  - change (48 :: s ++ [c]) with ((48 :: s) ++ [c]). constructor; assumption.
Qed.
Lemma positional_zeros b k s v : 2 <= b -> positional b s v -> positional b (repeat 48 k ++ s) v.
Proof. intros Hb H. induction k as [|k IH]; [exact H|]. cbn [repeat app]. apply positional_zero; assumption. Qed.
Lemma hex8_text v : 0 <= v < 2 ^ 64 -> hex_text v (hex8 v).
Proof.
  intros H. unfold hex8. split.
  - apply positional_zeros; [lia|]. apply LogProofs.positional_digits; [lia|]. change (16 ^ Z.of_nat 16) with (2 ^ 64). exact H.
  - rewrite app_length, repeat_length. lia.
Qed.
Lemma digits_length b : 2 <= b -> forall k fuel v, (0 < k)%nat -> 0 <= v < b ^ Z.of_nat k -> (length (digits fuel b v) <= k)%nat.
Proof.
  intros Hb. induction k as [|k IH]; intros fuel v Hk Hv; [lia|].
  destruct fuel as [|f]; [cbn [digits length]; lia|]. cbn [digits]. rewrite app_length. cbn [length].
  destruct (v <? b) eqn:E; [cbn [length]; lia|].
  assert (k <> O) by (intros ->; change (b ^ Z.of_nat 1) with (b ^ 1) in Hv; rewrite Z.pow_1_r in Hv; lia).
  pose proof (IH f (v / b) ltac:(lia)) as G.
  assert (0 <= v / b < b ^ Z.of_nat k).
  { clear G IH E. rewrite Nat2Z.inj_succ, Z.pow_succ_r in Hv by lia.
    split; [apply Z.div_pos; lia|apply Z.div_lt_upper_bound; lia]. }
  specialize (G H0). clear - G. lia.
Qed.
Lemma hex8_length v : 0 <= v < 2 ^ 32 -> length (hex8 v) = 8%nat.
Proof.
  intros H. unfold hex8. rewrite app_length, repeat_length.
  pose proof (digits_length 16 ltac:(lia) 8 16 v ltac:(lia) ltac:(change (16 ^ Z.of_nat 8) with (2 ^ 32); exact H)). lia.
Qed.
Lemma positional_value b s v v' : positional b s v -> positional b s v' -> v = v'.
Proof.
  intros H. revert v'. induction H as [|s v c d H IH Hd Hl]; intros v' H'.
  - symmetry. exact (LogProofs.positional_nil_inv _ _ H').
  - apply LogProofs.positional_snoc_inv in H'. destruct H' as (u & d' & -> & Hu & Hd' & _).
    rewrite <- (IH u Hu). congruence.
Qed.
Lemma hex8_inj v v' : 0 <= v < 2 ^ 64 -> 0 <= v' < 2 ^ 64 -> hex8 v = hex8 v' -> v = v'.
Proof.
  intros H H' E. destruct (hex8_text v H) as [P _], (hex8_text v' H') as [P' _]. rewrite E in P.
  exact (positional_value _ _ _ _ P P').
Qed.

(** ** Commands *)
Lemma is_space_in c : is_space c = true <-> In c [9; 10; 12; 13; 32].
Proof. unfold is_space. cbn [In]. rewrite !orb_true_iff, !Z.eqb_eq. intuition. Qed.
Lemma skip_spaces_split l : exists a, blank a /\ l = a ++ skip_spaces l.
Proof.
  induction l as [|c r (a & Ha & E)]; [exists []; split; [constructor|reflexivity]|].
  cbn [skip_spaces]. destruct (is_space c) eqn:Ec.
  - exists (c :: a). split; [constructor; [now apply is_space_in|exact Ha]|cbn [app]; now rewrite <- E].
  - exists []. split; [constructor|reflexivity].
Qed.
Lemma skip_spaces_blank a l : blank a -> skip_spaces (a ++ l) = skip_spaces l.
Proof.
  induction a as [|c a IH]; intros H; [reflexivity|]. inversion H as [|x y Hc Ha]; subst.
  cbn [app skip_spaces]. apply is_space_in in Hc. rewrite Hc. apply IH, Ha.
Qed.
Lemma strip_ok w : forall l r, strip w l = Some r <-> l = w ++ r.
Proof.
  induction w as [|c w IH]; intros l r; cbn [strip app].
  - split; [intros E; now injection E|intros ->; reflexivity].
  - destruct l as [|d l]; [split; discriminate|]. destruct (c =? d) eqn:E.
    + apply Z.eqb_eq in E. subst d. rewrite IH. split; [intros ->; reflexivity|intros G; now injection G].
    + split; [discriminate|]. intros G. injection G as -> _. rewrite Z.eqb_refl in E. discriminate.
Qed.
Lemma command_ok c0 w input : is_space c0 = false ->
  command (c0 :: w) input = true <->
  exists a b c, blank a /\ blank b /\ b <> [] /\ blank c /\ input = a ++ (c0 :: w) ++ b ++ chars "info" ++ c.
Proof.
  intros H0. unfold command. split.
  - intros H. destruct (strip (c0 :: w) (skip_spaces input)) as [[|x r]|] eqn:E; try discriminate.
    apply andb_true_iff in H. destruct H as [Hx H].
    destruct (strip (chars "info") (skip_spaces r)) as [r2|] eqn:E2; [|discriminate].
    destruct (skip_spaces r2) eqn:E3; [|discriminate].
    apply strip_ok in E. apply strip_ok in E2.
    destruct (skip_spaces_split input) as (a & Ha & Ea), (skip_spaces_split r) as (b & Hb & Eb), (skip_spaces_split r2) as (c & Hc & Ec).
    exists a, (x :: b), c. split; [exact Ha|]. split; [constructor; [now apply is_space_in|exact Hb]|].
    split; [discriminate|]. split; [exact Hc|].
    rewrite Ea, E, Eb, E2, Ec, E3, app_nil_r. reflexivity.
  - intros (a & b & c & Ha & Hb & Hn & Hc & ->). rewrite skip_spaces_blank by exact Ha.
    change ((c0 :: w) ++ b ++ chars "info" ++ c) with (c0 :: (w ++ b ++ chars "info" ++ c)).
    cbn [skip_spaces]. rewrite H0. destruct b as [|x b]; [congruence|].
    assert (E : strip (c0 :: w) (c0 :: w ++ (x :: b) ++ chars "info" ++ c) = Some ((x :: b) ++ chars "info" ++ c)) by (apply strip_ok; reflexivity).
    rewrite E. cbn [app]. inversion Hb as [|y z Hx Hb']; subst. apply is_space_in in Hx. rewrite Hx. cbn [andb].
    rewrite skip_spaces_blank by exact Hb'.
    assert (K : strip (chars "info") (skip_spaces (chars "info" ++ c)) = Some c) by (change (chars "info") with [105; 110; 102; 111]; reflexivity).
    rewrite K. replace (skip_spaces c) with (@nil Z); [reflexivity|].
    rewrite <- (app_nil_r c), skip_spaces_blank by exact Hc. reflexivity.
Qed.
Lemma command_reg input : command (chars "reg") input = true <-> says "reg" input.
Proof. exact (command_ok 114 [101; 103] input eq_refl). Qed.
Lemma command_vreg input : command (chars "vreg") input = true <-> says "vreg" input.
Proof. exact (command_ok 118 [114; 101; 103] input eq_refl). Qed.

(** ** Listings *)
Lemma seq_listing P skipped (f : nat -> list Z) :
  forall n, (forall i, (i < n)%nat -> P i (f i) \/ (skipped i /\ f i = [])) ->
  listing P skipped n (flat_map f (seq 0 n)).
Proof.
  induction n as [|n IH]; intros H; [constructor|].
  rewrite seq_S, flat_map_app. cbn [flat_map Nat.add]. rewrite app_nil_r.
  assert (G : listing P skipped n (flat_map f (seq 0 n))) by (apply IH; intros i Hi; apply H; lia).
  destruct (H n ltac:(lia)) as [Hp|[Hs ->]].
  - now apply li_line.
  - rewrite app_nil_r. now apply li_skip.
Qed.
Lemma flat_map_inj (f g : nat -> list Z) l : (forall i, In i l -> length (f i) = length (g i)) ->
  flat_map f l = flat_map g l -> forall i, In i l -> f i = g i.
Proof.
  induction l as [|x l IH]; intros Hl E i Hi; [destruct Hi|]. cbn [flat_map] in E.
  assert (L : length (f x) = length (g x)) by (apply Hl; now left).
  assert (E1 : f x = g x).
  { apply (f_equal (firstn (length (f x)))) in E. rewrite firstn_app, firstn_all, Nat.sub_diag, firstn_O, app_nil_r in E.
    rewrite L, firstn_app, firstn_all, Nat.sub_diag, firstn_O, app_nil_r in E. exact E. }
  rewrite E1 in E. apply app_inv_head in E. destruct Hi as [<-|Hi]; [exact E1|].
  apply IH; [intros j Hj; apply Hl; now right|exact E|exact Hi].
Qed.

(** ** Colon-separated words *)
Lemma join_cons w w' r : join_words [] (w :: w' :: r) = hex8 w ++ [58] ++ join_words [] (w' :: r).
Proof. reflexivity. Qed.
Lemma join_words_ok l : l <> [] -> (forall w, In w l -> 0 <= w < 2 ^ 32) -> colon_words l (join_words [] l).
Proof.
  induction l as [|w l IH]; intros Hn H; [congruence|].
  assert (Hw : 0 <= w < 2 ^ 32) by (apply H; now left). destruct l as [|w' l].
  - cbn [join_words app]. rewrite app_nil_r. constructor; [apply hex8_text; lia|apply hex8_length; exact Hw].
  - rewrite join_cons. constructor; [apply hex8_text; lia|apply hex8_length; exact Hw|].
    apply IH; [discriminate|]. intros x Hx. apply H. now right.
Qed.
Lemma join_words_inj : forall l l', length l = length l' -> (forall w, In w l -> 0 <= w < 2 ^ 32) ->
  (forall w, In w l' -> 0 <= w < 2 ^ 32) -> join_words [] l = join_words [] l' -> l = l'.
Proof.
  induction l as [|w l IH]; intros [|w' l'] L H H' E; try discriminate; [reflexivity|].
  assert (Hw : 0 <= w < 2 ^ 32) by (apply H; now left). assert (Hw' : 0 <= w' < 2 ^ 32) by (apply H'; now left).
  assert (L8 : length (hex8 w) = length (hex8 w')) by (rewrite !hex8_length by assumption; reflexivity).
  assert (S : forall a b c d : list Z, length a = length b -> a ++ c = b ++ d -> a = b /\ c = d).
  { clear. induction a as [|x a IH]; intros [|y b] c d L E; try discriminate; [split; [reflexivity|exact E]|].
    cbn [app] in E. injection E as -> E. injection L as L. destruct (IH b c d L E) as [-> ->]. auto. }
  assert (E1 : w = w' /\ join_words (chars ":") l = join_words (chars ":") l').
  { cbn [join_words app] in E. destruct (S _ _ _ _ L8 E) as [E1 E2]. split; [|exact E2]. apply hex8_inj; lia || exact E1. }
  destruct E1 as [-> E1]. f_equal.
  destruct l as [|x l], l' as [|x' l']; try discriminate; [reflexivity|].
  apply IH; [cbn [length] in L |- *; congruence|intros y Hy; apply H; now right|intros y Hy; apply H'; now right|].
  change (join_words (chars ":") (x :: l)) with ([58] ++ join_words [] (x :: l)) in E1.
  change (join_words (chars ":") (x' :: l')) with ([58] ++ join_words [] (x' :: l')) in E1.
  now apply app_inv_head in E1.
Qed.
(** Words of a number. *)
Lemma of_words_inj n : forall x y, 0 <= x < 2 ^ (32 * Z.of_nat n) -> 0 <= y < 2 ^ (32 * Z.of_nat n) ->
  (forall j, (j < n)%nat -> (x / 2 ^ (32 * Z.of_nat j)) mod 2 ^ 32 = (y / 2 ^ (32 * Z.of_nat j)) mod 2 ^ 32) -> x = y.
Proof.
  induction n as [|n IH]; intros x y Hx Hy H.
  - change (2 ^ (32 * Z.of_nat 0)) with 1 in *. lia.
  - assert (E0 : x mod 2 ^ 32 = y mod 2 ^ 32).
    { specialize (H O ltac:(lia)). change (2 ^ (32 * Z.of_nat 0)) with 1 in H. rewrite !Z.div_1_r in H. exact H. }
    assert (P : 2 ^ (32 * Z.of_nat (S n)) = 2 ^ 32 * 2 ^ (32 * Z.of_nat n)) by (rewrite <- Z.pow_add_r by lia; f_equal; lia).
    assert (E1 : x / 2 ^ 32 = y / 2 ^ 32).
    { apply IH.
      - split; [apply Z.div_pos; lia|apply Z.div_lt_upper_bound; [lia|rewrite <- P; lia]].
      - split; [apply Z.div_pos; lia|apply Z.div_lt_upper_bound; [lia|rewrite <- P; lia]].
      - intros j Hj. specialize (H (S j) ltac:(lia)).
        replace (2 ^ (32 * Z.of_nat (S j))) with (2 ^ 32 * 2 ^ (32 * Z.of_nat j)) in H by (rewrite <- Z.pow_add_r by lia; f_equal; lia).
        rewrite <- !Z.div_div in H by lia. exact H. }
    rewrite (Z.div_mod x (2 ^ 32)), (Z.div_mod y (2 ^ 32)) by lia. rewrite E0, E1. reflexivity.
Qed.
Lemma of_words_map x : forall n, 0 <= x < 2 ^ (32 * Z.of_nat n) ->
  of_words (map (fun j => (x / 2 ^ (32 * Z.of_nat j)) mod 2 ^ 32) (seq 0 n)) = x.
Proof.
  intros n. revert x. induction n as [|n IH]; intros x Hx.
  - change (2 ^ (32 * Z.of_nat 0)) with 1 in Hx. cbn. lia.
  - cbn [seq map of_words fold_right]. rewrite <- seq_shift, map_map.
    assert (P : 2 ^ (32 * Z.of_nat (S n)) = 2 ^ 32 * 2 ^ (32 * Z.of_nat n)) by (rewrite <- Z.pow_add_r by lia; f_equal; lia).
    erewrite map_ext; [fold (of_words (map (fun j => (x / 2 ^ 32 / 2 ^ (32 * Z.of_nat j)) mod 2 ^ 32) (seq 0 n)))|].
    + unfold of_words in IH |- *. rewrite IH.
      * change (2 ^ (32 * Z.of_nat 0)) with 1. rewrite Z.div_1_r. rewrite Z.add_comm. symmetry. apply Z.div_mod. discriminate.
      * split; [apply Z.div_pos; lia|apply Z.div_lt_upper_bound; [lia|rewrite <- P; lia]].
    + intros j. cbv beta. f_equal. rewrite Z.div_div by lia. f_equal.
      rewrite <- Z.pow_add_r by lia. f_equal. lia.
Qed.

Section V1.
  Context {C : Type}.
  Variable exec : Z -> Z -> arch (C := C) -> (Z -> Z) -> effect (C := C).
  Variable evicted : Z -> Z -> bool.
  Variable reg_id : string -> option Z.
  Variable reg_size : Z -> Z.
  Variable csr_id : string -> option Z.
  Variable csr_set : Z -> Z -> C -> C.
  Variable boot : arch (C := C).
  Variable boot_pc : Z.
  Variable files : string -> option (list Z).
  Variable elf : list Z -> (Z -> Z) -> option (Z * (Z -> Z)).
  Variable secs : list Z.
  Notation ref := (ref exec).
  Notation ref_halt := (ref_halt exec).
  Notation reached := (reached exec).
  Notation main := (main exec evicted reg_id reg_size csr_id csr_set boot boot_pc files elf secs).
  Notation start := (start exec evicted reg_id reg_size csr_id csr_set secs).
  Notation batch := (batch exec).

  (** The core after [k] instructions of the program. *)
  Definition sim (m : mach (C := C)) (k : nat) (s : top (C := C)) : Prop :=
    t_halted s = false /\ t_bps s = [] /\ t_pc s = m_pc (ref k m) /\ t_arch s = m_arch (ref k m) /\ t_mem s = m_mem (ref k m) /\
    t_reason s = RNone /\ t_insts s = Z.of_nat k /\ t_cycles s = Z.of_nat k /\
    (forall a w, t_cache s a = Some w -> exists i, (i < k)%nat /\ m_pc (ref i m) = a /\ w = word_at (ref i m)).

  Lemma fetch_ok m k s : unmodified exec m -> reached m k -> sim m k s ->
    exists s', fetch evicted (m_pc (ref k m)) s = (word_at (ref k m), s') /\
      t_halted s' = false /\ t_bps s' = [] /\ t_arch s' = m_arch (ref k m) /\ t_mem s' = m_mem (ref k m) /\
      t_reason s' = RNone /\ t_insts s' = Z.of_nat k /\ t_cycles s' = Z.of_nat k /\
      (forall a w, t_cache s' a = Some w -> exists i, (i < S k)%nat /\ m_pc (ref i m) = a /\ w = word_at (ref i m)).
  Proof.
    intros U R (S1 & S2 & S3 & S4 & S5 & S6 & S7 & S8 & S9). unfold fetch.
    assert (D : (exists w, (if evicted (t_tick s) (m_pc (ref k m)) then None else t_cache s (m_pc (ref k m))) = Some w /\
                 t_cache s (m_pc (ref k m)) = Some w) \/
                (if evicted (t_tick s) (m_pc (ref k m)) then None else t_cache s (m_pc (ref k m))) = None).
    { destruct (evicted (t_tick s) (m_pc (ref k m))); [now right|].
      destruct (t_cache s (m_pc (ref k m))) as [w|] eqn:E; [left; exists w; auto|now right]. }
    destruct D as [(w & -> & Ec)| ->].
    - destruct (S9 _ _ Ec) as (i & Hi & Hp & ->). eexists. split.
      + f_equal. apply U; [lia|exact R|exact Hp].
      + cbn. repeat (split; [assumption|]). intros a w Ha. destruct (S9 a w Ha) as (j & Hj & G). exists j. split; [lia|exact G].
    - eexists. split.
      + unfold word_at. rewrite <- S5. reflexivity.
      + cbn. repeat (split; [assumption|]). intros a w. unfold upd1. destruct (a =? m_pc (ref k m)) eqn:E.
        * apply Z.eqb_eq in E. intros G. injection G as <-. exists k. split; [lia|]. split; [now rewrite E|].
          unfold word_at. now rewrite S5.
        * intros Ha. destruct (S9 a w Ha) as (j & Hj & G). exists j. split; [lia|exact G].
  Qed.

  Lemma reached_S m k : reached m (S k) <-> reached m k /\ ref_halt (ref k m) = None.
  Proof.
    unfold CliSpec.reached. split.
    - intros H. split; [intros i Hi; apply H; lia|apply H; lia].
    - intros [H1 H2] i Hi. destruct (Nat.eq_dec i k) as [->|N]; [exact H2|apply H1; lia].
  Qed.

  Lemma execute_ok m k s w : 0 <= m_pc (ref (S k) m) < 2 ^ 32 -> w = word_at (ref k m) ->
    t_halted s = false -> t_bps s = [] -> t_arch s = m_arch (ref k m) -> t_mem s = m_mem (ref k m) -> t_reason s = RNone ->
    let s' := execute exec w (m_pc (ref k m)) s in
    t_pc s' = m_pc (ref (S k) m) /\ t_arch s' = m_arch (ref (S k) m) /\ t_mem s' = m_mem (ref (S k) m) /\
    t_bps s' = [] /\ t_insts s' = t_insts s + 1 /\ t_cycles s' = t_cycles s + 1 /\ t_cache s' = t_cache s /\
    match ref_halt (ref k m) with
    | Some r => t_halted s' = true /\ t_reason s' = r
    | None => t_halted s' = false /\ t_reason s' = RNone
    end.
  Proof.
    intros Hp -> H1 H2 H3 H4 H5. cbn [TopSpec.ref] in Hp |- *. unfold ref_step, TopSpec.ref_halt in *. unfold execute.
    destruct (word_at (ref k m) =? ebreak) eqn:E.
    - cbn [m_pc m_arch m_mem] in *. unfold has_bp. cbn [set_pc set_pcv t_bps]. rewrite H2. cbn.
      unfold set_pc. repeat (split; [first [reflexivity|assumption]|]). auto.
    - cbn [m_pc m_arch m_mem] in *. cbn [set_pc set_pcv t_arch t_mem]. rewrite H3, H4.
      destruct (f_halt (exec (word_at (ref k m)) (m_pc (ref k m)) (m_arch (ref k m)) (m_mem (ref k m)))) as [r|].
      + unfold request_halt. destruct (reason_eqb r RSwBreakpoint || reason_eqb r RActionPoint); cbn; repeat (split; [first [reflexivity|assumption]|]); auto.
      + cbn. repeat (split; [first [reflexivity|assumption]|]). auto.
  Qed.

  Lemma reason_eqb_ok a b : reason_eqb a b = true <-> a = b.
  Proof.
    destruct a, b; cbn; split; intros H; try discriminate; try reflexivity; try (now injection H as ->; apply Z.eqb_refl).
    apply Z.eqb_eq in H. now subst.
  Qed.

  Lemma run_loop_ok m : unmodified exec m -> regular exec m -> forall fuel k s pc, reached m k -> sim m k s ->
    match run_loop exec evicted fuel pc (m_pc (ref k m)) s with
    | None => reached m (k + fuel)
    | Some (_, np, s') => exists n r, (k < n <= k + fuel)%nat /\ halts_at exec m n r /\ np = m_pc (ref n m) /\
        t_arch s' = m_arch (ref n m) /\ t_mem s' = m_mem (ref n m) /\ t_reason s' = r /\
        t_insts s' = Z.of_nat n /\ t_cycles s' = Z.of_nat n /\ t_bps s' = []
    end.
  Proof.
    intros U G. induction fuel as [|f IH]; intros k s pc R S; cbn [run_loop].
    - destruct S as (-> & _). cbn [negb]. now rewrite Nat.add_0_r.
    - assert (Hh : t_halted s = false) by apply S. rewrite Hh. cbn [negb].
      destruct (fetch_ok m k s U R S) as (s1 & E & F1 & F2 & F4 & F5 & F6 & F7 & F8 & F9).
      destruct (G k R) as [Gp Gr].
      pose proof (execute_ok m k s1 _ Gp eq_refl F1 F2 F4 F5 F6) as X. cbv zeta in X.
      unfold iteration. rewrite E. set (s2 := execute exec (word_at (ref k m)) (m_pc (ref k m)) s1) in *.
      destruct X as (X1 & X2 & X3 & X4 & X5 & X6 & X7 & X8).
      destruct (ref_halt (ref k m)) as [r|] eqn:Er.
      + destruct X8 as [Y1 Y2]. rewrite Y1. cbn [negb]. destruct (reason_eqb (t_reason s2) RActionPoint) eqn:Ea.
        * apply reason_eqb_ok in Ea. destruct (Gr r eq_refl) as [N _]. congruence.
        * exists (Datatypes.S k), r. split; [lia|]. split.
          { split; [lia|]. replace (Datatypes.S k - 1)%nat with k by lia. split; [exact R|exact Er]. }
          rewrite X5, X6, F7, F8. repeat (split; [first [assumption|lia]|]). assumption.
      + destruct X8 as [Y1 Y2]. rewrite Y1. cbn [negb]. rewrite X1.
        assert (R' : reached m (Datatypes.S k)) by (apply reached_S; auto).
        assert (S' : sim m (Datatypes.S k) s2).
        { unfold sim. rewrite X5, X6, F7, F8, X7. repeat (split; [first [assumption|lia]|]). exact F9. }
        pose proof (IH (Datatypes.S k) s2 (Some (m_pc (ref k m))) R' S') as I.
        destruct (run_loop exec evicted f (Some (m_pc (ref k m))) (m_pc (ref (Datatypes.S k) m)) s2) as [[[p np] s3]|].
        * destruct I as (n & r & Hn & I). exists n, r. split; [lia|exact I].
        * replace (k + Datatypes.S f)%nat with (Datatypes.S k + f)%nat by lia. exact I.
  Qed.

  (** A loaded core that has not run yet. *)
  Definition loaded (s : top (C := C)) : Prop :=
    t_arch s = boot /\ t_status s = Halted /\ t_reason s = RNone /\ t_halted s = false /\ t_need s = false /\
    t_bps s = [] /\ (forall a, t_cache s a = None) /\ t_insts s = 0 /\ t_cycles s = 0.

  Lemma magic_ok a b c d r : (forall x, In x (a :: b :: c :: d :: r) -> 0 <= x < 256) ->
    (a + 2 ^ 8 * b + 2 ^ 16 * c + 2 ^ 24 * d =? 0x464c457f) = true <-> elf_magic (a :: b :: c :: d :: r).
  Proof.
    intros H. pose proof (H a ltac:(cbn; auto)). pose proof (H b ltac:(cbn; auto)).
    pose proof (H c ltac:(cbn; auto)). pose proof (H d ltac:(cbn; auto)). rewrite Z.eqb_eq. unfold elf_magic. split.
    - intros E. exists r. cbn [app]. assert (a = 0x7f /\ b = 0x45 /\ c = 0x4c /\ d = 0x46) as (-> & -> & -> & ->) by lia. reflexivity.
    - intros (r' & E). cbn [app] in E. injection E as -> -> -> -> _. reflexivity.
  Qed.
  Definition byte_file (l : list Z) : Prop := forall x, In x l -> 0 <= x < 256.
  Lemma is_elf_ok name l : files name = Some l -> byte_file l -> (4 <= length l)%nat ->
    exists b, is_elf_file files name = Ok b /\ (b = true <-> elf_magic l).
  Proof.
    intros E B L. unfold is_elf_file. rewrite E. destruct l as [|a [|b [|c [|d r]]]]; cbn [length] in L; try lia.
    eexists. split; [reflexivity|]. apply magic_ok, B.
  Qed.

  (** Command lines that are refused. *)
  Lemma main_refused fuel f name : (files name = None \/ exists l, files name = Some l /\ byte_file l /\ (4 <= length l)%nat /\ ~ elf_magic l) ->
    (fl_i f = true \/ fl_interactive f = true -> main fuel f [name] = Ok (Refused [MNeedElf])) /\
    (fl_i f = false -> fl_interactive f = false -> fl_entry f = None -> main fuel f [name] = Ok (Refused [MNeedEntry])) /\
    (fl_i f = false -> fl_interactive f = false -> fl_entry f <> None -> files name = None -> main fuel f [name] = Ok (Refused [MLoad])).
  Proof.
    intros H. assert (E : is_elf_file files name = Ok false).
    { destruct H as [H|(l & H1 & H2 & H3 & H4)]; [unfold is_elf_file; now rewrite H|].
      destruct (is_elf_ok name l H1 H2 H3) as ([|] & Eb & Hb); [exfalso; apply H4; now apply Hb|exact Eb]. }
    unfold CliModel.main. rewrite E. cbn [bind negb andb]. split; [|split].
    - intros Hi. replace (fl_i f || fl_interactive f) with true by (destruct Hi as [-> | ->]; now rewrite ?orb_true_r). reflexivity.
    - intros -> -> ->. reflexivity.
    - intros -> -> Hn Hf. cbn [orb]. destruct (fl_entry f); [|congruence]. rewrite Hf. reflexivity.
  Qed.

  Variable pc_id : Z.
  Hypothesis Hpc : reg_id pc_name = Some pc_id.
  Hypothesis Hsize : reg_size pc_id = 4.

  Lemma write_pc_ok e s : loaded s -> 0 <= e < 2 ^ 32 ->
    write_register reg_id reg_size csr_id csr_set pc_name e s = (ROk, set_pcv e s).
  Proof.
    intros (L1 & L2 & L3 & L4 & L5 & L6 & L7 & L8 & L9) He. unfold write_register, guarded. rewrite L2, Hpc, L3. cbn [is_halted].
    rewrite (proj2 (String.eqb_eq pc_name pc_name) eq_refl). cbn [andb reason_eqb]. rewrite Hsize. cbn [size_ok Z.eqb orb Pos.eqb].
    rewrite Z.mod_small by (change (8 * 4) with 32; exact He). reflexivity.
  Qed.

  Lemma start_ok fuel inter log e s : loaded s -> 0 <= e < 2 ^ 32 ->
    unmodified exec (Mach e boot (t_mem s)) -> regular exec (Mach e boot (t_mem s)) ->
    match start fuel inter log e s with
    | Ok x => if inter then exists s', x = Shell log s' /\ at_start boot e (t_mem s) s'
              else batch boot e (t_mem s) secs fuel log x
    | _ => False
    end.
  Proof.
    intros L He U G. unfold CliModel.start. rewrite (write_pc_ok e s L He).
    destruct L as (L1 & L2 & L3 & L4 & L5 & L6 & L7 & L8 & L9).
    destruct inter.
    { eexists. split; [reflexivity|]. unfold at_start. cbn. repeat (split; [first [reflexivity|assumption]|]). assumption. }
    unfold run. cbn [set_pcv t_status t_need]. rewrite L2, L5. cbn [is_running].
    set (s1 := set_halted false (set_status Running _)).
    set (m := Mach e boot (t_mem s)) in *.
    assert (S : sim m 0 s1).
    { unfold sim, s1, m. cbn. repeat (split; [first [reflexivity|assumption]|]). intros a w Ha. rewrite L7 in Ha. discriminate. }
    assert (R : reached m 0) by (intros i Hi; lia).
    pose proof (run_loop_ok m U G fuel 0 s1 None R S) as X. change (m_pc (ref 0 m)) with (t_pc s1) in X.
    destruct (run_loop exec evicted fuel None (t_pc s1) s1) as [[[p np] s2]|].
    - destruct X as (n & r & Hn & Hh & -> & X1 & X2 & X3 & X4 & X5 & X6).
      destruct Hh as (Hn0 & Hr & Hh). destruct (G (n - 1)%nat Hr) as [Gp Gr].
      replace (Datatypes.S (n - 1)) with n in Gp by lia. destruct (Gr r Hh) as [_ N].
      destruct (reason_eqb (t_reason s2) RSwBreakpoint) eqn:E; [apply reason_eqb_ok in E; congruence|].
      cbn [CliSpec.batch]. exists n, r, (dec (Z.of_nat n mod 2 ^ 64)). split; [lia|]. split; [now split; [|split]|].
      split; [reflexivity|]. cbn [set_status set_pc set_pcv t_pc t_arch t_mem t_status t_reason t_insts t_cycles]. rewrite X5. rewrite Z.mod_small by exact Gp.
      repeat (split; [first [reflexivity|assumption]|]). split.
      + unfold dec. apply LogProofs.numeral_digits; [lia| |discriminate].
        change (10 ^ Z.of_nat 20) with 100000000000000000000.
        pose proof (Z.mod_pos_bound (Z.of_nat n) (2 ^ 64) ltac:(lia)). lia.
      + reflexivity.
    - cbn [CliSpec.batch]. split; [reflexivity|exact X].
  Qed.

  Lemma loaded_new m : loaded (set_mem m (new_top boot boot_pc)).
  Proof. unfold loaded. cbn. repeat (split; [reflexivity|]). reflexivity. Qed.
  Lemma load_chunks_loaded : forall fuel l a s, loaded s -> loaded (snd (load_chunks fuel l a s)).
  Proof.
    induction fuel as [|f IH]; intros l a s L; cbn [load_chunks]; [exact L|].
    destruct (Z.of_nat (length (firstn buffer_size l)) =? 0); [exact L|].
    assert (W : forall b, loaded (snd (write_memory a b s))).
    { intros b. unfold write_memory, guarded. destruct (is_halted (t_status s)); [|exact L].
      destruct (max_address <? a); [exact L|]. exact L. }
    destruct (write_memory a (firstn buffer_size l) s) as [r s'] eqn:E.
    assert (L' : loaded s') by (specialize (W (firstn buffer_size l)); rewrite E in W; exact W).
    destruct r; try exact L'.
    destruct (v =? Z.of_nat (length (firstn buffer_size l))); [|exact L'].
    destruct (Z.of_nat (length (firstn buffer_size l)) =? Z.of_nat buffer_size); [apply IH, L'|exact L'].
  Qed.
  Lemma load_image_loaded l a s : loaded s -> loaded (snd (load_image l a s)).
  Proof. intros L. destruct l as [l|]; [apply load_chunks_loaded, L|exact L]. Qed.

  (** ELF files. *)
  Lemma main_elf fuel f name l : files name = Some l -> byte_file l -> elf_magic l ->
    (forall e, fl_entry f = Some e -> 0 <= e < 2 ^ 32) ->
    match elf l (fun _ => 0) with
    | None => main fuel f [name] = Ok (Refused [MLoad])
    | Some (elf_entry, mem) =>
        let entry := match fl_entry f with Some e => e | None => elf_entry mod 2 ^ 32 end in
        let log := if elf_entry =? entry then [] else [MEntryDiffers elf_entry entry] in
        unmodified exec (Mach entry boot mem) -> regular exec (Mach entry boot mem) ->
        exists x, main fuel f [name] = Ok x /\
          if fl_i f || fl_interactive f then exists s, x = Shell log s /\ at_start boot entry mem s
          else batch boot entry mem secs fuel log x
    end.
  Proof.
    intros E B M He. unfold CliModel.main.
    assert (L : (4 <= length l)%nat) by (destruct M as (r & ->); rewrite app_length; cbn [length]; lia).
    destruct (is_elf_ok name l E B L) as (b & Eb & Hb). rewrite Eb. cbn [bind].
    rewrite (proj2 Hb M). cbn [negb andb]. rewrite E. cbn [new_top fresh t_mem].
    destruct (elf l (fun _ => 0)) as [[ee mem]|]; [|reflexivity].
    cbv zeta. set (entry := match fl_entry f with Some e => e | None => ee end mod 2 ^ 32).
    assert (E1 : match fl_entry f with Some e => e | None => ee mod 2 ^ 32 end = entry).
    { unfold entry. destruct (fl_entry f) as [e|]; [|reflexivity]. rewrite Z.mod_small by (apply He; reflexivity). reflexivity. }
    rewrite E1. intros U G.
    pose proof (start_ok fuel (fl_i f || fl_interactive f) (if ee =? entry then [] else [MEntryDiffers ee entry]) entry
      (set_mem mem (new_top boot boot_pc)) (loaded_new mem) ltac:(apply Z.mod_pos_bound; lia) U G) as X.
    destruct (start fuel (fl_i f || fl_interactive f) _ entry (set_mem mem (new_top boot boot_pc))) as [x|k|]; [|destruct X..].
    exists x. split; [reflexivity|]. exact X.
  Qed.

  (** Raw images. *)
  Lemma main_image fuel f name l e : files name = Some l -> byte_file l -> (4 <= length l)%nat -> ~ elf_magic l ->
    fl_i f = false -> fl_interactive f = false -> fl_entry f = Some e -> 0 <= e < 2 ^ 32 -> 0 <= fl_offset f < 2 ^ 32 ->
    if fl_offset f + Z.of_nat (length l) <=? 0x400000 then
      exists mem, (forall x, mem x = if (fl_offset f <=? x) && (x <? fl_offset f + Z.of_nat (length l))
                                     then nth (Z.to_nat (x - fl_offset f)) l 0 else 0) /\
        (unmodified exec (Mach e boot mem) -> regular exec (Mach e boot mem) ->
         exists x, main fuel f [name] = Ok x /\ batch boot e mem secs fuel [] x)
    else main fuel f [name] = Ok (Refused [MLoad]).
  Proof.
    intros E B L M Hi1 Hi2 Ee He Ho. unfold CliModel.main.
    destruct (is_elf_ok name l E B L) as (b & Eb & Hb). rewrite Eb. cbn [bind].
    destruct b; [exfalso; apply M; now apply Hb|]. rewrite Hi1, Hi2. cbn [negb andb orb]. rewrite Ee, E.
    destruct (TopProofs4.load_image_ok l (fl_offset f) (new_top boot boot_pc) eq_refl ltac:(lia)) as (s' & El & Em & _).
    rewrite El. replace (Z.of_nat (length l) =? 0) with false by lia. cbn [orb].
    change (max_address + 1) with 0x400000.
    destruct (fl_offset f + Z.of_nat (length l) <=? 0x400000) eqn:Ef; [|reflexivity].
    exists (t_mem s'). split.
    - intros x. rewrite Em. unfold written. change max_address with 0x3fffff.
      destruct ((fl_offset f <=? x) && (x <? fl_offset f + Z.of_nat (length l))) eqn:Ex; [|reflexivity].
      replace (x <=? 0x3fffff) with true by lia. reflexivity.
    - intros U G. assert (Ls : loaded s').
      { pose proof (load_image_loaded (Some l) (fl_offset f) (new_top boot boot_pc) (loaded_new _)) as X.
        rewrite El in X. exact X. }
      pose proof (start_ok fuel false [] e s' Ls He U G) as X.
      destruct (start fuel false [] e s') as [x|k|]; [|destruct X..]. exists x. split; [reflexivity|exact X].
  Qed.

End V1.

(** ** Listings *)
Section Listings.
  Context {C : Type}.
  Variable reg_id : string -> option Z.
  Variable reg_size : Z -> Z.
  Variable csr_id : string -> option Z.
  Variable csr_get : Z -> C -> Z.
  Lemma read_range name v s s' : read_register reg_id reg_size csr_id csr_get name s = (RVal v, s') -> 0 <= v < 2 ^ 64.
  Proof.
    unfold read_register, guarded. destruct (is_halted (t_status s)); [|discriminate].
    destruct (reg_id name) as [i|].
    - destruct (size_ok (reg_size i)) eqn:E; [|discriminate]. intros H. injection H as <- _.
      assert (D : reg_size i = 1 \/ reg_size i = 2 \/ reg_size i = 4 \/ reg_size i = 8) by (unfold size_ok in E; lia).
      generalize (reg_value name i s). intros z.
      destruct D as [-> |[-> |[-> | ->]]]; [change (2 ^ (8 * 1)) with 256|change (2 ^ (8 * 2)) with 65536|change (2 ^ (8 * 4)) with (2 ^ 32)|change (2 ^ (8 * 8)) with (2 ^ 64)];
        match goal with |- _ <= ?z mod ?k < _ => pose proof (Z.mod_pos_bound z k ltac:(lia)) as B; generalize dependent (z mod k); intros; lia end.
    - destruct (csr_id name); [|discriminate]. intros H. injection H as <- _.
      match goal with |- _ <= ?z mod ?k < _ => pose proof (Z.mod_pos_bound z k ltac:(lia)) as B; generalize dependent (z mod k); intros; lia end.
  Qed.
  Notation read name s := (fst (read_register reg_id reg_size csr_id csr_get name s)).
  Lemma reg_info input s :
    match print_registers reg_id reg_size csr_id csr_get input s with
    | Some text => says "reg" input /\
        listing (fun i t => exists v d, read (reg_name "x" i) s = RVal v /\ hex_text v d /\ line_of (nth i aliases ""%string) d t)
                (fun i => forall v, read (reg_name "x" i) s <> RVal v) 32 text
    | None => ~ says "reg" input
    end.
  Proof.
    unfold print_registers. destruct (command (chars "reg") input) eqn:E.
    - split; [now apply command_reg|]. apply seq_listing. intros i Hi. unfold reg_line.
      destruct (read_register reg_id reg_size csr_id csr_get (reg_name "x" i) s) as [r s'] eqn:Er.
      destruct r; [right; split; [discriminate|reflexivity]|left|right; split; [discriminate|reflexivity]..].
      exists v, (hex8 v). split; [reflexivity|]. split; [apply hex8_text; exact (read_range _ _ _ _ Er)|]. reflexivity.
    - intros H. apply command_reg in H. congruence.
  Qed.
  (** The text gives the values of the 32-bit registers back. *)
  Lemma reg_info_inj input s s' text : t_status s = Halted -> t_status s' = Halted ->
    (forall i, (i < 32)%nat -> exists r, reg_id (reg_name "x" i) = Some r /\ reg_size r = 4) ->
    print_registers reg_id reg_size csr_id csr_get input s = Some text ->
    print_registers reg_id reg_size csr_id csr_get input s' = Some text ->
    forall i, (i < 32)%nat -> read (reg_name "x" i) s = read (reg_name "x" i) s'.
  Proof.
    intros H1 H2 Hr E1 E2 i Hi. unfold print_registers in E1, E2. destruct (command (chars "reg") input); [|discriminate].
    injection E1 as E1. injection E2 as E2.
    assert (V : forall i s, (i < 32)%nat -> t_status s = Halted -> exists v, 0 <= v < 2 ^ 32 /\
      read_register reg_id reg_size csr_id csr_get (reg_name "x" i) s = (RVal v, s)).
    { clear - Hr. intros i s Hi Hs. destruct (Hr i Hi) as (r & Er & Sr).
      eexists. split; [|unfold read_register, guarded; rewrite Hs, Er, Sr; reflexivity]. change (2 ^ (8 * 4)) with (2 ^ 32). apply Z.mod_pos_bound. lia. }
    assert (G : reg_line reg_id reg_size csr_id csr_get s i = reg_line reg_id reg_size csr_id csr_get s' i).
    { refine (flat_map_inj _ _ (seq 0 32) _ (eq_trans E1 (eq_sym E2)) i _); [|apply in_seq; lia].
      intros j Hj. apply in_seq in Hj. unfold reg_line. destruct (V j s ltac:(lia) H1) as (v & Hv & ->), (V j s' ltac:(lia) H2) as (v' & Hv' & ->).
      rewrite !app_length, !hex8_length by assumption. reflexivity. }
    unfold reg_line in G. destruct (V i s Hi H1) as (v & Hv & Ev), (V i s' Hi H2) as (v' & Hv' & Ev').
    rewrite Ev, Ev' in G |- *. cbn [fst]. apply app_inv_head in G. apply app_inv_head in G. apply app_inv_head in G.
    apply app_inv_tail in G. f_equal. apply hex8_inj; lia || exact G.
  Qed.

End Listings.
Section VListings.
  Context {C : Type}.
  Variable reg_id : string -> option Z.
  Lemma vreg_info input (s : top (C := C)) : t_status s = Halted ->
    (forall i r, (i < 64)%nat -> reg_id (reg_name "v" i) = Some r -> 0 <= a_regs (t_arch s) r < 2 ^ 256) ->
    match print_vector_registers reg_id input s with
    | Some text => says "vreg" input /\
        listing (fun i t => exists r l d, reg_id (reg_name "v" i) = Some r /\ length l = 8%nat /\
                   of_words l = a_regs (t_arch s) r /\ colon_words l d /\ line_of (reg_name "v" i) d t)
                (fun i => reg_id (reg_name "v" i) = None) 64 text
    | None => ~ says "vreg" input
    end.
  Proof.
    intros Hs Hr. unfold print_vector_registers. destruct (command (chars "vreg") input) eqn:E.
    - split; [now apply command_vreg|]. apply seq_listing. intros i Hi. unfold vreg_line, buffer_words. rewrite Hs. cbn [is_halted].
      destruct (reg_id (reg_name "v" i)) as [r|] eqn:Er; [left|right; split; reflexivity].
      set (l := map _ _). exists r, l, (join_words [] l). split; [reflexivity|].
      split; [reflexivity|]. split; [apply of_words_map; exact (Hr i r Hi Er)|].
      split; [|reflexivity]. apply join_words_ok; [discriminate|].
      intros w Hw. apply in_map_iff in Hw. destruct Hw as (j & <- & _). apply Z.mod_pos_bound. lia.
    - intros H. apply command_vreg in H. congruence.
  Qed.
  Lemma vreg_info_inj input (s s' : top (C := C)) text : t_status s = Halted -> t_status s' = Halted ->
    (forall i r, (i < 64)%nat -> reg_id (reg_name "v" i) = Some r ->
       0 <= a_regs (t_arch s) r < 2 ^ 256 /\ 0 <= a_regs (t_arch s') r < 2 ^ 256) ->
    print_vector_registers reg_id input s = Some text -> print_vector_registers reg_id input s' = Some text ->
    forall i r, (i < 64)%nat -> reg_id (reg_name "v" i) = Some r -> a_regs (t_arch s) r = a_regs (t_arch s') r.
  Proof.
    intros H1 H2 Hr E1 E2 i r Hi Er. unfold print_vector_registers in E1, E2. destruct (command (chars "vreg") input); [|discriminate].
    injection E1 as E1. injection E2 as E2.
    assert (JL : forall l sep, (forall w, In w l -> 0 <= w < 2 ^ 32) -> length (join_words sep l) = (length (join_words sep (map (fun _ => 0%Z) l)))).
    { clear. induction l as [|w l IH]; intros sep H; [reflexivity|]. cbn [join_words map]. rewrite !app_length.
      rewrite (IH (chars ":")) by (intros x Hx; apply H; now right). rewrite !hex8_length by (lia || (apply H; now left)). reflexivity. }
    assert (W : forall (f : nat -> Z) w, In w (map (fun j => f j mod 2 ^ 32) (seq 0 8)) -> 0 <= w < 2 ^ 32).
    { intros f w Hw. apply in_map_iff in Hw. destruct Hw as (j & <- & _). apply Z.mod_pos_bound. lia. }
    assert (JL2 : forall f : nat -> Z, length (join_words [] (map (fun j => f j mod 2 ^ 32) (seq 0 8))) = length (join_words [] (map (fun _ => 0%Z) (seq 0 8)))).
    { intros f. rewrite JL by apply W. now rewrite map_map. }
    assert (G : vreg_line reg_id s i = vreg_line reg_id s' i).
    { refine (flat_map_inj _ _ (seq 0 64) _ (eq_trans E1 (eq_sym E2)) i _); [|apply in_seq; lia].
      intros j Hj. unfold vreg_line, buffer_words. rewrite H1, H2. cbn [is_halted].
      destruct (reg_id (reg_name "v" j)) as [q|]; [|reflexivity]. rewrite !app_length.
      rewrite (JL2 (fun j => a_regs (t_arch s) q / 2 ^ (32 * Z.of_nat j))), (JL2 (fun j => a_regs (t_arch s') q / 2 ^ (32 * Z.of_nat j))). reflexivity. }
    unfold vreg_line, buffer_words in G. rewrite H1, H2 in G. cbn [is_halted] in G. rewrite Er in G.
    apply app_inv_head in G. apply app_inv_head in G. apply app_inv_head in G. apply app_inv_head in G. apply app_inv_tail in G.
    apply join_words_inj in G; [|reflexivity|apply W|apply W].
    destruct (Hr i r Hi Er) as [B1 B2]. apply (of_words_inj 8 _ _ B1 B2). intros j Hj.
    assert (I : In j (seq 0 8)) by (apply in_seq; lia). revert j I Hj. clear - G.
    intros j I _. assert (X := ext_in_map G). exact (X j I).
  Qed.
End VListings.

(** ** Names *)
Lemma dec_string_ok k : (k < 100)%nat -> numeral 10 (Z.of_nat k) (chars (dec_string k)).
Proof.
  intros H. replace (chars (dec_string k)) with (digits 3 10 (Z.of_nat k)).
  - apply LogProofs.numeral_digits; [lia|change (10 ^ Z.of_nat 3) with 1000; lia|discriminate].
  - do 100 (destruct k as [|k]; [vm_compute; reflexivity|]). lia.
Qed.
Lemma chars_app a b : chars (a ++ b)%string = (chars a ++ chars b)%list.
Proof. induction a as [|c a IH]; [reflexivity|]. cbn [chars String.append app]. now rewrite IH. Qed.
Lemma reg_name_ok p k : (k < 100)%nat -> named p k (reg_name p k).
Proof. intros H. exists (chars (dec_string k)). split; [apply chars_app|now apply dec_string_ok]. Qed.
Lemma aliases_ok i : (i < 32)%nat -> abi i (nth i aliases ""%string).
Proof.
  intros H.
  do 5 (destruct i as [|i]; [left; cbn [In nth aliases]; auto 10|]).
  do 3 (destruct i as [|i]; [right; match goal with |- exists k, (named _ k ?n /\ (?j = _ /\ _ \/ _)) \/ _ => exists (j - 5)%nat; left; (split; [apply (reg_name_ok "t"); lia|lia]) end|]).
  do 2 (destruct i as [|i]; [right; match goal with |- exists k, (named _ k ?n /\ (?j = _ /\ _ \/ _)) \/ _ => exists (j - 8)%nat; right; left; (split; [apply (reg_name_ok "s"); lia|lia]) end|]).
  do 8 (destruct i as [|i]; [right; match goal with |- exists k, (named _ k ?n /\ (?j = _ /\ _ \/ _)) \/ _ => exists (j - 10)%nat; right; right; (split; [apply (reg_name_ok "a"); lia|lia]) end|]).
  do 10 (destruct i as [|i]; [right; match goal with |- exists k, (named _ k ?n /\ (?j = _ /\ _ \/ _)) \/ _ => exists (j - 16)%nat; right; left; (split; [apply (reg_name_ok "s"); lia|lia]) end|]).
  do 4 (destruct i as [|i]; [right; match goal with |- exists k, (named _ k ?n /\ (?j = _ /\ _ \/ _)) \/ _ => exists (j - 25)%nat; left; (split; [apply (reg_name_ok "t"); lia|lia]) end|]).
  lia.
Qed.
