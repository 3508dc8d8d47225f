(** * Proofs about the log instructions and scalar stores *)
From Coq Require Import ZArith List Bool Lia ZifyBool ZifyNat.
From Verif Require Import CInt VecModel MemModel LogModel LogSpec.
Import ListNotations.
Open Scope Z_scope.
Ltac Zify.zify_post_hook ::= Z.div_mod_to_equations.

(** ** Bytes *)
Lemma land255 w k : 0 <= k -> Z.land (Z.shiftr w k) 255 = (w / 2 ^ k) mod 256.
Proof. intro H. rewrite Z.shiftr_div_pow2 by exact H. apply (Z.land_ones _ 8). lia. Qed.
Lemma word_has_zero_ok w : word_has_zero w = existsb (fun c => c =? 0) (bytes4 w).
Proof.
  unfold word_has_zero, bytes4. rewrite !land255 by lia.
  change (Z.land w 255) with (Z.land w (Z.ones 8)). rewrite Z.land_ones by lia.
  change (2 ^ 24) with 16777216. change (2 ^ 16) with 65536. change (2 ^ 8) with 256.
  cbn [existsb]. destruct (w mod 256 =? 0), ((w / 256) mod 256 =? 0), ((w / 65536) mod 256 =? 0),
    ((w / 16777216) mod 256 =? 0); reflexivity.
Qed.
Lemma bytes4_le m a : (forall x, 0 <= m x < 256) ->
  bytes4 (le m a 4) = [m a; m (a + 1); m (a + 2); m (a + 3)].
Proof.
  intro H. unfold bytes4. cbn [le].
  replace (a + 1 + 1) with (a + 2) by lia. replace (a + 2 + 1) with (a + 3) by lia.
  pose proof (H a). pose proof (H (a + 1)). pose proof (H (a + 2)). pose proof (H (a + 3)).
  repeat f_equal; lia.
Qed.
Lemma find0_nat (l : list Z) k : (k < length l)%nat -> nth k l 0 = 0 ->
  (forall i, (i < k)%nat -> nth i l 0 <> 0) -> find0 l = Some k.
Proof.
  revert k. induction l as [|c l IH]; intros k Hk Hz Hn; cbn [length] in Hk; [lia|].
  cbn [find0]. destruct k as [|k].
  - cbn [nth] in Hz. subst c. reflexivity.
  - pose proof (Hn O ltac:(lia)) as H0. cbn [nth] in H0. replace (c =? 0) with false by lia.
    rewrite (IH k); [reflexivity| lia | exact Hz |]. intros i Hi. apply (Hn (S i)). lia.
Qed.
Lemma find0_none (l : list Z) : no_nul l -> find0 l = None.
Proof.
  induction 1 as [|c l Hc _ IH]; [reflexivity|]. cbn [find0].
  replace (c =? 0) with false by lia. rewrite IH. reflexivity.
Qed.

(** ** Loading a string *)
Definition window (m : Z -> Z) (a : Z) (n : nat) : list Z := map (fun i => m (a + Z.of_nat i)) (seq 0 n).
Lemma window_app m a n k : window m a (n + k) = window m a n ++ window m (a + Z.of_nat n) k.
Proof.
  unfold window. rewrite seq_app, map_app. f_equal. cbn [plus].
  replace (seq n k) with (map (fun i => (n + i)%nat) (seq 0 k)).
  - rewrite map_map. apply map_ext. intro i. f_equal. lia.
  - clear. revert n. induction k as [|k IH]; intro n; [reflexivity|]. cbn [seq map]. f_equal; [lia|].
    rewrite <- seq_shift, map_map, <- (IH (S n)). apply map_ext. intro. lia.
Qed.
Lemma window4 m a : window m a 4 = [m a; m (a + 1); m (a + 2); m (a + 3)].
Proof. unfold window. cbn [seq map]. repeat f_equal; lia. Qed.
Lemma window_length m a n : length (window m a n) = n.
Proof. unfold window. rewrite map_length, seq_length. reflexivity. Qed.
Lemma window_nth m a n i : (i < n)%nat -> nth i (window m a n) 0 = m (a + Z.of_nat i).
Proof.
  intro H. unfold window. rewrite (nth_indep _ 0 (m (a + Z.of_nat 0))) by (rewrite map_length, seq_length; lia).
  rewrite (map_nth (fun i => m (a + Z.of_nat i))). rewrite seq_nth by exact H. reflexivity.
Qed.
Lemma existsb_window4 m a : existsb (fun c => c =? 0) [m a; m (a + 1); m (a + 2); m (a + 3)] =
  existsb (fun i => m (a + i) =? 0) [0; 1; 2; 3].
Proof. cbn [existsb]. rewrite Z.add_0_r. reflexivity. Qed.

Lemma wrap_u32 x : wrap U32 x = x mod 2 ^ 32.
Proof. reflexivity. Qed.

Lemma load_loop_ok : forall q fuel e a data acc, sane e -> 0 <= a ->
  (forall i, 0 <= i < 4 * Z.of_nat q -> e_mem e (a + i) <> 0) ->
  (exists i, 4 * Z.of_nat q <= i < 4 * Z.of_nat q + 4 /\ e_mem e (a + i) = 0) ->
  a + 4 * Z.of_nat q + 3 <= e_max e -> a + 4 * Z.of_nat q + 3 < 2 ^ 32 -> (q < fuel)%nat ->
  load_loop fuel e a data acc = Some (acc ++ window (e_mem e) a (4 * (q + 1))).
Proof.
  induction q as [|q IH]; intros fuel e a data acc [Hb Hf] Ha Hn [z [Hz Hz0]] Hmax H32 Hfuel;
    (destruct fuel as [|fuel]; [lia|]); cbn [load_loop];
    rewrite (Hf a) by lia; rewrite word_has_zero_ok, bytes4_le by exact Hb; rewrite existsb_window4.
  - replace (existsb (fun i => e_mem e (a + i) =? 0) [0; 1; 2; 3]) with true.
    + cbn [negb andb]. change (4 * (0 + 1))%nat with 4%nat. rewrite window4. reflexivity.
    + symmetry. apply existsb_exists. exists z. split; [|lia]. cbn [In].
      assert (z = 0 \/ z = 1 \/ z = 2 \/ z = 3) by lia. intuition.
  - replace (existsb (fun i => e_mem e (a + i) =? 0) [0; 1; 2; 3]) with false.
    + cbn [negb andb]. rewrite wrap_u32, Z.mod_small by lia.
      replace (a + 4 <? e_max e) with true by lia.
      rewrite (IH fuel e (a + 4)); [| split; assumption | lia | | | lia | lia | lia].
      * rewrite <- app_assoc. f_equal. f_equal.
        replace (4 * (S q + 1))%nat with (4 + 4 * (q + 1))%nat by lia.
        rewrite window_app, window4. reflexivity.
      * intros i Hi. rewrite <- Z.add_assoc. apply Hn. lia.
      * exists (z - 4). split; [lia|]. rewrite <- Hz0. f_equal. lia.
    + symmetry. apply not_true_iff_false. intro H. apply existsb_exists in H.
      destruct H as [i [Hi H]]. cbn [In] in Hi. apply (Hn i); [|lia].
      destruct Hi as [<-|[<-|[<-|[<-|[]]]]]; lia.
Qed.

Lemma firstn_window m a n k : (k <= n)%nat -> firstn k (window m a n) = window m a k.
Proof.
  intro H. replace n with (k + (n - k))%nat by lia. rewrite window_app, firstn_app, window_length.
  rewrite Nat.sub_diag. cbn [firstn]. rewrite app_nil_r. apply firstn_all2. rewrite window_length. lia.
Qed.
Lemma cstring_window m a s : cstring m a s -> s = window m a (length s).
Proof.
  intros [_ [H _]]. apply (nth_ext _ _ 0 0); [rewrite window_length; reflexivity|].
  intros i Hi. rewrite window_nth by exact Hi. apply H, Hi.
Qed.
Lemma no_nul_nth s i : no_nul s -> (i < length s)%nat -> nth i s 0 <> 0.
Proof. intros H Hi. unfold no_nul in H. rewrite Forall_forall in H. apply H, nth_In, Hi. Qed.

Theorem string_load_ok fuel e a s : sane e -> cstring (e_mem e) (a mod 2 ^ 32) s ->
  inside e (a mod 2 ^ 32) (length s) -> (length s < fuel)%nat ->
  string_load fuel e a = Some (Ok s).
Proof.
  intros Hs Hc Hi Hfuel. unfold string_load. rewrite wrap_u32. set (b := a mod 2 ^ 32) in *.
  destruct Hi as [Hb [Hm H32]]. pose proof Hc as [Hn [Hn1 Hz]].
  set (q := (length s / 4)%nat).
  assert (Hq : (length s = 4 * q + length s mod 4)%nat /\ (length s mod 4 < 4)%nat)
    by (split; [apply Nat.div_mod; discriminate | apply Nat.mod_upper_bound; discriminate]).
  assert (Hqz : Z.of_nat (length s) / 4 = Z.of_nat q) by lia.
  rewrite Hqz in *.
  rewrite (load_loop_ok q); [| exact Hs | exact Hb | | | lia | lia | lia].
  - cbn [option_map app]. unfold trim. rewrite (find0_nat _ (length s)).
    + rewrite firstn_window by lia. rewrite <- (cstring_window _ _ _ Hc). reflexivity.
    + rewrite window_length. lia.
    + rewrite window_nth by lia. exact Hz.
    + intros i Hi. rewrite window_nth by lia. rewrite <- Hn1 by exact Hi. apply no_nul_nth; assumption.
  - intros i Hi. replace i with (Z.of_nat (Z.to_nat i)) by lia. rewrite <- Hn1 by lia.
    apply no_nul_nth; [exact Hn | lia].
  - exists (Z.of_nat (length s)). split; [lia | exact Hz].
Qed.

(** No terminator below the limit: the process dies. *)
Theorem string_load_none e a : sane e -> (forall x, e_max e < x + 3 -> e_fault e x = true) ->
  0 <= a -> a + 3 <= e_max e -> e_max e + 8 < 2 ^ 32 ->
  (forall x, a <= x -> x <= e_max e -> e_mem e x <> 0) ->
  exists n, forall fuel, (n < fuel)%nat -> string_load fuel e a = Some Crash.
Proof.
  intros [Hb Hf] Hflt Ha Hin H32 Hz. exists (Z.to_nat (e_max e)). intros fuel Hfuel.
  unfold string_load. rewrite wrap_u32, Z.mod_small by lia.
  assert (G : forall n fuel a data acc, 0 <= a -> no_nul acc -> e_max e < a + 4 * Z.of_nat n ->
    (n <= fuel)%nat -> (forall x, a <= x -> x <= e_max e -> e_mem e x <> 0) ->
    no_nul (bytes4 data) \/ a + 3 <= e_max e -> a < e_max e ->
    exists l, load_loop fuel e a data acc = Some l /\ no_nul l).
  { clear - Hb Hf Hflt H32. induction n as [|n IH];
      intros fuel a data acc Ha Hacc Hn Hfuel Hz Hin Hal; [lia|].
    destruct fuel as [|fuel]; [lia|]. cbn [load_loop].
    set (data' := if e_fault e a then data else le (e_mem e) a 4).
    assert (N : no_nul (bytes4 data')).
    { unfold data'. destruct (Z_le_gt_dec (a + 3) (e_max e)).
      - rewrite Hf by lia. rewrite bytes4_le by exact Hb.
        repeat constructor; apply Hz; lia.
      - rewrite Hflt by lia. destruct Hin as [H|H]; [exact H | lia]. }
    clearbody data'. rewrite word_has_zero_ok.
    replace (existsb (fun c => c =? 0) (bytes4 data')) with false.
    2: { symmetry. apply not_true_iff_false. intro H. apply existsb_exists in H. destruct H as [c [Hc H]].
         unfold no_nul in N. rewrite Forall_forall in N. apply (N c Hc). lia. }
    assert (N' : no_nul (acc ++ bytes4 data')) by (apply Forall_app; split; assumption).
    cbn [negb andb]. rewrite wrap_u32, Z.mod_small by lia. destruct (a + 4 <? e_max e) eqn:E.
    - apply IH; [lia | exact N' | lia | lia | | left; exact N | lia]. intros x H1 H2. apply Hz; lia.
    - eexists. split; [reflexivity | exact N']. }
  destruct (G (Z.to_nat (e_max e) + 1)%nat fuel a (e_junk e) []) as [l [-> Hl]];
    [exact Ha | constructor | lia | lia | exact Hz | right; exact Hin | lia |].
  cbn [option_map]. unfold trim. rewrite find0_none by exact Hl. reflexivity.
Qed.

(** ** Numerals *)
Lemma digit_value_digit d : 0 <= d < 16 -> digit_value (digit d) = Some d.
Proof.
  intro H. unfold digit, digit_value. destruct (d <? 10) eqn:E.
  - replace ((48 <=? 48 + d) && (48 + d <=? 57)) with true by lia. f_equal. lia.
  - replace ((48 <=? 87 + d) && (87 + d <=? 57)) with false by lia.
    replace ((97 <=? 87 + d) && (87 + d <=? 102)) with true by lia. f_equal. lia.
Qed.
Lemma digit_48 d : 0 <= d -> digit d = 48 -> d = 0.
Proof. unfold digit. destruct (d <? 10) eqn:E; lia. Qed.
Lemma positional_digits b fuel : forall v, 2 <= b <= 16 -> 0 <= v < b ^ Z.of_nat fuel ->
  positional b (digits fuel b v) v.
Proof.
  induction fuel as [|f IH]; intros v Hb Hv.
  - change (b ^ Z.of_nat 0) with 1 in Hv. replace v with 0 by lia. constructor.
  - cbn [digits]. assert (H1 : 0 <= v mod b < b) by (apply Z.mod_pos_bound; lia).
    assert (Hd : v = v / b * b + v mod b) by (rewrite (Z.mul_comm (v / b)); apply Z.div_mod; lia).
    assert (P : positional b ((if v <? b then [] else digits f b (v / b)) ++ [digit (v mod b)])
                  (v / b * b + v mod b)); [|rewrite <- Hd in P; exact P].
    constructor; [| apply digit_value_digit; lia | lia]. clear Hd.
    destruct (v <? b) eqn:E.
    + replace (v / b) with 0 by (symmetry; apply Z.div_small; lia). constructor.
    + apply IH; [exact Hb|]. split; [apply Z.div_pos; lia|].
      apply Z.div_lt_upper_bound; [lia|]. rewrite Nat2Z.inj_succ, Z.pow_succ_r in Hv by lia. lia.
Qed.
Lemma digits_nonempty b fuel v : fuel <> O -> digits fuel b v <> [].
Proof. destruct fuel; [congruence|]. intros _ H. cbn [digits] in H. destruct (v <? b), (digits fuel b (v / b)); discriminate. Qed.
Lemma digits_hd b fuel : forall v, 2 <= b <= 16 -> 0 <= v < b ^ Z.of_nat fuel -> fuel <> O ->
  hd 0 (digits fuel b v) = 48 -> v = 0.
Proof.
  induction fuel as [|f IH]; intros v Hb Hv Hf; [congruence|].
  assert (H1 : 0 <= v mod b < b) by (apply Z.mod_pos_bound; lia).
  cbn [digits]. destruct (v <? b) eqn:E.
  - cbn [app hd]. intro H. apply digit_48 in H; [|lia]. rewrite Z.mod_small in H by lia. exact H.
  - intro H. rewrite Nat2Z.inj_succ, Z.pow_succ_r in Hv by lia.
    assert (Hq : 1 <= v / b) by (apply Z.div_le_lower_bound; lia).
    assert (Hu : v / b < b ^ Z.of_nat f) by (apply Z.div_lt_upper_bound; lia).
    assert (f <> O) by (intro; subst f; change (b ^ Z.of_nat 0) with 1 in Hu; lia).
    destruct (digits f b (v / b)) as [|c l] eqn:D; [destruct (digits_nonempty b f (v / b)); assumption|].
    cbn [app hd] in H. assert (v / b = 0); [|lia]. apply IH; [exact Hb | lia | assumption |].
    rewrite D. exact H.
Qed.
Lemma numeral_digits b fuel v : 2 <= b <= 16 -> 0 <= v < b ^ Z.of_nat fuel -> fuel <> O ->
  numeral b v (digits fuel b v).
Proof.
  intros Hb Hv Hf. split; [apply positional_digits; assumption|]. split; [apply digits_nonempty, Hf|].
  intro H. apply digits_hd in H; try assumption. subst v. destruct fuel; [congruence|].
  cbn [digits]. replace (0 <? b) with true by lia. reflexivity.
Qed.
(** A number has one numeral. *)
Lemma positional_nonneg b s v : 2 <= b -> positional b s v -> 0 <= v.
Proof.
  intros Hb H. induction H as [|s v c d H IH Hd Hlt]; [lia|].
  assert (0 <= d) by (unfold digit_value in Hd;
    destruct ((48 <=? c) && (c <=? 57)) eqn:E1; [injection Hd; lia|];
    destruct ((97 <=? c) && (c <=? 102)) eqn:E2; [injection Hd; lia | discriminate]). nia.
Qed.
Lemma digit_value_range c d : digit_value c = Some d -> 0 <= d.
Proof.
  unfold digit_value. destruct ((48 <=? c) && (c <=? 57)) eqn:E1; [intro H; injection H; lia|].
  destruct ((97 <=? c) && (c <=? 102)) eqn:E2; [intro H; injection H; lia | discriminate].
Qed.
Lemma digit_value_inj c c' d : digit_value c = Some d -> digit_value c' = Some d -> c = c'.
Proof.
  unfold digit_value. destruct ((48 <=? c) && (c <=? 57)) eqn:E1; destruct ((48 <=? c') && (c' <=? 57)) eqn:E2;
    intros H H'; try (injection H; injection H'; lia).
  - destruct ((97 <=? c') && (c' <=? 102)) eqn:E3; [|discriminate]. injection H. injection H'. lia.
  - destruct ((97 <=? c) && (c <=? 102)) eqn:E3; [|discriminate]. injection H. injection H'. lia.
  - destruct ((97 <=? c) && (c <=? 102)) eqn:E3; [|discriminate].
    destruct ((97 <=? c') && (c' <=? 102)) eqn:E4; [|discriminate]. injection H. injection H'. lia.
Qed.

Lemma snoc_cases {A} (l : list A) : l = [] \/ exists s c, l = s ++ [c].
Proof. destruct l as [|a l] using rev_ind; [left; reflexivity | right; exists l, a; reflexivity]. Qed.
Lemma positional_snoc_inv b s c v : positional b (s ++ [c]) v ->
  exists u d, v = u * b + d /\ positional b s u /\ digit_value c = Some d /\ d < b.
Proof.
  intro H. inversion H as [E|s' u c' d Hs Hd Hl E]; [destruct s; discriminate|].
  apply app_inj_tail in E. destruct E as [-> ->]. exists u, d. auto.
Qed.
Lemma positional_nil_inv b v : positional b [] v -> v = 0.
Proof. intro H. inversion H as [|s u c d Hs Hd Hl E]; [reflexivity | destruct s; discriminate]. Qed.
Lemma positional_pos b s v : 2 <= b -> positional b s v -> s <> [] -> hd 0 s <> 48 -> 0 < v.
Proof.
  intros Hb H. induction H as [|s v c d H IH Hd Hlt]; intros Hne Hh; [congruence|].
  pose proof (digit_value_range _ _ Hd). pose proof (positional_nonneg b s v Hb H).
  destruct s as [|c0 s].
  - cbn [app hd] in Hh. apply positional_nil_inv in H. assert (d <> 0); [|lia].
    intros ->. apply Hh. apply (digit_value_inj c 48 0 Hd). reflexivity.
  - assert (0 < v) by (apply IH; [discriminate | exact Hh]). nia.
Qed.
Lemma positional_unique b s v : 2 <= b -> positional b s v -> forall s', positional b s' v ->
  (s <> [] -> hd 0 s <> 48) -> (s' <> [] -> hd 0 s' <> 48) -> s = s'.
Proof.
  intros Hb H. induction H as [|s v c d H IH Hd Hlt]; intros s' H' Hh Hh'.
  - destruct s' as [|c' s']; [reflexivity|].
    pose proof (positional_pos b _ _ Hb H' ltac:(discriminate) (Hh' ltac:(discriminate))). lia.
  - destruct (snoc_cases s') as [-> | [t [c' ->]]].
    + assert (Hne : s ++ [c] <> []) by (destruct s; discriminate).
      pose proof (positional_pos b _ _ Hb (pos_snoc b s v c d H Hd Hlt) Hne (Hh Hne)).
      apply positional_nil_inv in H'. lia.
    + apply positional_snoc_inv in H'. destruct H' as [u [d' [E [Ht [Hd' Hl']]]]].
      pose proof (digit_value_range _ _ Hd). pose proof (digit_value_range _ _ Hd').
      assert (v = u) by (apply (f_equal (fun x => x / b)) in E; rewrite !Z.div_add_l, (Z.div_small d b), (Z.div_small d' b) in E by lia; lia).
      subst u. assert (d = d') as <- by lia.
      f_equal; [|f_equal; eapply digit_value_inj; eassumption].
      apply IH; [exact Ht| |].
      * intro Hne. destruct s; [congruence|]. apply Hh. discriminate.
      * intro Hne. destruct t; [congruence|]. apply Hh'. discriminate.
Qed.
Lemma numeral_unique b v s s' : 2 <= b -> numeral b v s -> numeral b v s' -> s = s'.
Proof.
  intros Hb [H [Hne Hz]] [H' [Hne' Hz']].
  assert (Z : forall t, positional b t v -> t <> [] -> (hd 0 t = 48 -> length t = 1%nat) ->
    (t = [48] /\ v = 0) \/ (hd 0 t <> 48 /\ 0 < v)).
  { clear - Hb. intros t Ht Hne Hz. destruct (Z.eq_dec (hd 0 t) 48) as [E|E].
    - left. pose proof (Hz E). destruct t as [|c [|? ?]]; try discriminate. cbn [hd] in E. subst c.
      split; [reflexivity|]. change [48] with ([] ++ [48]) in Ht. apply positional_snoc_inv in Ht.
      destruct Ht as [u [d [-> [Hu [Hd _]]]]]. apply positional_nil_inv in Hu. injection Hd. lia.
    - right. split; [exact E|]. eapply positional_pos; eassumption. }
  destruct (Z s H Hne Hz) as [[-> ?]|[? ?]], (Z s' H' Hne' Hz') as [[-> ?]|[? ?]]; try lia; [reflexivity|].
  eapply positional_unique; eauto.
Qed.

(** ** PrintLog *)
Lemma fmt_u_ok v : 0 <= v < 2 ^ 32 -> numeral 10 v (fmt_u v).
Proof. intro H. apply numeral_digits; [lia | change (10 ^ Z.of_nat 10) with 10000000000; lia | discriminate]. Qed.
Lemma fmt_x_ok v : 0 <= v < 2 ^ 32 -> numeral 16 v (fmt_x v).
Proof. intro H. apply numeral_digits; [lia | change (16 ^ Z.of_nat 8) with (2 ^ 32); lia | discriminate]. Qed.
Lemma as_int_wrap v : 0 <= v < 2 ^ 32 -> wrap I32 v = as_int v.
Proof. intro H. unfold wrap, as_int. cbn [is_signed half modulus]. destruct (v <? 2 ^ 31) eqn:E; lia. Qed.
Lemma fmt_d_ok v : 0 <= v < 2 ^ 32 -> signed_numeral v (fmt_d v).
Proof.
  intro H. unfold fmt_d, signed_numeral. rewrite as_int_wrap by exact H.
  assert (- 2 ^ 31 <= as_int v < 2 ^ 31) by (unfold as_int; destruct (v <? 2 ^ 31) eqn:E; lia).
  destruct (as_int v <? 0) eqn:E.
  - eexists. split; [reflexivity|]. apply fmt_u_ok. lia.
  - apply fmt_u_ok. lia.
Qed.
Lemma render_ok a k : wf_arg a -> converts k a (render a k).
Proof.
  destruct a as [v|s]; cbn [wf_arg converts render]; intro H.
  - destruct (k =? 117); [apply fmt_u_ok, H|]. destruct (k =? 100); [apply fmt_d_ok, H|].
    destruct (k =? 120); [apply fmt_x_ok, H | reflexivity].
  - destruct (k =? 115); reflexivity.
Qed.
Lemma converts_unique k a t t' : converts k a t -> converts k a t' -> t = t'.
Proof.
  destruct a as [v|s]; cbn [converts].
  - destruct (k =? 117); [apply numeral_unique; lia|]. destruct (k =? 100).
    + unfold signed_numeral. destruct (as_int v <? 0); [|apply numeral_unique; lia].
      intros [u [-> H]] [u' [-> H']]. f_equal. eapply numeral_unique; eauto. lia.
    + destruct (k =? 120); [apply numeral_unique; lia | congruence].
  - destruct (k =? 115); congruence.
Qed.
Lemma prints_unique f args o o' : prints f args o -> prints f args o' -> o = o'.
Proof.
  intro H. revert o'. induction H as [args|c f args o Hc H IH|k f a args t o Hk H IH]; intros o' H';
    inversion H'; subst; try congruence; try contradiction.
  - f_equal. apply IH. assumption.
  - f_equal; [eapply converts_unique; eassumption | apply IH; assumption].
Qed.

Definition fate (f : list Z) (args : list larg) (r : outcome (list Z)) (out : list Z) : Prop :=
  match r with
  | Ok o => exists o', o = out ++ o' /\ prints f args o'
  | Crash => starved f args
  | UB k => k = OutOfBounds /\ dangling f args
  end.
Lemma print_loop_fate : forall n f args out, (length f <= n)%nat -> no_nul f -> Forall wf_arg args ->
  fate f args (print_loop (f ++ [0]) args out) out.
Proof.
  induction n as [|n IH]; intros f args out Hn Hf Ha.
  - destruct f; [|cbn [length] in Hn; lia]. cbn. exists []. rewrite app_nil_r. split; [reflexivity | constructor].
  - destruct f as [|c f].
    + cbn. exists []. rewrite app_nil_r. split; [reflexivity | constructor].
    + inversion Hf as [|? ? Hc Hf']; subst. cbn [length] in Hn. cbn [app print_loop].
      replace (c =? 0) with false by lia. destruct (c =? 37) eqn:E.
      * replace c with 37 by lia. destruct args as [|a args]; [constructor|].
        inversion Ha as [|? ? Ha1 Ha2]; subst. destruct f as [|k f]; cbn [app print_loop].
        { cbn. split; [reflexivity | constructor]. }
        inversion Hf' as [|? ? Hk Hf'']; subst. cbn [length] in Hn.
        specialize (IH f args (out ++ render a k) ltac:(lia) Hf'' Ha2).
        unfold fate in *. destruct (print_loop (f ++ [0]) args (out ++ render a k)).
        { destruct IH as [o' [-> H]]. exists (render a k ++ o'). rewrite app_assoc. split; [reflexivity|].
          apply p_conv; [apply render_ok, Ha1 | exact H]. }
        { destruct IH as [-> H]. split; [reflexivity | apply d_conv; exact H]. }
        { apply st_conv. exact IH. }
      * specialize (IH f args (out ++ [c]) ltac:(lia) Hf' Ha). unfold fate in *.
        destruct (print_loop (f ++ [0]) args (out ++ [c])).
        { destruct IH as [o' [-> H]]. exists (c :: o'). rewrite <- app_assoc. split; [reflexivity|].
          constructor; [lia | exact H]. }
        { destruct IH as [-> H]. split; [reflexivity | constructor; [lia | exact H]]. }
        { constructor; [lia | exact IH]. }
Qed.
Lemma prints_not_starved f args o : prints f args o -> ~ starved f args.
Proof. induction 1; intro S; inversion S; subst; try congruence; auto. Qed.
Lemma prints_not_dangling f args o : prints f args o -> ~ dangling f args.
Proof.
  induction 1 as [|? ? ? ? ? H IH|? ? ? ? ? ? ? H IH]; intro S; inversion S; subst; try congruence; auto.
Qed.
Lemma starved_not_dangling f args : starved f args -> ~ dangling f args.
Proof. induction 1 as [|? ? ? ? H IH|? ? ? ? H IH]; intro S; inversion S; subst; try congruence; auto; inversion H. Qed.

Theorem print_log_ok f s : no_nul f -> Forall wf_arg (l_args s) ->
  (forall o, prints f (l_args s) o -> print_log (f ++ [0]) s = Ok (LS [] (l_clog s) (l_out s ++ o))) /\
  (starved f (l_args s) <-> print_log (f ++ [0]) s = Crash) /\
  (dangling f (l_args s) <-> print_log (f ++ [0]) s = UB OutOfBounds) /\
  ((exists o, prints f (l_args s) o) \/ starved f (l_args s) \/ dangling f (l_args s)).
Proof.
  intros Hf Ha. pose proof (print_loop_fate (length f) f (l_args s) [] ltac:(lia) Hf Ha) as F.
  unfold print_log, fate in *. destruct (print_loop (f ++ [0]) (l_args s) []) as [o|k|]; cbn [bind].
  - destruct F as [o' [-> H]]. cbn [app].
    split; [intros o Ho; rewrite (prints_unique _ _ _ _ Ho H); reflexivity|].
    split; [split; [intro X; destruct (prints_not_starved _ _ _ H X) | discriminate]|].
    split; [split; [intro X; destruct (prints_not_dangling _ _ _ H X) | discriminate]|].
    left. eauto.
  - destruct F as [-> H].
    split; [intros o Ho; destruct (prints_not_dangling _ _ _ Ho H)|].
    split; [split; [intro X; destruct (starved_not_dangling _ _ X H) | discriminate]|].
    split; [split; auto | auto].
  - split; [intros o Ho; destruct (prints_not_starved _ _ _ Ho F)|].
    split; [split; auto|].
    split; [split; [intro X; destruct (starved_not_dangling _ _ F X) | discriminate] | auto].
Qed.

(** ** Collecting arguments *)
Lemma bytes4_byte w : bytes4 (wrap U32 w) = [byte_of w 0; byte_of w 1; byte_of w 2; byte_of w 3].
Proof.
  unfold bytes4, byte_of. rewrite wrap_u32.
  change (256 ^ Z.of_nat 0) with 1. change (256 ^ Z.of_nat 1) with 256.
  change (256 ^ Z.of_nat 2) with 65536. change (256 ^ Z.of_nat 3) with 16777216.
  change (2 ^ 32) with 4294967296. rewrite Z.div_1_r.
  assert (A : (w mod 4294967296) mod 256 = w mod 256) by lia.
  assert (B : (w mod 4294967296) / 256 mod 256 = w / 256 mod 256) by lia.
  assert (C : (w mod 4294967296) / 65536 mod 256 = w / 65536 mod 256) by lia.
  assert (D : (w mod 4294967296) / 16777216 mod 256 = w / 16777216 mod 256) by lia.
  rewrite A, B, C, D. reflexivity.
Qed.
Definition fuel_for (l : list larg) : nat :=
  fold_right (fun a n => match a with AStr s => S (Nat.max (length s) n) | _ => n end) 0%nat l.
Lemma seq_bytes w k : (k <= 4)%nat ->
  map (byte_of w) (seq 0 k) = firstn k [byte_of w 0; byte_of w 1; byte_of w 2; byte_of w 3].
Proof. intro H. do 5 (destruct k as [|k]; [reflexivity|]). lia. Qed.
Lemma exec_logs_app fuel a : forall b s, exec_logs fuel (a ++ b) s =
  match exec_logs fuel a s with Some (Ok s') => exec_logs fuel b s' | other => other end.
Proof.
  induction a as [|op a IH]; intros b s; [reflexivity|]. cbn [app exec_logs].
  destruct (exec_log fuel op s) as [[s'| |]|]; try reflexivity. apply IH.
Qed.
Theorem gathers_ok p ops l p' : gathers p ops l p' -> no_nul p ->
  no_nul p' /\ Forall wf_arg l /\
  forall fuel s, (fuel_for l < fuel)%nat -> l_clog s = p ->
    exec_logs fuel ops s = Some (Ok (LS (l_args s ++ l) p' (l_out s))).
Proof.
  induction 1 as [p|p v ops l p' G IH|p e a s0 ops l p' Hs Hc Hi G IH|p w ops l p' Hn G IH
                 |p w k ops l p' Hk Hz Hn G IH]; intro Hp.
  - split; [exact Hp|]. split; [constructor|]. intros fuel s _ <-. cbn [exec_logs].
    rewrite app_nil_r. destruct s; reflexivity.
  - destruct (IH Hp) as [H1 [H2 H3]]. split; [exact H1|].
    split; [constructor; [apply Z.mod_pos_bound; lia | exact H2]|].
    intros fuel s Hf E. cbn [exec_logs exec_log]. rewrite H3; [| exact Hf | exact E].
    unfold set_arg. cbn [l_args l_out]. rewrite <- app_assoc. reflexivity.
  - destruct (IH Hp) as [H1 [H2 H3]]. split; [exact H1|]. split; [constructor; [exact I | exact H2]|].
    intros fuel s Hf E. cbn [fuel_for fold_right] in Hf. fold (fuel_for l) in Hf.
    cbn [exec_logs exec_log].
    rewrite (string_load_ok fuel e a s0) by (assumption || lia). cbn [option_map bind].
    rewrite H3; [| lia | exact E]. unfold set_arg. cbn [l_args l_out]. rewrite <- app_assoc. reflexivity.
  - assert (Hp' : no_nul (p ++ [byte_of w 0; byte_of w 1; byte_of w 2; byte_of w 3]))
      by (apply Forall_app; split; [exact Hp | repeat constructor; apply Hn; lia]).
    destruct (IH Hp') as [H1 [H2 H3]]. split; [exact H1|]. split; [exact H2|].
    intros fuel s Hf E. cbn [exec_logs exec_log]. rewrite word_has_zero_ok, bytes4_byte, E.
    assert (B : forall i, (i < 4)%nat -> (byte_of w i =? 0) = false) by (intros i Hi; apply Z.eqb_neq, Hn, Hi).
    cbn [existsb]. rewrite !B by lia. cbn [orb]. rewrite H3; [reflexivity | exact Hf | reflexivity].
  - destruct (IH ltac:(constructor)) as [H1 [H2 H3]]. split; [exact H1|].
    split; [constructor; [exact I | exact H2]|].
    intros fuel s Hf E. cbn [fuel_for fold_right] in Hf. fold (fuel_for l) in Hf.
    cbn [exec_logs exec_log]. rewrite word_has_zero_ok, bytes4_byte, E.
    replace (existsb _ _) with true.
    2: { symmetry. apply existsb_exists. exists (byte_of w k). split; [|apply Z.eqb_eq, Hz].
         assert (k = 0 \/ k = 1 \/ k = 2 \/ k = 3)%nat as [->|[->|[->| ->]]] by lia; cbn [In]; auto. }
    set (b := [byte_of w 0; byte_of w 1; byte_of w 2; byte_of w 3]).
    assert (Nb : forall i, (i < 4)%nat -> nth i b 0 = byte_of w i)
      by (intros i Hi; do 4 (destruct i as [|i]; [reflexivity|]); lia).
    unfold trim. rewrite (find0_nat _ (length p + k)).
    + cbn [bind]. rewrite H3; [| lia | reflexivity]. cbn [l_args l_out]. rewrite <- app_assoc.
      rewrite firstn_app_2, seq_bytes by lia. reflexivity.
    + rewrite app_length. cbn [length b]. lia.
    + rewrite app_nth2 by lia. replace (length p + k - length p)%nat with k by lia. rewrite Nb by exact Hk. exact Hz.
    + intros i Hi. destruct (Nat.lt_ge_cases i (length p)).
      * rewrite app_nth1 by assumption. apply no_nul_nth; assumption.
      * rewrite app_nth2 by assumption. rewrite Nb by lia. apply Hn. lia.
Qed.
Theorem program_ok p ops l p' e a f o s : gathers p ops l p' -> no_nul p -> l_clog s = p ->
  Forall wf_arg (l_args s) ->
  sane e -> cstring (e_mem e) (a mod 2 ^ 32) f -> inside e (a mod 2 ^ 32) (length f) ->
  prints f (l_args s ++ l) o ->
  exists n, forall fuel, (n < fuel)%nat ->
    exec_logs fuel (ops ++ [Flog e a]) s = Some (Ok (LS [] p' (l_out s ++ o))).
Proof.
  intros G Hp E Hw He Hc Hi Ho. destruct (gathers_ok _ _ _ _ G Hp) as [_ [Hw2 H]].
  exists (fuel_for l + length f)%nat. intros fuel Hf. rewrite exec_logs_app, H by (assumption || lia).
  cbn [exec_logs exec_log]. rewrite (string_load_ok fuel e a f) by (assumption || lia).
  cbn [option_map bind].
  destruct (print_log_ok f (LS (l_args s ++ l) p' (l_out s))) as [P _];
    [exact (proj1 Hc) | apply Forall_app; split; assumption |].
  rewrite (P o Ho). reflexivity.
Qed.

(** ** Stores *)
Theorem store_ok T small base off val m : In T [U8; U16; U32] -> forall A,
  exec_store T small base off val m A =
  let a := store_addr small base off in
  if (a <=? A) && (A <? a + opbytes T) then (val / 256 ^ (A - a)) mod 256 else m A.
Proof.
  intros HT A. unfold exec_store, store_addr, mem_put.
  assert (Ha : (let a := wrap U32 (wrap U32 base + wrap U32 (wrap I32 off)) in
                if small then Z.land a 0x7fffffff else a) =
               (if small then (base + off) mod 2 ^ 31 else (base + off) mod 2 ^ 32)).
  { cbv zeta. assert (E : wrap U32 (wrap U32 base + wrap U32 (wrap I32 off)) = (base + off) mod 2 ^ 32).
    { unfold wrap. cbn [is_signed modulus half]. change (2 ^ 32) with 4294967296. lia. }
    rewrite E. destruct small; [|reflexivity]. change 0x7fffffff with (Z.ones 31).
    rewrite Z.land_ones by lia. change (2 ^ 32) with 4294967296. change (2 ^ 31) with 2147483648. lia. }
  cbv zeta in Ha |- *. rewrite Ha. clear Ha.
  set (a := if small then _ else _). clearbody a.
  assert (sizeof T = opbytes T) as -> by (cbn [In] in HT; destruct HT as [<-|[<-|[<-|[]]]]; reflexivity).
  destruct ((a <=? A) && (A <? a + opbytes T)) eqn:E; [|reflexivity].
  assert (HA : exists i, A - a = i /\ 0 <= i < opbytes T) by (exists (A - a); lia).
  destruct HA as [i [-> Hi]]. clear E.
  cbn [In] in HT; destruct HT as [<-|[<-|[<-|[]]]]; cbn [opbytes] in Hi; unfold wrap; cbn [is_signed modulus].
  - replace i with 0 by lia. change (256 ^ 0) with 1. lia.
  - assert (i = 0 \/ i = 1) as [->| ->] by lia; [change (256 ^ 0) with 1 | change (256 ^ 1) with 256]; lia.
  - assert (i = 0 \/ i = 1 \/ i = 2 \/ i = 3) as [->|[->|[->| ->]]] by lia;
      [change (256 ^ 0) with 1 | change (256 ^ 1) with 256 | change (256 ^ 2) with 65536
      | change (256 ^ 3) with 16777216]; lia.
Qed.
