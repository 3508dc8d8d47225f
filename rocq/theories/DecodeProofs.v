(** * Decoding: no two encodings overlap, fields select semantics *)
From Verif Require Import CInt VecModel VecSpec DecodeTypes DecodeModel DecodeSpec.
From Coq Require Import ZifyBool ZifyNat.
Import ListNotations.
Open Scope string_scope.
Open Scope Z_scope.
Ltac Zify.zify_post_hook ::= Z.div_mod_to_equations.

(** ** Constraints as mask and value *)
Lemma xbits_spec w lo k i : 0 <= lo -> 0 <= i < k -> Z.testbit (xbits w lo k) i = Z.testbit w (lo + i).
Proof.
  intros Hlo Hi. unfold xbits. rewrite Z.mod_pow2_bits_low by lia.
  rewrite Z.div_pow2_bits by lia. f_equal. lia.
Qed.
Lemma xbits_high w lo k i : 0 <= k -> k <= i -> Z.testbit (xbits w lo k) i = false.
Proof. intros Hk Hi. unfold xbits. now rewrite Z.mod_pow2_bits_high by lia. Qed.
Definition fmask (lo k : Z) : Z := Z.shiftl (Z.ones k) lo.
Lemma fmask_spec lo k i : 0 <= lo -> 0 <= k -> 0 <= i ->
  Z.testbit (fmask lo k) i = (lo <=? i) && (i <? lo + k).
Proof.
  intros. unfold fmask. rewrite Z.shiftl_spec by lia. rewrite Z.testbit_ones by lia.
  apply eq_true_iff_eq. rewrite !andb_true_iff. lia.
Qed.
Lemma land_fmask w lo k : 0 <= lo -> 0 <= k -> Z.land w (fmask lo k) = Z.shiftl (xbits w lo k) lo.
Proof.
  intros. apply Z.bits_inj'. intros i Hi. rewrite Z.land_spec, fmask_spec, Z.shiftl_spec by lia.
  destruct (Z_lt_ge_dec i lo).
  { rewrite (Z.testbit_neg_r (xbits w lo k)) by lia. replace (lo <=? i) with false by lia. now rewrite andb_false_r. }
  destruct (Z_lt_ge_dec (i - lo) k).
  - rewrite xbits_spec by lia. replace (lo + (i - lo)) with i by lia.
    replace (lo <=? i) with true by lia. replace (i <? lo + k) with true by lia. now rewrite andb_true_r.
  - rewrite xbits_high by lia. replace (i <? lo + k) with false by lia. now rewrite !andb_false_r.
Qed.

Definition eqs (e : entry) : list (Z * Z * Z) :=
  flat_map (fun c => match c with
    | Ceq n v => match field (e_fmt e) n with Some (lo, k) => [(lo, k, v)] | None => [] end
    | Cne _ _ => [] end) (e_cons e).
Definition nes (e : entry) : list (Z * Z * Z) :=
  flat_map (fun c => match c with
    | Cne n v => match field (e_fmt e) n with Some (lo, k) => [(lo, k, v)] | None => [] end
    | Ceq _ _ => [] end) (e_cons e).
(** Field positions are sensible. *)
Lemma place_pos n l : forall top lo k, (forall x w, In (x, w) l -> 0 <= w) ->
  fold_right (fun p a => snd p + a) 0 l <= top ->
  place n l top = Some (lo, k) -> 0 <= lo /\ 0 <= k /\ lo + k <= top.
Proof.
  induction l as [|[x w] l IH]; intros top lo k Hp Hs H; [discriminate|]. cbn [place fold_right snd] in *.
  assert (0 <= fold_right (fun p a => snd p + a) 0 l).
  { clear -Hp. induction l as [|[y v] l IH]; [cbn; lia|]. cbn [fold_right snd].
    assert (0 <= v) by (apply (Hp y); right; left; reflexivity).
    assert (0 <= fold_right (fun p a => snd p + a) 0 l); [|lia].
    apply IH. intros z u [E|E]; apply (Hp z); [left; exact E|right; right; exact E]. }
  assert (0 <= w) by (apply (Hp x); left; reflexivity).
  destruct (String.eqb n x); [injection H as <- <-; lia|].
  apply IH in H; [lia| |lia]. intros y v Hy. apply (Hp y). now right.
Qed.
Lemma find_in {A} n (l : list (string * A)) v : DecodeTypes.find n l = Some v -> exists n', In (n', v) l.
Proof.
  induction l as [|[k u] l IH]; [discriminate|]. cbn [DecodeTypes.find]. destruct (String.eqb n k).
  - intros H. injection H as ->. exists k. now left.
  - intros H. destruct (IH H) as (n' & Hn). exists n'. now right.
Qed.
Lemma field_pos f n lo k : field f n = Some (lo, k) -> 0 <= lo /\ 0 <= k /\ lo + k <= 32.
Proof.
  assert (P : forall m lo k, place m (fields f) 32 = Some (lo, k) -> 0 <= lo /\ 0 <= k /\ lo + k <= 32).
  { intros m lo' k'. apply place_pos.
    - intros x w Hx. destruct f; cbn in Hx; repeat (destruct Hx as [Hx|Hx]; [injection Hx as <- <-; lia|]); destruct Hx.
    - destruct f; cbn; lia. }
  unfold field. destruct (place n (fields f) 32) as [[a b]|] eqn:E.
  { intros H. injection H as <- <-. exact (P _ _ _ E). }
  clear E P. destruct (DecodeTypes.find n (overlays f)) as [[[b hi] l]|] eqn:E; [|discriminate].
  apply find_in in E as (n' & E).
  destruct f; cbn [overlays In] in E; repeat (destruct E as [E|E];
    [injection E as <- <- <- <-; vm_compute place; intros H; injection H as <- <-; lia|]); destruct E.
Qed.

Lemma in_eqs w e lo k v : matches w e = true -> In (lo, k, v) (eqs e) -> 0 <= lo /\ 0 <= k /\ lo + k <= 32 /\ xbits w lo k = v.
Proof.
  unfold matches, eqs. rewrite forallb_forall. intros H Hin.
  apply in_flat_map in Hin as (c & Hc & Hin). specialize (H c Hc). destruct c as [n u|n u]; [|destruct Hin].
  cbn [con_ok] in H. destruct (field (e_fmt e) n) as [[a b]|] eqn:E; [|destruct Hin].
  destruct Hin as [Hin|[]]. injection Hin as -> -> ->. pose proof (field_pos _ _ _ _ E). lia.
Qed.
Lemma in_nes w e lo k v : matches w e = true -> In (lo, k, v) (nes e) -> 0 <= lo /\ 0 <= k /\ lo + k <= 32 /\ xbits w lo k <> v.
Proof.
  unfold matches, nes. rewrite forallb_forall. intros H Hin.
  apply in_flat_map in Hin as (c & Hc & Hin). specialize (H c Hc). destruct c as [n u|n u]; [destruct Hin|].
  cbn [con_ok] in H. destruct (field (e_fmt e) n) as [[a b]|] eqn:E; [|destruct Hin].
  destruct Hin as [Hin|[]]. injection Hin as -> -> ->. pose proof (field_pos _ _ _ _ E). lia.
Qed.

(** Mask and value of a list of equations. *)
Fixpoint mv (l : list (Z * Z * Z)) : Z * Z :=
  match l with
  | [] => (0, 0)
  | (lo, k, v) :: r => let '(m, x) := mv r in (Z.lor (fmask lo k) m, Z.lor (Z.shiftl v lo) x)
  end.
Lemma mv_sound w l : (forall lo k v, In (lo, k, v) l -> 0 <= lo /\ 0 <= k /\ xbits w lo k = v) ->
  Z.land w (fst (mv l)) = snd (mv l).
Proof.
  induction l as [|[[lo k] v] l IH]; intros H; cbn [mv]; [now rewrite Z.land_0_r|].
  destruct (mv l) as [m x]. cbn [fst snd] in *.
  rewrite Z.land_lor_distr_r. rewrite IH by (intros; apply H; now right).
  destruct (H lo k v (or_introl eq_refl)) as (A & B & <-). now rewrite land_fmask.
Qed.
(** mask, value, inequations *)
Definition sig := (Z * Z * list (Z * Z * Z))%type.
Definition sig_of (e : entry) : sig := (mv (eqs e), nes e).
Definition meets (w : Z) (s : sig) : Prop :=
  let '(m, x, l) := s in Z.land w m = x /\
  forall lo k v, In (lo, k, v) l -> 0 <= lo /\ 0 <= k /\ xbits w lo k <> v.
Lemma sig_sound w e : matches w e = true -> meets w (sig_of e).
Proof.
  intros H. unfold meets, sig_of. destruct (mv (eqs e)) as [m x] eqn:E. split.
  - change m with (fst (m, x)). change x with (snd (m, x)) at 2. rewrite <- E. apply mv_sound.
    intros lo k v Hin. destruct (in_eqs w e lo k v H Hin) as (A & B & _ & C). auto.
  - intros lo k v Hin. destruct (in_nes w e lo k v H Hin) as (A & B & _ & C). auto.
Qed.
(** Two signatures no word can meet together. *)
Definition clash_ne (m x : Z) (c : Z * Z * Z) : bool :=
  let '(lo, k, v) := c in (Z.land (fmask lo k) m =? fmask lo k) && (xbits x lo k =? v).
Definition clash (a b : sig) : bool :=
  let '(m1, x1, l1) := a in let '(m2, x2, l2) := b in
  if negb (Z.land (Z.lxor x1 x2) (Z.land m1 m2) =? 0) then true
  else let m := Z.lor m1 m2 in let x := Z.lor x1 x2 in
       existsb (clash_ne m x) l1 || existsb (clash_ne m x) l2.
Lemma covered_bits w m x lo k : Z.land w m = x -> 0 <= lo -> 0 <= k ->
  Z.land (fmask lo k) m = fmask lo k -> xbits w lo k = xbits x lo k.
Proof.
  intros H Hlo Hk Hm. apply Z.bits_inj'. intros i Hi. destruct (Z_lt_ge_dec i k).
  - rewrite !xbits_spec by lia. rewrite <- H, Z.land_spec.
    assert (Z.testbit m (lo + i) = true) as ->; [|now rewrite andb_true_r].
    assert (F : Z.testbit (fmask lo k) (lo + i) = true) by (rewrite fmask_spec by lia; lia).
    rewrite <- Hm, Z.land_spec in F. apply andb_true_iff in F. tauto.
  - rewrite !xbits_high by lia. reflexivity.
Qed.
Lemma clash_sound w a b : clash a b = true -> meets w a -> meets w b -> False.
Proof.
  destruct a as [[m1 x1] l1], b as [[m2 x2] l2]. unfold clash, meets. intros H [A1 N1] [A2 N2].
  destruct (Z.land (Z.lxor x1 x2) (Z.land m1 m2) =? 0) eqn:E; cbn [negb] in H.
  - assert (U : Z.land w (Z.lor m1 m2) = Z.lor x1 x2) by (now rewrite Z.land_lor_distr_r, A1, A2).
    apply orb_true_iff in H as [H|H]; apply existsb_exists in H as ([[lo k] v] & Hin & Hc);
      unfold clash_ne in Hc; apply andb_true_iff in Hc as [C1 C2]; apply Z.eqb_eq in C1, C2.
    + destruct (N1 lo k v Hin) as (P & Q & R). apply R. rewrite <- C2. now apply (covered_bits _ _ _ _ _ U).
    + destruct (N2 lo k v Hin) as (P & Q & R). apply R. rewrite <- C2. now apply (covered_bits _ _ _ _ _ U).
  - apply Z.eqb_neq in E. apply E. apply Z.bits_inj'. intros i Hi.
    rewrite <- A1, <- A2, !Z.land_spec, Z.lxor_spec, !Z.land_spec, Z.bits_0.
    destruct (Z.testbit w i), (Z.testbit m1 i), (Z.testbit m2 i); reflexivity.
Qed.

(** ** All pairs *)
Fixpoint pairwise {A} (f : A -> A -> bool) (l : list A) : bool :=
  match l with [] => true | a :: r => forallb (f a) r && pairwise f r end.
Lemma pairwise_sound {A} (f : A -> A -> bool) l a b : pairwise f l = true -> In a l -> In b l ->
  a = b \/ f a b = true \/ f b a = true.
Proof.
  induction l as [|c l IH]; intros H Ha Hb; [destruct Ha|]. cbn [pairwise] in H.
  apply andb_true_iff in H as [H1 H2]. rewrite forallb_forall in H1.
  destruct Ha as [->|Ha], Hb as [->|Hb]; auto.
Qed.

(** The rows with the canonical func1 and form added to the loose ones. *)
Definition looseb (e : entry) : bool := has ["acset"; "actr"; "adwinit"] (e_name e).
Definition tighten (e : entry) : entry :=
  if looseb e then E (e_name e) (e_grp e) (e_fmt e) (Ceq "func1" 1 :: Ceq "form" 2 :: e_cons e)
                     (e_src e) (e_dst e) (e_child e) (e_sem e)
  else e.
Lemma looseb_iff e : looseb e = true <-> loose e.
Proof.
  unfold looseb, loose, has. rewrite existsb_exists. split.
  - intros (x & Hx & E). apply String.eqb_eq in E. now rewrite E.
  - intros H. exists (e_name e). split; [exact H|apply String.eqb_refl].
Qed.
Definition tight_sigs : list sig := map (fun e => sig_of (tighten e)) all_entries.
Lemma loose_fmt : forallb (fun e => if looseb e then match e_fmt e with FV2 => true | _ => false end else true) all_entries = true.
Proof. vm_compute. reflexivity. Qed.
Lemma no_clash : pairwise clash tight_sigs = true.
Proof. vm_cast_no_check (eq_refl true). Qed.

Lemma canonical_fields w : xbits w 0 5 = 6 -> xbits w 2 3 = 1 /\ xbits w 0 2 = 2.
Proof. unfold xbits. change (2 ^ 0) with 1. change (2 ^ 2) with 4. change (2 ^ 3) with 8. change (2 ^ 5) with 32. lia. Qed.
Lemma tighten_matches w e : In e all_entries -> canonical w e -> matches w e = true -> matches w (tighten e) = true.
Proof.
  intros Hin Hc Hm. unfold tighten. destruct (looseb e) eqn:El; [|exact Hm].
  assert (Hf : e_fmt e = FV2).
  { pose proof loose_fmt as H. rewrite forallb_forall in H. specialize (H e Hin). rewrite El in H.
    destruct (e_fmt e); (reflexivity || discriminate). }
  destruct (canonical_fields w (Hc (proj1 (looseb_iff e) El))) as [H1 H2].
  unfold matches. cbn [e_fmt e_cons forallb]. rewrite Hf.
  change (con_ok FV2 w (Ceq "func1" 1)) with (xbits w 2 3 =? 1).
  change (con_ok FV2 w (Ceq "form" 2)) with (xbits w 0 2 =? 2). rewrite H1, H2.
  rewrite <- Hf. exact Hm.
Qed.

Lemma pairwise_map {A B} (g : A -> B) f (l : list A) : pairwise f (map g l) = true -> pairwise (fun a b => f (g a) (g b)) l = true.
Proof.
  induction l as [|a l IH]; [reflexivity|]. cbn [map pairwise]. rewrite !andb_true_iff. intros [H1 H2].
  split; [|auto]. rewrite forallb_forall in *. intros b Hb. apply H1. now apply in_map.
Qed.
Theorem encoding_unique w e1 e2 : encodes e1 w -> encodes e2 w -> canonical w e1 -> canonical w e2 -> e1 = e2.
Proof.
  intros [I1 M1] [I2 M2] C1 C2.
  destruct (pairwise_sound _ _ e1 e2 (pairwise_map _ _ _ no_clash) I1 I2) as [E|[H|H]]; [exact E| |]; exfalso.
  - exact (clash_sound w _ _ H (sig_sound _ _ (tighten_matches _ _ I1 C1 M1)) (sig_sound _ _ (tighten_matches _ _ I2 C2 M2))).
  - exact (clash_sound w _ _ H (sig_sound _ _ (tighten_matches _ _ I2 C2 M2)) (sig_sound _ _ (tighten_matches _ _ I1 C1 M1))).
Qed.

(** ** Decoding *)
Lemma in_all g e : In e (table g) -> In e all_entries.
Proof. intros H. apply in_flat_map. exists g. split; [destruct g; cbn; auto 10|exact H]. Qed.
Lemma all_in e : In e all_entries -> exists g, In e (table g).
Proof. intros H. apply in_flat_map in H as (g & _ & H). eauto. Qed.
Definition grp_eqb (a b : group) : bool :=
  match a, b with GInst, GInst | GArith, GArith | GConv, GConv | GMemory, GMemory | GMul, GMul | GShift, GShift => true | _, _ => false end.
Lemma grp_eqb_eq a b : grp_eqb a b = true -> a = b.
Proof. destruct a, b; (reflexivity || discriminate). Qed.
Lemma table_grp : forallb (fun g => forallb (fun e => grp_eqb (e_grp e) g) (table g)) order = true.
Proof. vm_compute. reflexivity. Qed.
Lemma in_table e : In e all_entries -> In e (table (e_grp e)).
Proof.
  intros H. apply all_in in H as (g & H). pose proof table_grp as T. rewrite forallb_forall in T.
  specialize (T g ltac:(destruct g; cbn; auto 10)). rewrite forallb_forall in T. specialize (T e H).
  apply grp_eqb_eq in T. now rewrite T.
Qed.

Lemma parse_sound d w e : decoder_ok d -> parse d w = Some e -> encodes e w.
Proof.
  intros Hd. unfold parse. assert (H : forall l, parse_in d l w = Some e -> encodes e w); [|apply H].
  induction l as [|g l IH]; [discriminate|]. cbn [parse_in]. specialize (Hd g w).
  destruct (d g w) as [e'|]; [|exact IH]. intros H. injection H as ->.
  destruct Hd as [H1 H2]. split; [exact (in_all _ _ H1)|exact H2].
Qed.
Lemma parse_complete d w e : decoder_ok d -> encodes e w -> exists e', parse d w = Some e'.
Proof.
  intros Hd [Hin Hm]. apply all_in in Hin as (g & Hin).
  assert (Ho : In g order) by (destruct g; cbn; auto 10).
  unfold parse. induction order as [|g' l IH]; [destruct Ho|]. cbn [parse_in]. specialize (Hd g' w).
  destruct (d g' w) as [e'|]; [eauto|]. destruct Ho as [->|Ho]; [|exact (IH Ho)].
  specialize (Hd e Hin). congruence.
Qed.
(** The first group that has a match decides. *)
Lemma parse_first d w l1 g l2 : decoder_ok d -> order = (l1 ++ g :: l2)%list ->
  (forall g' e, In g' l1 -> In e (table g') -> matches w e = false) ->
  (exists e, In e (table g) /\ matches w e = true) ->
  exists e', parse d w = Some e' /\ In e' (table g) /\ matches w e' = true.
Proof.
  intros Hd Ho H1 H2. unfold parse. rewrite Ho. clear Ho. induction l1 as [|g' l1 IH]; cbn [app parse_in].
  - specialize (Hd g w). destruct (d g w) as [e'|]; [eauto|]. destruct H2 as (e & A & B).
    specialize (Hd e A). congruence.
  - pose proof (Hd g' w) as Hg. destruct (d g' w) as [e'|].
    + destruct Hg as [A B]. specialize (H1 g' e' ltac:(now left) A). congruence.
    + apply IH. intros g'' e Hin. apply H1. now right.
Qed.

Theorem decodes_alone d w e : decoder_ok d -> encodes e w -> (forall e', loose e' -> encodes e' w -> e' = e) ->
  (loose e -> xbits w 0 5 = 6 \/ forall e', encodes e' w -> e' = e) -> parse d w = Some e.
Proof.
  intros Hd He Hl Hc. destruct (parse_complete d w e Hd He) as (e' & Hp).
  pose proof (parse_sound d w e' Hd Hp) as He'. rewrite Hp. f_equal.
  destruct (looseb e') eqn:E'; [apply looseb_iff in E'; now apply Hl|].
  destruct (looseb e) eqn:E.
  - apply looseb_iff in E. destruct (Hc E) as [Hw|Hw]; [|now apply Hw].
    apply (encoding_unique w); try assumption; [|intros _; exact Hw].
    intros H. apply looseb_iff in H. congruence.
  - apply (encoding_unique w); try assumption; intros H; apply looseb_iff in H; congruence.
Qed.
(** The loose rows are in the memory group. *)
Lemma loose_group : forallb (fun e => if looseb e then grp_eqb (e_grp e) GMemory else true) all_entries = true.
Proof. vm_compute. reflexivity. Qed.
Lemma loose_not_early : forallb (fun g => forallb (fun e => negb (looseb e)) (table g)) [GInst; GArith; GConv] = true.
Proof. vm_compute. reflexivity. Qed.
Theorem decodes_early d w e : decoder_ok d -> encodes e w -> In (e_grp e) [GInst; GArith; GConv] -> parse d w = Some e.
Proof.
  intros Hd He Hg. pose proof (in_table e (proj1 He)) as Ht.
  assert (NL : forall g e', In g [GInst; GArith; GConv] -> In e' (table g) -> ~ loose e').
  { pose proof loose_not_early as H. rewrite forallb_forall in H. intros g e' G I L.
    specialize (H g G). rewrite forallb_forall in H. specialize (H e' I). apply looseb_iff in L. rewrite L in H. discriminate. }
  assert (U : forall g e', In g [GInst; GArith; GConv] -> In e' (table g) -> matches w e' = true -> e' = e).
  { intros g e' G I M. apply (encoding_unique w); try assumption.
    - split; [exact (in_all _ _ I)|exact M].
    - intros L. destruct (NL _ _ G I L).
    - intros L. destruct (NL _ _ Hg Ht L). }
  assert (D : forall g, In g [GInst; GArith; GConv] -> d g w = None \/ d g w = Some e).
  { intros g G. specialize (Hd g w). destruct (d g w) as [e'|]; [|now left]. right. f_equal.
    destruct Hd as [A B]. now apply (U g). }
  assert (S : d (e_grp e) w = Some e).
  { specialize (Hd (e_grp e) w). destruct (D _ Hg) as [E|E]; [|exact E]. rewrite E in Hd.
    specialize (Hd e Ht). destruct He. congruence. }
  unfold parse. cbn [order parse_in].
  destruct (D GInst ltac:(cbn; auto)) as [E1|E1]; rewrite E1; [|reflexivity].
  destruct (D GArith ltac:(cbn; auto)) as [E2|E2]; rewrite E2; [|reflexivity].
  destruct (D GConv ltac:(cbn; auto)) as [E3|E3]; rewrite E3; [|reflexivity].
  exfalso. cbn [In] in Hg. destruct Hg as [G|[G|[G|[]]]]; rewrite <- G in S; congruence.
Qed.
(** What every loose row asks for. *)
Lemma loose_fields w e : loose e -> encodes e w -> xbits w 20 6 = 0 /\ xbits w 5 1 = 0 /\ 16 <= xbits w 26 6 <= 18.
Proof.
  intros L [I M].
  assert (F : forallb (fun e => if looseb e then
     existsb (fun t => match t with (20, 6, 0) => true | _ => false end) (eqs e) &&
     existsb (fun t => match t with (5, 1, 0) => true | _ => false end) (eqs e) &&
     existsb (fun t => match t with (26, 6, v) => (16 <=? v) && (v <=? 18) | _ => false end) (eqs e) else true) all_entries = true)
    by (vm_compute; reflexivity).
  rewrite forallb_forall in F. specialize (F e I). apply looseb_iff in L. rewrite L in F.
  apply andb_true_iff in F as [F F3]. apply andb_true_iff in F as [F1 F2].
  apply existsb_exists in F1 as ([[a b] c] & I1 & F1), F2 as ([[a2 b2] c2] & I2 & F2), F3 as ([[a3 b3] c3] & I3 & F3).
  assert (Z1 : (a, b, c) = (20, 6, 0)) by
    (destruct a as [|p|]; try discriminate; repeat (destruct p; try discriminate);
     destruct b as [|p|]; try discriminate; repeat (destruct p; try discriminate);
     destruct c; (reflexivity || discriminate)).
  assert (Z2 : (a2, b2, c2) = (5, 1, 0)) by
    (destruct a2 as [|p|]; try discriminate; repeat (destruct p; try discriminate);
     destruct b2 as [|p|]; try discriminate; repeat (destruct p; try discriminate);
     destruct c2; (reflexivity || discriminate)).
  assert (Z3 : a3 = 26 /\ b3 = 6 /\ (16 <=? c3) && (c3 <=? 18) = true) by
    (destruct a3 as [|p|]; try discriminate; repeat (destruct p; try discriminate);
     destruct b3 as [|p|]; try discriminate; repeat (destruct p; try discriminate); auto).
  injection Z1 as -> -> ->. injection Z2 as -> -> ->. destruct Z3 as (-> & -> & Z3).
  destruct (in_eqs _ _ _ _ _ M I1) as (_ & _ & _ & ->).
  destruct (in_eqs _ _ _ _ _ M I2) as (_ & _ & _ & ->).
  destruct (in_eqs _ _ _ _ _ M I3) as (_ & _ & _ & ->). repeat split; lia.
Qed.
