(** * V2 decoding: every word of the manuals gets its function and operands *)
From Verif Require Import CInt V2DecTypes V2DecModel V2DecSpec.
From Verif Require DecodeTypes DecodeProofs.
From Coq Require Import Lia ZifyBool ZifyNat.
Import ListNotations.
Open Scope string_scope.
Open Scope list_scope.
Open Scope Z_scope.
Ltac Zify.zify_post_hook ::= Z.div_mod_to_equations.

Notation xbits := DecodeTypes.xbits.
Notation fmask := DecodeProofs.fmask.
Notation sig := DecodeProofs.sig.
Notation meets := DecodeProofs.meets.
Notation mv := DecodeProofs.mv.
Notation clash := DecodeProofs.clash.

(** ** Fields with required and forbidden values *)
Definition atoms := (list (Z * Z * Z) * list (Z * Z * Z))%type.
Definition fits (t : Z * Z * Z) : bool := let '(lo, n, v) := t in (0 <=? lo) && (0 <=? n).
Definition fit (a : atoms) : bool := forallb fits (fst a) && forallb fits (snd a).
Definition holds (w : Z) (a : atoms) : Prop :=
  (forall lo n v, In (lo, n, v) (fst a) -> xbits w lo n = v) /\
  (forall lo n v, In (lo, n, v) (snd a) -> xbits w lo n <> v).
Definition sigof (a : atoms) : sig := (mv (fst a), snd a).
Lemma fits_pos a lo n v : fit a = true -> In (lo, n, v) (fst a) \/ In (lo, n, v) (snd a) -> 0 <= lo /\ 0 <= n.
Proof.
  unfold fit. rewrite andb_true_iff, !forallb_forall. intros [H1 H2] [H|H]; [specialize (H1 _ H)|specialize (H2 _ H)];
    cbn [fits] in *; lia.
Qed.
Lemma sigof_sound w a : fit a = true -> holds w a -> meets w (sigof a).
Proof.
  intros Hf [H1 H2]. unfold sigof, DecodeProofs.meets. destruct (mv (fst a)) as [m x] eqn:E. split.
  - change m with (fst (m, x)). change x with (snd (m, x)) at 2. rewrite <- E. apply DecodeProofs.mv_sound.
    intros lo k v Hin. destruct (fits_pos a lo k v Hf (or_introl Hin)). specialize (H1 _ _ _ Hin). auto.
  - intros lo k v Hin. destruct (fits_pos a lo k v Hf (or_intror Hin)). specialize (H2 _ _ _ Hin). auto.
Qed.
(** [s] forces the fields of [a]. *)
Definition knows (s : sig) (t : Z * Z * Z) : bool :=
  let '(m, x, _) := s in let '(lo, n, v) := t in
  (0 <=? lo) && (0 <=? n) && (Z.land (fmask lo n) m =? fmask lo n) && (xbits x lo n =? v).
Definition eq3 (a b : Z * Z * Z) : bool :=
  let '(a1, a2, a3) := a in let '(b1, b2, b3) := b in (a1 =? b1) && (a2 =? b2) && (a3 =? b3).
Definition bars (s : sig) (t : Z * Z * Z) : bool :=
  let '(m, x, l) := s in let '(lo, n, v) := t in
  existsb (eq3 t) l ||
  ((0 <=? lo) && (0 <=? n) && negb (Z.land (Z.lxor (Z.shiftl v lo) x) (Z.land m (fmask lo n)) =? 0)).
Lemma knows_sound w s lo n v : knows s (lo, n, v) = true -> meets w s -> xbits w lo n = v.
Proof.
  destruct s as [[m x] l]. unfold knows, DecodeProofs.meets. rewrite !andb_true_iff. intros (((A & B) & C) & D) [H _].
  apply Z.eqb_eq in C, D. rewrite <- D. apply (DecodeProofs.covered_bits w m x); lia || assumption.
Qed.
Lemma bars_sound w s lo n v : bars s (lo, n, v) = true -> meets w s -> xbits w lo n <> v.
Proof.
  destruct s as [[m x] l]. unfold bars, DecodeProofs.meets. rewrite orb_true_iff. intros [H|H] [E N].
  - apply existsb_exists in H as ([[a b] c] & Hin & H). cbn [eq3] in H.
    assert (a = lo /\ b = n /\ c = v) as (-> & -> & ->) by lia. now apply (N _ _ _ Hin).
  - rewrite !andb_true_iff in H. destruct H as ((A & B) & C). intros F. apply negb_true_iff, Z.eqb_neq in C. apply C.
    apply Z.bits_inj'. intros i Hi.
    rewrite <- E, <- F, !Z.land_spec, Z.lxor_spec, Z.land_spec, Z.shiftl_spec, Z.bits_0 by lia.
    destruct (Z.testbit m i) eqn:Em; rewrite ?andb_false_r; [|reflexivity]. cbn [andb].
    rewrite DecodeProofs.fmask_spec by lia.
    destruct ((lo <=? i) && (i <? lo + n)) eqn:Er; [|now rewrite andb_false_r].
    rewrite DecodeProofs.xbits_spec by lia. replace (lo + (i - lo)) with i by lia.
    destruct (Z.testbit w i); reflexivity.
Qed.
Definition implies (s : sig) (a : atoms) : bool := forallb (knows s) (fst a) && forallb (bars s) (snd a).
Lemma implies_sound w s a : implies s a = true -> meets w s -> holds w a.
Proof.
  unfold implies. rewrite andb_true_iff, !forallb_forall. intros [H1 H2] H. split; intros lo n v Hin.
  - exact (knows_sound w s _ _ _ (H1 _ Hin) H).
  - exact (bars_sound w s _ _ _ (H2 _ Hin) H).
Qed.
Definition join (a b : sig) : sig :=
  let '(m1, x1, l1) := a in let '(m2, x2, l2) := b in (Z.lor m1 m2, Z.lor x1 x2, l1 ++ l2).
Lemma join_sound w a b : meets w a -> meets w b -> meets w (join a b).
Proof.
  destruct a as [[m1 x1] l1], b as [[m2 x2] l2]. unfold DecodeProofs.meets, join. intros [A1 N1] [A2 N2]. split.
  - now rewrite Z.land_lor_distr_r, A1, A2.
  - intros lo k v Hin. apply in_app_iff in Hin as [H|H]; auto.
Qed.

(** ** A pattern covered by others, by splitting on fields *)
Definition is_a (t : Z * Z * Z) : sig := sigof ([t], []).
Definition isnt (t : Z * Z * Z) : sig :=
  let '(lo, n, v) := t in if n =? 1 then sigof ([(lo, 1, 1 - v)], []) else sigof ([], [t]).
Definition tgt := (sig * atoms)%type.
Fixpoint covers (sp : list (Z * Z * Z)) (s : sig) (ts : list tgt) : bool :=
  let ts' := List.filter (fun t => negb (clash s (fst t))) ts in
  if existsb (fun t => implies s (snd t)) ts' then true
  else match sp with
       | [] => false
       | a :: r => if (if clash s (is_a a) then true else covers r (join s (is_a a)) ts')
                   then (if clash s (isnt a) then true else covers r (join s (isnt a)) ts') else false
       end.
Definition bit_split (t : Z * Z * Z) : bool := let '(lo, n, v) := t in (0 <=? lo) && (0 <=? n) && (negb (n =? 1) || (v =? 0) || (v =? 1)).
Lemma isnt_sound w lo n v : bit_split (lo, n, v) = true -> xbits w lo n <> v -> meets w (isnt (lo, n, v)).
Proof.
  cbn [bit_split]. intros Hb H. unfold isnt. destruct (n =? 1) eqn:E.
  - apply sigof_sound; [unfold fit; cbn [fst snd forallb fits]; lia|]. split; [|intros ? ? ? []]. intros lo' n' v' [F|[]].
    assert (lo' = lo) as -> by (exact (eq_sym (f_equal (fun t => fst (fst t)) F))).
    assert (n' = 1) as -> by (exact (eq_sym (f_equal (fun t => snd (fst t)) F))).
    assert (v' = 1 - v) as -> by (exact (eq_sym (f_equal snd F))). clear F.
    unfold DecodeTypes.xbits in *. replace n with 1 in H by lia. change (2 ^ 1) with 2 in *.
    generalize dependent (w / 2 ^ lo). intros q H. lia.
  - apply sigof_sound; [unfold fit; cbn [fst snd forallb fits]; lia|]. split; [intros ? ? ? []|]. intros lo' n' v' [F|[]]. injection F as <- <- <-. exact H.
Qed.
Lemma covers_sound w sp : forallb bit_split sp = true -> forall s ts, covers sp s ts = true -> meets w s ->
  exists t, In t ts /\ holds w (snd t).
Proof.
  induction sp as [|a sp IH]; intros Hb s ts Hc Hm; cbn [covers] in Hc;
    destruct (existsb (fun t => implies s (snd t)) (List.filter (fun t => negb (clash s (fst t))) ts)) eqn:E.
  1,3: apply existsb_exists in E as (t & Ht & Hi); apply filter_In in Ht as [Ht _]; exists t;
       split; [exact Ht|exact (implies_sound w s _ Hi Hm)].
  - discriminate.
  - cbn [forallb] in Hb. apply andb_true_iff in Hb as [Hb1 Hb2]. destruct a as [[lo n] v].
    destruct (if clash s (is_a (lo, n, v)) then true else covers sp (join s (is_a (lo, n, v))) (List.filter (fun t => negb (clash s (fst t))) ts))
      eqn:C1; [|discriminate]. rename Hc into C2.
    assert (L : forall s', meets w s' -> (if clash s s' then true else covers sp (join s s') (List.filter (fun t => negb (clash s (fst t))) ts)) = true ->
                exists t, In t ts /\ holds w (snd t)).
    { intros s' Hm' Ho. destruct (clash s s') eqn:Hs.
      - destruct (DecodeProofs.clash_sound w _ _ Hs Hm Hm').
      - destruct (IH Hb2 _ _ Ho (join_sound _ _ _ Hm Hm')) as (t & Ht & Hh). apply filter_In in Ht as [Ht _]. eauto. }
    destruct (Z.eq_dec (xbits w lo n) v) as [Ev|Ev].
    + apply (L (is_a (lo, n, v))); [|exact C1]. apply sigof_sound; [unfold fit; cbn [fst snd forallb fits bit_split] in *; lia|].
      split; [|intros ? ? ? []]. intros lo' n' v' [F|[]]. injection F as <- <- <-. exact Ev.
    + apply (L (isnt (lo, n, v))); [|exact C2]. now apply isnt_sound.
Qed.

(** ** Rows as fields *)
Definition zlist (a b : Z) : list Z := map (fun i => a + Z.of_nat i) (seq 0 (Z.to_nat (b - a))).
Definition one (f : fmt2) (n : string) : option (Z * Z) :=
  match field2 f n with
  | Some (_, [SBits lo k]) => if (0 <=? lo) && (0 <=? k) then Some (lo, k) else None
  | _ => None
  end.
Definition con_atoms (f : fmt2) (c : con2) : option atoms :=
  match c with
  | Ceq n v => match one f n with Some (lo, k) => Some ([(lo, k, v)], []) | None => None end
  | Cne n v => match one f n with Some (lo, k) => Some ([], [(lo, k, v)]) | None => None end
  | Cgt n v => match one f n with Some (lo, k) => Some ([], map (fun u => (lo, k, u)) (zlist 0 (v + 1))) | None => None end
  | Clt n v => match one f n with Some (lo, k) => Some ([], map (fun u => (lo, k, u)) (zlist v (2 ^ k))) | None => None end
  end.
Definition cat_atoms (a b : atoms) : atoms := (fst a ++ fst b, snd a ++ snd b).
Fixpoint cons_atoms (f : fmt2) (l : list con2) : option atoms :=
  match l with
  | [] => Some ([], [])
  | c :: r => match con_atoms f c, cons_atoms f r with Some a, Some b => Some (cat_atoms a b) | _, _ => None end
  end.
Definition row_atoms (e : entry2) : atoms := match cons_atoms (e2_fmt e) (e2_cons e) with Some a => a | None => ([], []) end.
Definition row_ok (e : entry2) : bool :=
  match cons_atoms (e2_fmt e) (e2_cons e) with Some a => fit a | None => false end.
Lemma rows_ok : forallb row_ok all2 = true.
Proof. vm_compute. reflexivity. Qed.
Lemma in_zlist a b v : In v (zlist a b) <-> a <= v < b.
Proof.
  unfold zlist. rewrite in_map_iff. split.
  - intros (i & <- & Hi). apply in_seq in Hi. lia.
  - intros H. exists (Z.to_nat (v - a)). split; [lia|]. apply in_seq. lia.
Qed.
Lemma one_raw f n lo k w : one f n = Some (lo, k) -> raw2 f n w = Some (xbits w lo k) /\ 0 <= lo /\ 0 <= k.
Proof.
  unfold one, raw2. destruct (field2 f n) as [[s [|[lo' k'|] [|]]]|]; try discriminate.
  destruct ((0 <=? lo') && (0 <=? k')) eqn:E; [|discriminate].
  intros H. injection H as -> ->. split; [|lia]. cbn [cat fst slice_val]. f_equal.
  unfold bitsat, DecodeTypes.xbits. rewrite Z.pow_0_r. lia.
Qed.
Lemma con_atoms_iff f c a w : con_atoms f c = Some a -> (con2_ok f w c = true <-> holds w a).
Proof.
  unfold con_atoms. destruct c as [n v|n v|n v|n v]; cbn [con2_ok];
    destruct (one f n) as [[lo k]|] eqn:E; try discriminate;
    intros H; injection H as <-; destruct (one_raw f n lo k w E) as (-> & Hlo & Hk); unfold holds; cbn [fst snd];
    assert (P : 0 <= xbits w lo k < 2 ^ k) by (apply Z.mod_pos_bound; apply Z.pow_pos_nonneg; lia).
  - split.
    + intros H. split; [|intros ? ? ? []]. intros ? ? ? [F|[]]. injection F as <- <- <-. lia.
    + intros [H _]. specialize (H lo k v (or_introl eq_refl)). lia.
  - split.
    + intros H. split; [intros ? ? ? []|]. intros ? ? ? [F|[]]. injection F as <- <- <-. lia.
    + intros [_ H]. specialize (H lo k v (or_introl eq_refl)). lia.
  - split.
    + intros H. split; [intros ? ? ? []|]. intros ? ? ? F. apply in_map_iff in F as (u & F & Hu). injection F as <- <- <-.
      apply in_zlist in Hu. lia.
    + intros [_ H]. destruct (v <? xbits w lo k) eqn:C; [reflexivity|]. exfalso.
      apply (H lo k (xbits w lo k)); [|reflexivity]. apply in_map. apply in_zlist. lia.
  - split.
    + intros H. split; [intros ? ? ? []|]. intros ? ? ? F. apply in_map_iff in F as (u & F & Hu). injection F as <- <- <-.
      apply in_zlist in Hu. lia.
    + intros [_ H]. destruct (xbits w lo k <? v) eqn:C; [reflexivity|]. exfalso.
      apply (H lo k (xbits w lo k)); [|reflexivity]. apply in_map. apply in_zlist. lia.
Qed.
Lemma holds_cat w a b : holds w (cat_atoms a b) <-> holds w a /\ holds w b.
Proof.
  unfold holds, cat_atoms. cbn [fst snd]. split.
  - intros [H1 H2]. repeat split; intros lo n v Hin; (apply H1 || apply H2); apply in_app_iff; auto.
  - intros [[A B] [C D]]. split; intros lo n v Hin; apply in_app_iff in Hin as [Hin|Hin]; auto.
Qed.
Lemma row_iff e w : In e all2 -> (matches2 w e = true <-> holds w (row_atoms e)) /\ fit (row_atoms e) = true.
Proof.
  intros Hin. pose proof rows_ok as H. rewrite forallb_forall in H. specialize (H e Hin).
  unfold row_ok in H. unfold row_atoms, matches2. destruct (cons_atoms (e2_fmt e) (e2_cons e)) as [a|] eqn:E; [|discriminate].
  split; [|exact H]. clear H. revert a E. induction (e2_cons e) as [|c l IH]; intros a E; cbn [cons_atoms forallb] in *.
  - injection E as <-. split; [|reflexivity]. intros _. split; intros ? ? ? [].
  - destruct (con_atoms (e2_fmt e) c) as [a1|] eqn:E1; [|discriminate].
    destruct (cons_atoms (e2_fmt e) l) as [a2|] eqn:E2; [|discriminate]. injection E as <-.
    rewrite andb_true_iff, holds_cat, (con_atoms_iff _ _ _ w E1), (IH _ eq_refl). reflexivity.
Qed.
Definition rsig (e : entry2) : sig := sigof (row_atoms e).
Lemma rsig_sound w e : In e all2 -> matches2 w e = true -> meets w (rsig e).
Proof. intros Hin H. destruct (row_iff e w Hin) as [I F]. apply sigof_sound; [exact F|now apply I]. Qed.

(** ** Patterns of the manual *)
Definition pat_atoms (p : pat) : atoms := (p_eq p, p_ne p).
Definition psig (p : pat) : sig := sigof (pat_atoms p).
Lemma pat_holds w p : meets_pat w p <-> holds w (pat_atoms p).
Proof. reflexivity. Qed.
Definition good_pat (p : pat) : bool := fit (pat_atoms p).
Lemma psig_sound w p : good_pat p = true -> meets_pat w p -> meets w (psig p).
Proof. intros G H. apply sigof_sound; assumption. Qed.

(** ** Operands by name *)
Definition ktab : list (string * kind) := [
  ("B_imm12", Bimm); ("CSR_uimm5", Ufld 15 5); ("const1", KC 1); ("const2", KC 2); ("const4", KC 4); ("csr", Ufld 20 12);
  ("frs1", KF 15); ("frs2", KF 20); ("frs3", KF 27); ("I_imm12", Iimm); ("I_uimm5", Ufld 15 5); ("J_imm12", Iimm);
  ("J_imm20", Jimm); ("nf", Ufld 29 3); ("pred", Ufld 24 4); ("r_uimm5", Ufld 20 5); ("rm", Ufld 12 3); ("rs1", KX 15);
  ("rs2", KX 20); ("S_imm12", Simm); ("simm5", Vsimm); ("simm5", KShift); ("succ", Ufld 20 4); ("U_imm20", Uimm);
  ("uimm5", Ufld 15 5); ("uimm5", KShift); ("vd", KV 7); ("vm", Ufld 25 1); ("vmask", KMask); ("vmask_true", KTrue);
  ("vs1", KV 15); ("vs2", KV 20); ("vs3", KV 7); ("zimm10", KVtype 10); ("zimm11", KVtype 11) ].
Definition dtab : list (string * dkind) := [
  ("csr", DKCsr); ("fflags", DKFflags); ("frd", DKF 7); ("next_pc", DKPc); ("rd", DKX 7); ("vd", DKV 7) ].
Lemma at_range w lo n : 0 <= n -> 0 <= at_ w lo n < 2 ^ n.
Proof. intros. apply Z.mod_pos_bound. apply Z.pow_pos_nonneg; lia. Qed.
Lemma wrap_s v : - 2 ^ 31 <= v < 2 ^ 31 -> wrap I32 v = v.
Proof. intros. unfold wrap. cbn [is_signed half modulus]. lia. Qed.
Lemma wrap_u v : 0 <= v < 2 ^ 32 -> wrap U32 v = v.
Proof. intros. unfold wrap. cbn [is_signed half modulus]. lia. Qed.
Lemma wrap_uh v : 0 <= v < 2 ^ 16 -> wrap U16 v = v.
Proof. intros. unfold wrap. cbn [is_signed half modulus]. lia. Qed.
Lemma wrap_ub v : 0 <= v < 2 ^ 8 -> wrap U8 v = v.
Proof. intros. unfold wrap. cbn [is_signed half modulus]. lia. Qed.
(** The slices of the immediates. *)
Definition one_slice v := v * 2 ^ 0 + 0.
Lemma src_b w : src2 "B_imm12" w = PImm (wrap I32 (sext 13 (at_ w 31 1 * 2 ^ 12 + (at_ w 7 1 * 2 ^ 11 + (at_ w 25 6 * 2 ^ 5 + (at_ w 8 4 * 2 ^ 1 + (0 * 2 ^ 0 + 0))))))).
Proof. reflexivity. Qed.
Lemma src_j w : src2 "J_imm20" w = PImm (wrap I32 (sext 21 (at_ w 31 1 * 2 ^ 20 + (at_ w 12 8 * 2 ^ 12 + (at_ w 20 1 * 2 ^ 11 + (at_ w 21 10 * 2 ^ 1 + (0 * 2 ^ 0 + 0))))))).
Proof. reflexivity. Qed.
Lemma src_s w : src2 "S_imm12" w = PImm (wrap I32 (sext 12 (at_ w 25 7 * 2 ^ 5 + (at_ w 7 5 * 2 ^ 0 + 0)))).
Proof. reflexivity. Qed.
Lemma src_u w : src2 "U_imm20" w = PImm (wrap I32 (at_ w 12 20 * 2 ^ 12 + (0 * 2 ^ 0 + 0))).
Proof. reflexivity. Qed.

Lemma src_plain w :
  src2 "CSR_uimm5" w = PImm (wrap U32 (at_ w 15 5 * 2 ^ 0 + 0)) /\ src2 "csr" w = PImm (wrap U16 (at_ w 20 12 * 2 ^ 0 + 0)) /\
  src2 "I_uimm5" w = PImm (wrap U32 (at_ w 15 5 * 2 ^ 0 + 0)) /\ src2 "nf" w = PImm (wrap U8 (at_ w 29 3 * 2 ^ 0 + 0)) /\
  src2 "pred" w = PImm (wrap U32 (at_ w 24 4 * 2 ^ 0 + 0)) /\ src2 "succ" w = PImm (wrap U32 (at_ w 20 4 * 2 ^ 0 + 0)) /\
  src2 "r_uimm5" w = PImm (wrap U32 (at_ w 20 5 * 2 ^ 0 + 0)) /\ src2 "uimm5" w = PImm (wrap I32 (at_ w 15 5 * 2 ^ 0 + 0)).
Proof. repeat split. Qed.
Lemma src_sext w :
  src2 "I_imm12" w = PImm (wrap I32 (sext 12 (at_ w 20 12 * 2 ^ 0 + 0))) /\ src2 "J_imm12" w = PImm (wrap I32 (sext 12 (at_ w 20 12 * 2 ^ 0 + 0))) /\
  src2 "simm5" w = PImm (wrap I32 (sext 5 (at_ w 15 5 * 2 ^ 0 + 0))) /\ src2 "zimm10" w = PImm (wrap I32 (sext 10 (at_ w 20 10 * 2 ^ 0 + 0))) /\
  src2 "zimm11" w = PImm (wrap I32 (sext 11 (at_ w 20 11 * 2 ^ 0 + 0))).
Proof. repeat split. Qed.
Lemma src_reg w :
  src2 "rs1" w = (if at_ w 15 5 * 2 ^ 0 + 0 =? 0 then PZero else PX (at_ w 15 5 * 2 ^ 0 + 0)) /\
  src2 "rs2" w = (if at_ w 20 5 * 2 ^ 0 + 0 =? 0 then PZero else PX (at_ w 20 5 * 2 ^ 0 + 0)) /\
  src2 "frs1" w = PF (at_ w 15 5 * 2 ^ 0 + 0) /\ src2 "frs2" w = PF (at_ w 20 5 * 2 ^ 0 + 0) /\ src2 "frs3" w = PF (at_ w 27 5 * 2 ^ 0 + 0) /\
  src2 "vd" w = PV (at_ w 7 5 * 2 ^ 0 + 0) /\ src2 "vs1" w = PV (at_ w 15 5 * 2 ^ 0 + 0) /\ src2 "vs2" w = PV (at_ w 20 5 * 2 ^ 0 + 0) /\
  src2 "vs3" w = PV (at_ w 7 5 * 2 ^ 0 + 0) /\
  src2 "vm" w = PImm (if at_ w 25 1 * 2 ^ 0 + 0 =? 0 then 0 else 1) /\
  src2 "vmask" w = (if at_ w 25 1 * 2 ^ 0 + 0 =? 0 then PMaskV0 else PMaskTrue) /\
  src2 "rm" w = (if (0 <=? at_ w 12 3 * 2 ^ 0 + 0) && (at_ w 12 3 * 2 ^ 0 + 0 <=? 7) then PImm (at_ w 12 3 * 2 ^ 0 + 0) else PNull).
Proof. repeat split. Qed.
Lemma plain x : x * 2 ^ 0 + 0 = x.
Proof. rewrite Z.pow_0_r. lia. Qed.
Lemma at_at v n : 0 <= v < 2 ^ n -> at_ v 0 n = v.
Proof. intros. unfold at_. rewrite Z.pow_0_r, Z.div_1_r. now apply Z.mod_small. Qed.
(** An unsigned field as an operand. *)
Lemma ufld_is w lo n v : 0 <= n -> v = at_ w lo n -> operand_is (Ufld lo n) w (PImm v).
Proof.
  intros Hn ->. pose proof (at_range w lo n Hn). exists (at_ w lo n). split; [reflexivity|]. split; [lia|]. split.
  - rewrite Z.pow_0_r. apply Z.mod_1_r.
  - intros i j k [E|[]]. injection E as <- <- <-. now rewrite at_at.
Qed.
(** Signed values are determined by their bits. *)
Lemma sext_range n x : 0 < n -> 0 <= x < 2 ^ n -> - 2 ^ (n - 1) <= sext n x < 2 ^ (n - 1) /\ sext n x mod 2 ^ n = x.
Proof.
  intros Hn Hx. assert (E : 2 ^ n = 2 * 2 ^ (n - 1)) by (rewrite <- Z.pow_succ_r by lia; f_equal; lia).
  unfold sext. destruct (x <? 2 ^ (n - 1)) eqn:C; split; try lia.
  - now apply Z.mod_small.
  - rewrite <- (Z.mod_add _ 1) by lia. replace (x - 2 ^ n + 1 * 2 ^ n) with x by lia. now apply Z.mod_small.
Qed.
Lemma at_mod v w i n k : 0 <= i -> 0 <= n -> i + n <= k -> v mod 2 ^ k = w -> at_ v i n = at_ w i n.
Proof.
  intros Hi Hn Hk <-. unfold at_. apply Z.bits_inj'. intros b Hb. destruct (Z_lt_ge_dec b n).
  - rewrite !Z.mod_pow2_bits_low, !Z.div_pow2_bits by lia. now rewrite Z.mod_pow2_bits_low by lia.
  - now rewrite !Z.mod_pow2_bits_high by lia.
Qed.
Lemma imm_is w n a z x (l : list (Z * Z * Z)) : 0 < n <= 32 -> a = 2 ^ (n - 1) -> 0 <= x < 2 ^ n -> 0 <= z <= n -> x mod 2 ^ z = 0 ->
  (forall i j k, In (i, j, k) l -> 0 <= i /\ 0 <= k /\ i + k <= n /\ at_ x i k = at_ w j k) ->
  operand_is (KImm (- a) a z l) w (PImm (wrap I32 (sext n x))).
Proof.
  intros Hn -> Hx Hz Hm Hl. destruct (sext_range n x ltac:(lia) Hx) as [R M].
  assert (2 ^ (n - 1) <= 2 ^ 31) by (apply Z.pow_le_mono_r; lia).
  rewrite wrap_s by lia. exists (sext n x). split; [reflexivity|]. split; [exact R|]. split.
  - pose proof (at_mod (sext n x) x 0 z n ltac:(lia) ltac:(lia) ltac:(lia) M) as E. unfold at_ in E.
    rewrite Z.pow_0_r, !Z.div_1_r in E. now rewrite E.
  - intros i j k Hin. destruct (Hl i j k Hin) as (A & B & C & <-). now apply (at_mod _ x i k n).
Qed.
Ltac bounds w :=
  repeat match goal with
  | |- context [at_ w ?lo ?n] =>
      let H := fresh "R" in pose proof (at_range w lo n ltac:(lia)) as H;
      change (2 ^ 0) with 1 in H; change (2 ^ 1) with 2 in H; generalize dependent (at_ w lo n); intros
  end.
(** Pieces of a concatenation. *)
Lemma at_low x k y i n : 0 <= i -> 0 <= n -> i + n <= k -> at_ (x * 2 ^ k + y) i n = at_ y i n.
Proof.
  intros. rewrite (at_mod (x * 2 ^ k + y) (y mod 2 ^ k) i n k), (at_mod y (y mod 2 ^ k) i n k); try lia; try reflexivity.
  rewrite Z.add_comm. apply Z.mod_add. apply Z.pow_nonzero; lia.
Qed.
Lemma at_high x k y i n : 0 <= k <= i -> 0 <= n -> 0 <= y < 2 ^ k -> at_ (x * 2 ^ k + y) i n = at_ x (i - k) n.
Proof.
  intros Hi Hn Hy. unfold at_. replace (2 ^ i) with (2 ^ k * 2 ^ (i - k)) by (rewrite <- Z.pow_add_r by lia; f_equal; lia).
  rewrite <- Z.div_div by (try apply Z.pow_nonzero; try apply Z.pow_pos_nonneg; lia).
  rewrite Z.div_add_l by (apply Z.pow_nonzero; lia). rewrite (Z.div_small y) by lia. now rewrite Z.add_0_r.
Qed.
Lemma at_of_at w lo n m : 0 <= m <= n -> 0 <= lo -> at_ (at_ w lo n) 0 m = at_ w lo m.
Proof.
  intros. unfold at_. apply Z.bits_inj'. intros b Hb. destruct (Z_lt_ge_dec b m).
  - rewrite !Z.mod_pow2_bits_low, !Z.div_pow2_bits by lia. rewrite Z.mod_pow2_bits_low by lia.
    rewrite Z.div_pow2_bits by lia. f_equal. lia.
  - now rewrite !Z.mod_pow2_bits_high by lia.
Qed.
Lemma cat_range x a k y : 0 <= a -> 0 <= k -> 0 <= x < 2 ^ a -> 0 <= y < 2 ^ k -> 0 <= x * 2 ^ k + y < 2 ^ (a + k).
Proof. intros. rewrite Z.pow_add_r by lia. nia. Qed.
Ltac imm_range :=
  match goal with
  | |- 0 <= at_ ?w ?lo ?n * 2 ^ ?k + ?y < ?m =>
      change m with (2 ^ (n + k)); apply cat_range; [lia|lia|apply at_range; lia|imm_range]
  | |- _ => lia
  end.
Ltac imm_pieces w := cbn [In]; intros i j k H;
  repeat (destruct H as [H|H]; [injection H as <- <- <-; (split; [lia|]); (split; [lia|]); (split; [lia|])|]); try destruct H;
  repeat (rewrite at_low by lia);
  (rewrite at_high; [rewrite Z.sub_diag; apply at_of_at; lia|lia|lia|imm_range]).
Lemma b_is w : operand_is Bimm w (src2 "B_imm12" w).
Proof.
  rewrite src_b. apply (imm_is w 13 4096 1); [lia|reflexivity|imm_range|lia| |imm_pieces w].
  generalize (at_ w 31 1) (at_ w 7 1) (at_ w 25 6) (at_ w 8 4). intros. lia.
Qed.
Lemma j_is w : operand_is Jimm w (src2 "J_imm20" w).
Proof.
  rewrite src_j. apply (imm_is w 21 1048576 1); [lia|reflexivity|imm_range|lia| |imm_pieces w].
  generalize (at_ w 31 1) (at_ w 12 8) (at_ w 20 1) (at_ w 21 10). intros. lia.
Qed.
Lemma s_is w : operand_is Simm w (src2 "S_imm12" w).
Proof.
  rewrite src_s. apply (imm_is w 12 2048 0); [lia|reflexivity|imm_range|lia|apply Z.mod_1_r|imm_pieces w].
Qed.
Lemma i_is w : operand_is Iimm w (PImm (wrap I32 (sext 12 (at_ w 20 12)))).
Proof.
  apply (imm_is w 12 2048 0); [lia|reflexivity|apply at_range; lia|lia|apply Z.mod_1_r|].
  cbn [In]. intros i j k [H|[]]. injection H as <- <- <-. repeat split; try lia. apply at_of_at; lia.
Qed.
Lemma v_is w : operand_is Vsimm w (PImm (wrap I32 (sext 5 (at_ w 15 5)))).
Proof.
  apply (imm_is w 5 16 0); [lia|reflexivity|apply at_range; lia|lia|apply Z.mod_1_r|].
  cbn [In]. intros i j k [H|[]]. injection H as <- <- <-. repeat split; try lia. apply at_of_at; lia.
Qed.
Lemma u_is w : operand_is Uimm w (src2 "U_imm20" w).
Proof.
  rewrite src_u. pose proof (at_range w 12 20 ltac:(lia)) as R.
  assert (E : wrap I32 (at_ w 12 20 * 2 ^ 12 + (0 * 2 ^ 0 + 0)) = wrap I32 (sext 32 (at_ w 12 20 * 2 ^ 12 + (0 * 2 ^ 0 + 0)))).
  { unfold sext. destruct (_ <? _) eqn:C; [reflexivity|]. unfold wrap. cbn [is_signed half modulus].
    generalize dependent (at_ w 12 20). intros. lia. }
  rewrite E. apply (imm_is w 32 2147483648 12); [lia|reflexivity|imm_range|lia| |imm_pieces w].
  generalize (at_ w 12 20). intros. lia.
Qed.
Lemma vt_is w n : 0 < n <= 11 -> operand_is (KVtype n) w (PImm (wrap I32 (sext n (at_ w 20 n)))).
Proof.
  intros Hn. pose proof (at_range w 20 n ltac:(lia)) as R.
  destruct (sext_range n (at_ w 20 n) ltac:(lia) R) as [B M].
  assert (2 ^ (n - 1) <= 2 ^ 31) by (apply Z.pow_le_mono_r; lia).
  rewrite wrap_s by lia. exists (sext n (at_ w 20 n)). split; [reflexivity|]. split; [exact M|].
  intros Z. unfold sext. destruct (at_ w 20 n <? 2 ^ (n - 1)) eqn:C; [reflexivity|]. exfalso.
  assert (T : at_ (at_ w 20 n) (n - 1) 1 = 1).
  { unfold at_ at 1. assert (P : 0 < 2 ^ (n - 1)) by (apply Z.pow_pos_nonneg; lia).
    assert (E : 2 ^ n = 2 * 2 ^ (n - 1)) by (rewrite <- Z.pow_succ_r by lia; f_equal; lia).
    assert (at_ w 20 n / 2 ^ (n - 1) = 1) as ->; [|reflexivity].
    symmetry. apply (Z.div_unique _ _ _ (at_ w 20 n - 2 ^ (n - 1))); lia. }
  assert (F : at_ (at_ w 20 n) (n - 1) 1 = at_ w (20 + n - 1) 1); [|congruence].
  clear - Hn. unfold at_. apply Z.bits_inj'. intros b Hb. destruct (Z_lt_ge_dec b 1).
  - rewrite !Z.mod_pow2_bits_low, !Z.div_pow2_bits by lia. rewrite Z.mod_pow2_bits_low by lia.
    rewrite Z.div_pow2_bits by lia. f_equal. lia.
  - now rewrite !Z.mod_pow2_bits_high by lia.
Qed.
Lemma sh_is w v : v mod 32 = at_ w 15 5 -> operand_is KShift w (PImm v).
Proof. intros H. exists v. auto. Qed.
Lemma ktab_sound w n k : In (n, k) ktab -> operand_is k w (src2 n w).
Proof.
  destruct (src_plain w) as (S1 & S2 & S3 & S4 & S5 & S6 & S7 & S8).
  destruct (src_sext w) as (T1 & T2 & T3 & T4 & T5).
  destruct (src_reg w) as (G1 & G2 & G3 & G4 & G5 & G6 & G7 & G8 & G9 & G10 & G11 & G12).
  rewrite plain in *.
  assert (B5 : 0 <= at_ w 15 5 < 32) by (apply (at_range w 15 5); lia).
  assert (X : operand_is KShift w (PImm (wrap I32 (sext 5 (at_ w 15 5))))).
  { destruct (sext_range 5 (at_ w 15 5) ltac:(lia) B5) as [R M]. apply sh_is. rewrite wrap_s by (change (2 ^ (5 - 1)) with 16 in R; lia).
    exact M. }
  assert (Y : forall lo n, 0 <= n <= 12 -> wrap U32 (at_ w lo n) = at_ w lo n /\ wrap I32 (at_ w lo n) = at_ w lo n /\ wrap U16 (at_ w lo n) = at_ w lo n).
  { intros lo m Hm. pose proof (at_range w lo m ltac:(lia)) as R. assert (2 ^ m <= 2 ^ 12) by (apply Z.pow_le_mono_r; lia).
    split; [apply wrap_u; lia|]. split; [apply wrap_s; lia|apply wrap_uh; lia]. }
  assert (Y8 : wrap U8 (at_ w 29 3) = at_ w 29 3).
  { apply wrap_ub. pose proof (at_range w 29 3 ltac:(lia)). lia. }
  assert (V : forall lo n v, 0 <= n -> v = at_ w lo n -> operand_is (Ufld lo n) w (PImm v)) by (intros; now apply ufld_is).
  assert (E5 : wrap I32 (at_ w 15 5) = at_ w 15 5) by (apply Y; lia).
  unfold ktab. cbn [In]. intros H.
  destruct H as [H|H]; [injection H as <- <-; apply b_is|].
  destruct H as [H|H]; [injection H as <- <-; rewrite S1; apply V; [lia|apply Y; lia]|].
  destruct H as [H|H]; [injection H as <- <-; reflexivity|].
  destruct H as [H|H]; [injection H as <- <-; reflexivity|].
  destruct H as [H|H]; [injection H as <- <-; reflexivity|].
  destruct H as [H|H]; [injection H as <- <-; rewrite S2; apply V; [lia|apply Y; lia]|].
  destruct H as [H|H]; [injection H as <- <-; exact G3|].
  destruct H as [H|H]; [injection H as <- <-; exact G4|].
  destruct H as [H|H]; [injection H as <- <-; exact G5|].
  destruct H as [H|H]; [injection H as <- <-; rewrite T1; apply i_is|].
  destruct H as [H|H]; [injection H as <- <-; rewrite S3; apply V; [lia|apply Y; lia]|].
  destruct H as [H|H]; [injection H as <- <-; rewrite T2; apply i_is|].
  destruct H as [H|H]; [injection H as <- <-; apply j_is|].
  destruct H as [H|H]; [injection H as <- <-; rewrite S4; apply V; [lia|exact Y8]|].
  destruct H as [H|H]; [injection H as <- <-; rewrite S5; apply V; [lia|apply Y; lia]|].
  destruct H as [H|H]; [injection H as <- <-; rewrite S7; apply V; [lia|apply Y; lia]|].
  destruct H as [H|H]; [injection H as <- <-; rewrite G12|].
  { replace ((0 <=? at_ w 12 3) && (at_ w 12 3 <=? 7)) with true by (pose proof (at_range w 12 3 ltac:(lia)); lia).
    apply V; [lia|reflexivity]. }
  destruct H as [H|H]; [injection H as <- <-; exact G1|].
  destruct H as [H|H]; [injection H as <- <-; exact G2|].
  destruct H as [H|H]; [injection H as <- <-; apply s_is|].
  destruct H as [H|H]; [injection H as <- <-; rewrite T3; apply v_is|].
  destruct H as [H|H]; [injection H as <- <-; rewrite T3; exact X|].
  destruct H as [H|H]; [injection H as <- <-; rewrite S6; apply V; [lia|apply Y; lia]|].
  destruct H as [H|H]; [injection H as <- <-; apply u_is|].
  destruct H as [H|H]; [injection H as <- <-; rewrite S8; apply V; [lia|exact E5]|].
  destruct H as [H|H]; [injection H as <- <-; rewrite S8, E5; apply sh_is; apply Z.mod_small; exact B5|].
  destruct H as [H|H]; [injection H as <- <-; exact G6|].
  destruct H as [H|H]; [injection H as <- <-; rewrite G10|].
  { apply V; [lia|]. pose proof (at_range w 25 1 ltac:(lia)). destruct (at_ w 25 1 =? 0) eqn:E; lia. }
  destruct H as [H|H]; [injection H as <- <-; exact G11|].
  destruct H as [H|H]; [injection H as <- <-; reflexivity|].
  destruct H as [H|H]; [injection H as <- <-; exact G7|].
  destruct H as [H|H]; [injection H as <- <-; exact G8|].
  destruct H as [H|H]; [injection H as <- <-; exact G9|].
  destruct H as [H|H]; [injection H as <- <-; rewrite T4; apply vt_is; lia|].
  destruct H as [H|H]; [injection H as <- <-; rewrite T5; apply vt_is; lia|]. destruct H.
Qed.
Lemma dtab_sound w n k : In (n, k) dtab -> dest_is k w (dst2 n w).
Proof.
  assert (D : dst2 "frd" w = DF (at_ w 7 5 * 2 ^ 0 + 0) /\ dst2 "vd" w = DV (at_ w 7 5 * 2 ^ 0 + 0) /\
              dst2 "rd" w = (if at_ w 7 5 * 2 ^ 0 + 0 =? 0 then DX0 else DX (at_ w 7 5 * 2 ^ 0 + 0))) by (repeat split).
  destruct D as (D1 & D2 & D3). rewrite plain in *. unfold dtab. cbn [In]. intros H.
  repeat (destruct H as [H|H]; [injection H as <- <-; rewrite ?D1, ?D2, ?D3; reflexivity|]); destruct H.
Qed.

(** ** Rows against the manual *)
Definition kind_eq_dec (a b : kind) : {a = b} + {a <> b}.
Proof. repeat (decide equality). Defined.
Definition dkind_eq_dec (a b : dkind) : {a = b} + {a <> b}.
Proof. repeat (decide equality). Defined.
Definition fn2_eq_dec (a b : fn2) : {a = b} + {a <> b}.
Proof. repeat (decide equality). Defined.
Definition dec {P} (x : {P} + {~ P}) : bool := if x then true else false.
Definition has_kind (n : string) (k : kind) : bool := existsb (fun t => String.eqb n (fst t) && dec (kind_eq_dec k (snd t))) ktab.
Definition has_dkind (n : string) (k : dkind) : bool := existsb (fun t => String.eqb n (fst t) && dec (dkind_eq_dec k (snd t))) dtab.
Fixpoint all2b {A B} (f : A -> B -> bool) (l : list A) (m : list B) : bool :=
  match l, m with [], [] => true | a :: l', b :: m' => f a b && all2b f l' m' | _, _ => false end.
Definition same_op (m : ment) (e : entry2) : bool :=
  dec (list_eq_dec fn2_eq_dec (e2_sem e) (m_sem m)) && all2b has_kind (e2_src e) (m_src m) && all2b has_dkind (e2_dst e) (m_dst m) &&
  match m_child m, e2_child e with
  | None, None => true
  | Some (s, t), Some (s', t') => all2b has_kind s' s && all2b has_dkind t' t
  | _, _ => false
  end.
Definition nop_op (m : ment) (e : entry2) : bool :=
  dec (list_eq_dec fn2_eq_dec (e2_sem e) [Fn "RiscVINop" []]) && match e2_child e with None => true | _ => false end &&
  existsb (fun c => implies (join (psig (m_pat m)) (rsig e)) (c, [])) (m_nop m).
Lemma has_kind_sound w n k : has_kind n k = true -> operand_is k w (src2 n w).
Proof.
  unfold has_kind. intros H. apply existsb_exists in H as ([n' k'] & Hin & H). cbn [fst snd] in H.
  apply andb_true_iff in H as [H1 H2]. apply String.eqb_eq in H1 as <-.
  unfold dec in H2. destruct (kind_eq_dec k k') as [<-|]; [|discriminate]. now apply ktab_sound.
Qed.
Lemma has_dkind_sound w n k : has_dkind n k = true -> dest_is k w (dst2 n w).
Proof.
  unfold has_dkind. intros H. apply existsb_exists in H as ([n' k'] & Hin & H). cbn [fst snd] in H.
  apply andb_true_iff in H as [H1 H2]. apply String.eqb_eq in H1 as <-.
  unfold dec in H2. destruct (dkind_eq_dec k k') as [<-|]; [|discriminate]. now apply dtab_sound.
Qed.
Lemma srcs_sound w l m : all2b has_kind l m = true -> list_is operand_is w m (map (fun n => src2 n w) l).
Proof.
  revert m. induction l as [|n l IH]; intros [|k m]; try discriminate; cbn [all2b map]; [constructor|].
  intros H. apply andb_true_iff in H as [H1 H2]. constructor; [now apply has_kind_sound|now apply IH].
Qed.
Lemma dsts_sound w l m : all2b has_dkind l m = true -> list_is dest_is w m (map (fun n => dst2 n w) l).
Proof.
  revert m. induction l as [|n l IH]; intros [|k m]; try discriminate; cbn [all2b map]; [constructor|].
  intros H. apply andb_true_iff in H as [H1 H2]. constructor; [now apply has_dkind_sound|now apply IH].
Qed.
Lemma same_sound w m e : same_op m e = true -> does m w (act_of e w).
Proof.
  unfold same_op. rewrite !andb_true_iff. intros (((H1 & H2) & H3) & H4). left. unfold act_of. cbn [a_sem a_src a_dst a_child].
  split. { unfold dec in H1. now destruct (list_eq_dec fn2_eq_dec (e2_sem e) (m_sem m)). }
  split; [now apply srcs_sound|]. split; [now apply dsts_sound|].
  destruct (m_child m) as [[s t]|], (e2_child e) as [[s' t']|]; try discriminate; [|exact I].
  apply andb_true_iff in H4 as [H4 H5]. cbn [option_map fst snd]. split; [now apply srcs_sound|now apply dsts_sound].
Qed.
Lemma nop_sound w m e : nop_op m e = true -> meets w (psig (m_pat m)) -> meets w (rsig e) -> does m w (act_of e w).
Proof.
  unfold nop_op. rewrite !andb_true_iff. intros ((H1 & H2) & H3) P R. right. unfold act_of. cbn [a_sem a_child].
  split. { unfold dec in H1. now destruct (list_eq_dec fn2_eq_dec (e2_sem e) [Fn "RiscVINop" []]). }
  split. { now destruct (e2_child e). }
  apply existsb_exists in H3 as (c & Hc & H). exists c. split; [exact Hc|].
  exact (proj1 (implies_sound w _ _ H (join_sound _ _ _ P R))).
Qed.

Definition rows : list (sig * entry2) := map (fun e => (rsig e, e)) all2.
Definition agree (m : ment) (ps : sig) (r : sig * entry2) : bool :=
  if clash ps (fst r) then true else if same_op m (snd r) then true else nop_op m (snd r).
Lemma manual_good : forallb (fun m => good_pat (m_pat m)) (manual ++ odd) = true.
Proof. vm_compute. reflexivity. Qed.
Lemma others_good : forallb good_pat (holes ++ ffseg ++ map snd ff ++ tolerated) = true.
Proof. vm_compute. reflexivity. Qed.
Lemma agree_all : forallb (fun m => let ps := psig (m_pat m) in forallb (agree m ps) rows) manual = true.
Proof. vm_cast_no_check (eq_refl true). Qed.
Definition pt (p : pat) : tgt := (psig p, pat_atoms p).
Definition row_tgts : list tgt := map (fun e => (rsig e, row_atoms e)) all2.
Definition splits : list (Z * Z * Z) :=
  [(7, 5, 0); (15, 5, 0); (25, 1, 0); (20, 12, 0); (20, 12, 2099); (28, 4, 0); (20, 4, 0); (24, 4, 0)] ++
  map (fun r => (20, 5, r)) [0; 1; 2; 3; 4; 5; 7; 31].
Lemma cover_all : (let ts := row_tgts ++ map pt holes in forallb (fun m => covers splits (psig (m_pat m)) ts) manual) = true.
Proof. vm_cast_no_check (eq_refl true). Qed.
Lemma holes_clash : (let rs := rows in forallb (fun p => let ps := psig p in forallb (fun r => clash ps (fst r)) rs) (holes ++ ffseg)) = true.
Proof. vm_cast_no_check (eq_refl true). Qed.
Lemma in_rows e : In e all2 -> In (rsig e, e) rows.
Proof. intros H. unfold rows. apply in_map_iff. exists e. auto. Qed.

Lemma good_of {A} (f : A -> bool) l a : forallb f l = true -> In a l -> f a = true.
Proof. rewrite forallb_forall. auto. Qed.
(** A row that matches a word of the manual does what the manual says. *)
Lemma row_does w m e : In m manual -> meets_pat w (m_pat m) -> In e all2 -> matches2 w e = true -> does m w (act_of e w).
Proof.
  intros Hm Hp He Hw. pose proof (good_of _ _ _ agree_all Hm) as H. cbv zeta in H.
  pose proof (good_of _ _ _ H (in_rows e He)) as A. unfold agree in A. cbn [fst snd] in A.
  assert (P : meets w (psig (m_pat m))).
  { apply psig_sound; [|exact Hp]. apply (good_of _ _ _ manual_good). apply in_app_iff. now left. }
  pose proof (rsig_sound w e He Hw) as R.
  destruct (clash (psig (m_pat m)) (rsig e)) eqn:C; [destruct (DecodeProofs.clash_sound w _ _ C P R)|].
  destruct (same_op m e) eqn:S; [now apply same_sound|now apply nop_sound].
Qed.
Lemma none_matches w p e : In p (holes ++ ffseg) -> meets_pat w p -> In e all2 -> matches2 w e = false.
Proof.
  intros Hp Hw He. destruct (matches2 w e) eqn:M; [exfalso|reflexivity].
  pose proof (good_of _ _ _ holes_clash Hp) as H. cbv zeta in H.
  pose proof (good_of _ _ _ H (in_rows e He)) as C. cbn [fst] in C.
  apply (DecodeProofs.clash_sound w _ _ C); [|now apply rsig_sound]. apply psig_sound; [|exact Hw].
  apply (good_of _ _ _ others_good). rewrite !in_app_iff in *. tauto.
Qed.
Lemma hole_rejected w p : In p (holes ++ ffseg) -> meets_pat w p -> rejected w.
Proof.
  intros Hp Hw d Hd. specialize (Hd w). unfold decode2. destruct (d w) as [e|]; [|reflexivity].
  destruct Hd as [He Hm]. now rewrite (none_matches w p e Hp Hw He) in Hm.
Qed.
Lemma splits_ok : forallb bit_split splits = true.
Proof. reflexivity. Qed.
Lemma word_covered w m : In m manual -> meets_pat w (m_pat m) ->
  (exists e, In e all2 /\ matches2 w e = true) \/ (exists p, In p holes /\ meets_pat w p).
Proof.
  intros Hm Hp. pose proof cover_all as H. cbv zeta in H. pose proof (good_of _ _ _ H Hm) as C.
  assert (P : meets w (psig (m_pat m))).
  { apply psig_sound; [|exact Hp]. apply (good_of _ _ _ manual_good). apply in_app_iff. now left. }
  destruct (covers_sound w _ splits_ok _ _ C P) as (t & Ht & Hh). apply in_app_iff in Ht as [Ht|Ht].
  - left. apply in_map_iff in Ht as (e & <- & He). exists e. split; [exact He|]. now apply (row_iff e w He).
  - right. apply in_map_iff in Ht as (p & <- & Hin). exists p. split; [exact Hin|exact Hh].
Qed.
Theorem manual_decodes d w m : decoder2_ok d -> In m manual -> meets_pat w (m_pat m) ->
  (exists a, decode2 d w = Some a /\ does m w a) \/ (decode2 d w = None /\ exists p, In p holes /\ meets_pat w p).
Proof.
  intros Hd Hm Hp. pose proof (Hd w) as H. unfold decode2. destruct (d w) as [e|] eqn:E.
  - left. destruct H as [He Hw]. exists (act_of e w). split; [reflexivity|]. now apply row_does.
  - right. split; [reflexivity|]. destruct (word_covered w m Hm Hp) as [(e & He & Hw)|Hh]; [|exact Hh].
    specialize (H e He). congruence.
Qed.

(** ** Accepted words *)
Definition splits1 : list (Z * Z * Z) := [(29, 3, 0); (25, 1, 0); (28, 1, 0); (7, 5, 0); (20, 5, 0); (20, 12, 2099)].
Lemma accept_all : (let ts := map pt accepted_pats in forallb (fun e => covers splits1 (rsig e) ts) all2) = true.
Proof. vm_cast_no_check (eq_refl true). Qed.
Lemma splits1_ok : forallb bit_split splits1 = true.
Proof. reflexivity. Qed.
Theorem accepted_known d w a : decoder2_ok d -> decode2 d w = Some a -> exists p, In p accepted_pats /\ meets_pat w p.
Proof.
  intros Hd H. specialize (Hd w). unfold decode2 in H. destruct (d w) as [e|]; [|discriminate]. destruct Hd as [He Hw].
  pose proof accept_all as A. cbv zeta in A. pose proof (good_of _ _ _ A He) as C.
  destruct (covers_sound w _ splits1_ok _ _ C (rsig_sound w e He Hw)) as (t & Ht & Hh).
  apply in_map_iff in Ht as (p & <- & Hin). exists p. split; [exact Hin|exact Hh].
Qed.
(** ** One instruction per word *)
Lemma manual_clash : DecodeProofs.pairwise clash (map (fun m => psig (m_pat m)) (manual ++ odd)) = true.
Proof. vm_cast_no_check (eq_refl true). Qed.
Theorem manual_unique w m1 m2 : In m1 (manual ++ odd) -> In m2 (manual ++ odd) -> meets_pat w (m_pat m1) -> meets_pat w (m_pat m2) -> m1 = m2.
Proof.
  intros I1 I2 H1 H2. pose proof (DecodeProofs.pairwise_map _ _ _ manual_clash) as P. cbv beta in P.
  assert (S : forall m, In m (manual ++ odd) -> meets_pat w (m_pat m) -> meets w (psig (m_pat m))).
  { intros m Hm Hp. apply psig_sound; [|exact Hp]. now apply (good_of _ _ _ manual_good). }
  destruct (DecodeProofs.pairwise_sound _ _ m1 m2 P I1 I2) as [E|[E|E]]; [exact E| |]; exfalso.
  - exact (DecodeProofs.clash_sound w _ _ E (S _ I1 H1) (S _ I2 H2)).
  - exact (DecodeProofs.clash_sound w _ _ E (S _ I2 H2) (S _ I1 H1)).
Qed.

(** Which row is taken does not matter, except where doing nothing is as good. *)
Definition opt_pair_dec (a b : option (list string * list string)) : {a = b} + {a <> b}.
Proof. repeat (decide equality). Defined.
Definition same_row (e f : entry2) : bool :=
  if dec (list_eq_dec fn2_eq_dec (e2_sem e) (e2_sem f)) then
  if dec (list_eq_dec string_dec (e2_src e) (e2_src f)) then
  if dec (list_eq_dec string_dec (e2_dst e) (e2_dst f)) then dec (opt_pair_dec (e2_child e) (e2_child f)) else false else false else false.
Definition overlap_ok (a b : sig * entry2) : bool :=
  if clash (fst a) (fst b) then true
  else if same_row (snd a) (snd b) then true
  else existsb (fun c => implies (join (fst a) (fst b)) (c, [])) free_choice.
Lemma overlaps : DecodeProofs.pairwise overlap_ok rows = true.
Proof. vm_cast_no_check (eq_refl true). Qed.
Lemma same_row_act e f w : same_row e f = true -> act_of e w = act_of f w.
Proof.
  unfold same_row, dec, act_of.
  destruct (list_eq_dec fn2_eq_dec (e2_sem e) (e2_sem f)) as [->|]; [|discriminate].
  destruct (list_eq_dec string_dec (e2_src e) (e2_src f)) as [->|]; [|discriminate].
  destruct (list_eq_dec string_dec (e2_dst e) (e2_dst f)) as [->|]; [|discriminate].
  destruct (opt_pair_dec (e2_child e) (e2_child f)) as [->|]; [|discriminate]. reflexivity.
Qed.
Theorem row_choice d1 d2 w : decoder2_ok d1 -> decoder2_ok d2 ->
  decode2 d1 w = decode2 d2 w \/ (exists c, In c free_choice /\ forall lo n v, In (lo, n, v) c -> at_ w lo n = v).
Proof.
  intros H1 H2. specialize (H1 w). specialize (H2 w). unfold decode2.
  destruct (d1 w) as [e|], (d2 w) as [f|]; cbn [option_map].
  - destruct H1 as [I1 M1], H2 as [I2 M2].
    pose proof (rsig_sound w e I1 M1) as R1. pose proof (rsig_sound w f I2 M2) as R2.
    assert (L : forall x y, meets w (rsig x) -> meets w (rsig y) -> overlap_ok (rsig x, x) (rsig y, y) = true ->
                act_of x w = act_of y w \/ (exists c, In c free_choice /\ forall lo n v, In (lo, n, v) c -> at_ w lo n = v)).
    { intros x y Rx Ry O. unfold overlap_ok in O. cbn [fst snd] in O.
      destruct (clash (rsig x) (rsig y)) eqn:C; [destruct (DecodeProofs.clash_sound w _ _ C Rx Ry)|].
      destruct (same_row x y) eqn:S; [left; now apply same_row_act|]. right.
      apply existsb_exists in O as (c & Hc & O). exists c. split; [exact Hc|].
      exact (proj1 (implies_sound w _ _ O (join_sound _ _ _ Rx Ry))). }
    destruct (DecodeProofs.pairwise_sound _ _ _ _ overlaps (in_rows e I1) (in_rows f I2)) as [E|[E|E]].
    + assert (e = f) as -> by (exact (f_equal snd E)). now left.
    + destruct (L e f R1 R2 E) as [->|X]; auto.
    + destruct (L f e R2 R1 E) as [->|X]; auto.
  - destruct H1 as [I1 M1]. specialize (H2 e I1). congruence.
  - destruct H2 as [I2 M2]. specialize (H1 f I2). congruence.
  - now left.
Qed.
(** ** Every operand of a row has a getter *)
Definition has_getters (e : entry2) : bool :=
  forallb (fun n => existsb (fun t => String.eqb n (fst t)) ktab) (e2_src e ++ match e2_child e with Some (s, _) => s | None => [] end) &&
  forallb (fun n => existsb (fun t => String.eqb n (fst t)) dtab) (e2_dst e ++ match e2_child e with Some (_, t) => t | None => [] end).
Lemma getters_all : forallb has_getters all2 = true.
Proof. vm_compute. reflexivity. Qed.
Lemma not_null w k o : operand_is k w o -> o <> PNull.
Proof. destruct k; cbn; intros H; try (destruct H as (v & -> & _); discriminate); subst o; try (destruct (_ =? _)); discriminate. Qed.
Lemma dnot_null w k o : dest_is k w o -> o <> DNull.
Proof. destruct k; cbn; intros ->; try (destruct (_ =? _)); discriminate. Qed.
Theorem operands_exist d w a : decoder2_ok d -> decode2 d w = Some a ->
  ~ In PNull (a_src a) /\ ~ In DNull (a_dst a) /\
  match a_child a with Some (s, t) => ~ In PNull s /\ ~ In DNull t | None => True end.
Proof.
  intros Hd H. specialize (Hd w). unfold decode2 in H. destruct (d w) as [e|]; [|discriminate]. destruct Hd as [He _].
  injection H as <-. pose proof (good_of _ _ _ getters_all He) as G. unfold has_getters in G.
  apply andb_true_iff in G as [G1 G2]. rewrite forallb_app in G1, G2. apply andb_true_iff in G1 as [G1 G3], G2 as [G2 G4].
  assert (A : forall l, forallb (fun n => existsb (fun t => String.eqb n (fst t)) ktab) l = true -> ~ In PNull (map (fun n => src2 n w) l)).
  { intros l Hl Hin. apply in_map_iff in Hin as (n & Hn & Hin). pose proof (good_of _ _ _ Hl Hin) as X. cbv beta in X.
    apply existsb_exists in X as ([n' k] & Hk & X). cbn [fst] in X. apply String.eqb_eq in X as <-.
    exact (not_null w k _ (ktab_sound w n k Hk) Hn). }
  assert (B : forall l, forallb (fun n => existsb (fun t => String.eqb n (fst t)) dtab) l = true -> ~ In DNull (map (fun n => dst2 n w) l)).
  { intros l Hl Hin. apply in_map_iff in Hin as (n & Hn & Hin). pose proof (good_of _ _ _ Hl Hin) as X. cbv beta in X.
    apply existsb_exists in X as ([n' k] & Hk & X). cbn [fst] in X. apply String.eqb_eq in X as <-.
    exact (dnot_null w k _ (dtab_sound w n k Hk) Hn). }
  unfold act_of. cbn [a_src a_dst a_child]. split; [now apply A|]. split; [now apply B|].
  destruct (e2_child e) as [[s t]|]; cbn [option_map fst snd]; [|exact I]. split; [now apply A|now apply B].
Qed.

(** ** Patterns with a single row *)
Definition row2 (n : string) : option entry2 := List.find (fun e => String.eqb n (e2_name e)) all2.
Definition sole (p : pat) (n : string) : bool :=
  good_pat p &&
  match row2 n with
  | Some e => implies (psig p) (row_atoms e) && forallb (fun r => if clash (psig p) (fst r) then true else same_row (snd r) e) rows
  | None => false
  end.
Lemma sole_decodes d w p n e : decoder2_ok d -> sole p n = true -> row2 n = Some e -> meets_pat w p ->
  decode2 d w = Some (act_of e w).
Proof.
  intros Hd S R Hp. unfold sole in S. rewrite R in S. rewrite !andb_true_iff in S. destruct S as (G & I & A).
  pose proof (psig_sound w p G Hp) as P. apply find_some in R as [Hin _].
  assert (M : matches2 w e = true) by (apply (row_iff e w Hin); exact (implies_sound w _ _ I P)).
  specialize (Hd w). unfold decode2. destruct (d w) as [f|]; [|specialize (Hd e Hin); congruence].
  destruct Hd as [Hf Mf]. pose proof (good_of _ _ _ A (in_rows f Hf)) as C. cbn [fst snd] in C.
  destruct (clash (psig p) (rsig f)) eqn:K; [destruct (DecodeProofs.clash_sound w _ _ K P (rsig_sound w f Hf Mf))|].
  cbn [option_map]. f_equal. now apply same_row_act.
Qed.
