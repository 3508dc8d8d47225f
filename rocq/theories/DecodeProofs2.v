(** * Fields of a word select semantics; operand groups cover the accesses *)
From Verif Require Import CInt Lane LaneSpec LaneProofs LaneCor VecModel VecSpec VecProofs VecEl VecFam VecPerm VecFrame
  ConvModel ConvSpec ConvProofs ConvProofs2 MemModel MemSpec MemProofs
  DecodeTypes DecodeModel DecodeSpec DecodeProofs.
From Coq Require Import ZifyBool ZifyNat.
Import ListNotations.
Open Scope string_scope.
Open Scope Z_scope.
Ltac Zify.zify_post_hook ::= Z.div_mod_to_equations.

(** ** Bits fixed by a row *)
Definition known (e : entry) (lo k : Z) : option Z :=
  let '(m, x) := mv (eqs e) in
  if Z.land (fmask lo k) m =? fmask lo k then Some (xbits x lo k) else None.
Lemma known_sound w e lo k v : 0 <= lo -> 0 <= k -> matches w e = true -> known e lo k = Some v -> xbits w lo k = v.
Proof.
  intros Hl Hk Hm. unfold known. pose proof (sig_sound w e Hm) as Hs. unfold sig_of, meets in Hs.
  destruct (mv (eqs e)) as [m x]. destruct Hs as [Hs _].
  destruct (Z.eqb_spec (Z.land (fmask lo k) m) (fmask lo k)) as [E|]; [|discriminate].
  intros H. injection H as <-. now apply (covered_bits w m).
Qed.

(** ** The mnemonics *)
Definition scalarb (s : sem) : bool := match s with SmScalar _ => true | _ => false end.
Definition vec_entries : list entry := filter (fun e => negb (scalarb (e_sem e))) all_entries.
Lemma meanings : map (fun e => meaning (e_name e)) vec_entries = map (fun e => Some (e_sem e)) vec_entries.
Proof. vm_compute. reflexivity. Qed.
Lemma meanings_scalar : forallb (fun e => negb (scalarb (e_sem e)) || match meaning (e_name e) with None => true | _ => false end) all_entries = true.
Proof. vm_compute. reflexivity. Qed.
Theorem meaning_ok e : In e all_entries ->
  (~ is_scalar_op (e_sem e) -> meaning (e_name e) = Some (e_sem e)) /\
  (is_scalar_op (e_sem e) -> meaning (e_name e) = None).
Proof.
  intros Hin. split; intros Hs.
  - assert (Hv : In e vec_entries).
    { apply filter_In. split; [exact Hin|]. destruct (e_sem e); try reflexivity. destruct Hs. exact I. }
    pose proof meanings as H. revert H Hv. generalize vec_entries. induction l as [|a l IH]; [intros _ []|].
    cbn [map]. intros H. injection H as H1 H2. intros [->|Hv]; auto.
  - pose proof meanings_scalar as H. rewrite forallb_forall in H. specialize (H e Hin).
    destruct (e_sem e); try destruct Hs. cbn [scalarb negb orb] in H. destruct (meaning (e_name e)); [discriminate|reflexivity].
Qed.

(** ** Field selection *)
Definition bit_known (e : entry) (lo : Z) (b : bool) : bool :=
  match known e lo 1 with Some v => Bool.eqb b (v =? 1) | None => false end.
Definition has_known (e : entry) (lo k : Z) (v : Z) : bool :=
  match known e lo k with Some u => u =? v | None => false end.
Definition szb (e : entry) (lo : Z) (T : ity) : bool :=
  match known e lo 2 with Some u => bits T =? 8 * 2 ^ u | None => false end.
Definition width_freeb (i : vinst) : bool :=
  match i with
  | VEl OAnd _ | VEl OOr _ | VEl OXor _ | VUn UNot _ | VUn UMv _ | VPerm PMvp _ => true
  | _ => false
  end.
Definition two_operandsb (i : vinst) : bool := match i with VPair _ _ _ | VUn _ _ => false | _ => true end.
Definition selectb (e : entry) : bool :=
  match e_sem e with
  | SmVec i scalar strip =>
      bit_known e 5 strip &&
      (negb (two_operandsb i) || match known e 0 2 with Some u => Bool.eqb scalar (u =? 2) | None => false end) &&
      (szb e 12 (dest_type i) || width_freeb i)
  | SmLd T len stride strip Tw stripw =>
      ity_eqb Tw T && Bool.eqb stripw strip && bit_known e 5 strip && has_known e 0 2 3 && szb e 12 T &&
      bit_known e 26 len && bit_known e 27 stride
  | SmSt T len stride strip =>
      bit_known e 5 strip && has_known e 0 2 3 && szb e 12 T && bit_known e 26 len && bit_known e 27 stride
  | SmStq T strip | SmDup T strip => bit_known e 5 strip && has_known e 0 2 3 && szb e 12 T
  | SmGetVl T strip _ _ => bit_known e 27 strip && szb e 25 T
  | _ => true
  end.
Lemma select_all : forallb selectb all_entries = true.
Proof. vm_compute. reflexivity. Qed.
Lemma testbit_xbits w i : 0 <= i -> Z.testbit w i = (xbits w i 1 =? 1).
Proof.
  intros Hi. unfold xbits. change (2 ^ 1) with 2. rewrite <- Z.bit0_mod, Z.div_pow2_bits by lia.
  rewrite Z.add_0_l. destruct (Z.testbit w i); reflexivity.
Qed.
Lemma func2_bit w i : 0 <= i < 6 -> Z.testbit (w_func2 w) i = (xbits w (26 + i) 1 =? 1).
Proof.
  intros Hi. unfold w_func2. change 64 with (2 ^ 6). rewrite Z.mod_pow2_bits_low, Z.div_pow2_bits by lia.
  rewrite Z.add_comm. apply testbit_xbits. lia.
Qed.
Lemma bit_known_ok w e lo b : 0 <= lo -> matches w e = true -> bit_known e lo b = true -> b = (xbits w lo 1 =? 1).
Proof.
  intros Hl Hm H. unfold bit_known in H. destruct (known e lo 1) as [v|] eqn:E; [|discriminate].
  apply (known_sound w) in E; [|lia|lia|exact Hm]. rewrite E. now apply eqb_prop.
Qed.
Lemma has_known_ok w e lo k v : 0 <= lo -> 0 <= k -> matches w e = true -> has_known e lo k v = true -> xbits w lo k = v.
Proof.
  intros Hl Hk Hm H. unfold has_known in H. destruct (known e lo k) as [u|] eqn:E; [|discriminate].
  apply (known_sound w) in E; [lia|lia|lia|exact Hm].
Qed.
Lemma szb_ok w e lo T : 0 <= lo -> matches w e = true -> szb e lo T = true -> bits T = width_of ((w / 2 ^ lo) mod 4).
Proof.
  intros Hl Hm H. unfold szb in H. destruct (known e lo 2) as [u|] eqn:E; [|discriminate].
  apply (known_sound w) in E; [|lia|lia|exact Hm]. unfold width_of. unfold xbits in E. change (2 ^ 2) with 4 in E.
  rewrite E. lia.
Qed.
Lemma form_xbits w : w_form w = xbits w 0 2.
Proof. unfold w_form, xbits. now rewrite Z.div_1_r. Qed.
Lemma ity_eqb_eq a b : ity_eqb a b = true -> a = b.
Proof. destruct a, b; (reflexivity || discriminate). Qed.
Theorem select_ok e w : encodes e w -> fields_select (e_sem e) w.
Proof.
  intros [Hin Hm]. pose proof select_all as H. rewrite forallb_forall in H. specialize (H e Hin).
  unfold selectb in H. unfold fields_select, w_m, w_sysm, w_sz, w_sysmode. rewrite ?form_xbits.
  destruct (e_sem e); try exact I; repeat (apply andb_true_iff in H as [H ?]);
  repeat match goal with
  | K : bit_known _ _ _ = true |- _ => apply (bit_known_ok w) in K; [|lia|exact Hm]
  | K : has_known _ _ _ _ = true |- _ => apply (has_known_ok w) in K; [|lia|lia|exact Hm]
  | K : szb _ _ _ = true |- _ => apply (szb_ok w) in K; [|lia|exact Hm]
  | K : ity_eqb _ _ = true |- _ => apply ity_eqb_eq in K
  | K : Bool.eqb _ _ = true |- _ => apply eqb_prop in K
  end; rewrite ?func2_bit, ?testbit_xbits by lia; auto 10.
  - split; [assumption|]. split.
    + intros Ht. replace (two_operandsb i) with true in * by (destruct i; (reflexivity || destruct Ht)).
      cbn [negb orb] in *. destruct (known e 0 2) as [u|] eqn:E; [|discriminate]. apply (known_sound w) in E; [|lia|lia|exact Hm].
      rewrite E. match goal with K : Bool.eqb _ _ = true |- _ => apply eqb_prop in K; rewrite K end. lia.
    + match goal with K : _ || _ = true |- _ => apply orb_true_iff in K as [K|K] end.
      * left. exact (szb_ok w e 12 _ ltac:(lia) Hm H0).
      * right. unfold width_freeb in *. unfold width_free. destruct i as [[]|?|?|?|[]|?|[]]; try discriminate; exact I.
Qed.

(** ** Vector instructions only touch their groups *)
Lemma bind_safe {A B} P (o : outcome A) (f : A -> outcome B) :
  safe P o -> (forall a, o = Ok a -> safe P (f a)) -> safe P (bind o f).
Proof. destruct o; cbn; auto. Qed.
Lemma for_n_safe {S} P (f : Z -> S -> outcome S) n : forall s,
  (forall i s, 0 <= i < Z.of_nat n -> safe P (f i s)) -> safe P (for_n n f s).
Proof.
  induction n as [|m IH]; intros s H; [exact I|]. cbn [for_n]. apply bind_safe.
  - apply IH. intros i t Hi. apply H. lia.
  - intros t _. apply H. lia.
Qed.
Lemma safe_mono {A} (P Q : ub_kind -> Prop) (o : outcome A) : (forall k, P k -> Q k) -> safe P o -> safe Q o.
Proof. destruct o; cbn; auto. Qed.
Definition reads (T : ity) (s : src) (idx : Z) : Prop :=
  match s with SVec _ n => 0 <= idx < n * elts T | SScal _ => idx = 0 end.
Lemma reads_ok T s idx rf : small T -> reads T s idx -> exists a, get_src T s rf idx = Ok a /\ in_range T a = true.
Proof.
  intros HT H. destruct s as [b n|x]; cbn [reads] in H.
  - pose proof (elts_pos T HT). cbn [get_src].
    assert (E : (0 <=? idx) && (idx / elts T <? n) = true).
    { apply andb_true_iff. split; [lia|]. apply Z.ltb_lt. apply Z.div_lt_upper_bound; lia. }
    rewrite E. eexists. split; [reflexivity|apply lane_get_range].
  - subst idx. exists (wrap T x). split; [reflexivity|apply wrap_range].
Qed.
Lemma exec_binary_safe P s o scalar strip junk rf :
  small (v_ts1 s) -> small (v_ts2 s) ->
  dest_per_op s * nops strip <= o_nd o ->
  (forall op e d, 0 <= op < nops strip -> 0 <= e < elts (v_td s) -> 0 <= d < dest_per_op s ->
     let g1 := v_get1 s scalar (nops strip) op e d in
     let g2 := v_get2 s scalar (nops strip) op e d in
     reads (v_ts1 s) (src_no o (fst g1)) (snd g1) /\ reads (v_ts2 s) (src_no o (fst g2)) (snd g2)) ->
  (forall dv a b, in_range (v_td s) dv = true -> in_range (v_ts1 s) a = true -> in_range (v_ts2 s) b = true ->
     safe P (v_op s dv a b)) ->
  safe P (exec_binary s o scalar strip junk rf).
Proof.
  intros S1 S2 Hd Hr Hop. unfold exec_binary. change (num_ops strip) with (nops strip).
  pose proof (dpo12 s) as Hdpo. assert (HN : nops strip = 1 \/ nops strip = 4) by (unfold nops; destruct strip; auto).
  apply for_n_safe. intros op rf1 Ho. unfold exec_op.
  assert (E : op + (dest_per_op s - 1) * nops strip <? o_nd o = true) by (destruct Hdpo as [Q|Q]; rewrite Q in *; lia).
  cbv zeta. rewrite E. apply bind_safe; [|intros; exact I].
  apply for_n_safe. intros e bufs He. apply for_n_safe. intros d bufs' Hdd. unfold elem_step. cbv zeta.
  destruct (Hr op e d ltac:(lia) ltac:(lia) ltac:(lia)) as [R1 R2].
  destruct (reads_ok _ _ _ rf1 S1 R1) as (a & -> & Ra). destruct (reads_ok _ _ _ rf1 S2 R2) as (b & -> & Rb).
  cbn [bind]. apply bind_safe; [|intros; exact I]. apply Hop; try assumption. apply lane_get_range.
Qed.
Lemma exec_unary_safe P T f o strip junk rf : small T -> nops strip <= o_nd o ->
  (forall idx, 0 <= idx < nops strip * elts T -> reads T (o_s0 o) idx) ->
  (forall a, in_range T a = true -> safe P (f a)) ->
  safe P (exec_unary {| u_td := T; u_ts := T; u_op := f |} o strip junk rf).
Proof.
  intros HT Hd Hr Hop. unfold exec_unary. change (num_ops strip) with (nops strip).
  assert (HN : nops strip = 1 \/ nops strip = 4) by (unfold nops; destruct strip; auto).
  apply for_n_safe. intros op rf1 Ho. unfold uexec_op.
  assert (E : op <? o_nd o = true) by lia. rewrite E. apply bind_safe; [|intros; exact I].
  cbn [u_td]. apply for_n_safe. intros e buf He. unfold uelem_step. cbv zeta. cbn [u_td u_ts u_op].
  pose proof (elts_pos T HT). pose proof (sizeof_pos T).
  assert (R : reads T (src_no o (fst (common_get1 T T T false (nops strip) op e 0)))
                      (snd (common_get1 T T T false (nops strip) op e 0))).
  { cbn [common_get1 fst snd src_no Z.eqb]. rewrite Z.div_mul by lia. apply Hr.
    destruct ((sizeof T =? sizeof T) && (sizeof T =? 2 * sizeof T)) eqn:E2; nia. }
  destruct (reads_ok _ _ _ rf1 HT R) as (a & -> & Ra). cbn [bind]. apply bind_safe; [|intros; exact I]. now apply Hop.
Qed.

Definition legal_dec (i : vinst) (scalar strip : bool) : Prop :=
  match i with
  | VEl o T => el_legal o T = true
  | VWiden _ Td Ts | VAcc Td Ts | VPair _ Td Ts => wide_pair Td Ts
  | VUn o T => un_legal o T
  | VNarrow _ Td Ts => narrow_pair Td Ts
  | VPerm p T => small T /\ perm_ok p scalar strip
  end.
Lemma el_safe o T d a b : el_legal o T = true -> in_range T d = true -> in_range T a = true -> in_range T b = true ->
  safe (ovf (VEl o T)) (el_op o T d a b).
Proof.
  intros HL Rd Ra Rb.
  assert (D : lane_pre o T a b \/ (exists r, o = OShift r) /\ bits T = 32 /\ a <> 0 /\ is_mod (bits T) true b (- 2 ^ 31)).
  { destruct o; try (left; exact I). cbn [lane_pre].
    destruct (Z.eq_dec (bits T) 32) as [E|]; [|left; tauto].
    destruct (Z.eq_dec a 0); [left; tauto|].
    destruct (Z.eq_dec ((- 2 ^ 31 - b) mod 2 ^ 32) 0) as [M|M]; rewrite E.
    - right. split; [eauto|]. repeat split; auto; try exact M. all: cbn; lia.
    - left. intros (_ & _ & _ & K). apply M. exact K. }
  destruct D as [D|((r & ->) & E & Na & M)].
  - destruct (el_lane o T d a b HL Rd Ra Rb D) as (v & -> & _). exact I.
  - cbn [el_op]. rewrite c07_refuted; try (now apply R'); try assumption.
    + split; [exact E|reflexivity].
    + cbn in HL. destruct T; cbn in E; try discriminate; auto.
Qed.
Lemma second_reads T s2 scalar N op idx :
  match s2 with SVec _ n => scalar = false /\ N <= n | SScal _ => scalar = true end ->
  small T -> 0 <= op < N -> op * elts T <= idx < (op + 1) * elts T -> reads T s2 (if scalar then 0 else idx).
Proof.
  intros H HT Ho Hi. pose proof (elts_pos T HT). destruct s2 as [b n|x]; cbn [reads].
  - destruct H as [-> H]. nia.
  - now rewrite H.
Qed.

Theorem exec_safe i scalar strip o junk rf :
  legal_dec i scalar strip ->
  match o_s0 o with SVec _ n => need1 i strip <= n | SScal _ => False end ->
  (two_operands i -> match o_s1 o with SVec _ n => scalar = false /\ nops strip <= n | SScal _ => scalar = true end) ->
  need_dst i strip <= o_nd o ->
  safe (ovf i) (exec i scalar strip o junk rf).
Proof.
  intros HL H1 H2 Hd. destruct (o_s0 o) as [b1 n1|] eqn:E1; [|destruct H1].
  assert (HN : nops strip = 1 \/ nops strip = 4) by (unfold nops; destruct strip; auto).
  destruct i as [op T|op Td Ts|Td Ts|sub Td Ts|op T|r Td Ts|p T];
    cbn [legal_dec need1 need_dst two_operands exec] in *.
  - (* VEl *)
    pose proof (legal_small _ _ HL) as HT. pose proof (td_size op T) as Hz. pose proof (elts_pos T HT) as Hp.
    assert (Hdp : dest_per_op (sem_el op T) = 1).
    { unfold dest_per_op. cbn [sem_el v_td v_ts2 v_half v_wdst]. rewrite Hz, Z.ltb_irrefl. reflexivity. }
    assert (Hel : elts (el_td op T) = elts T) by (unfold elts; now rewrite Hz).
    apply exec_binary_safe; cbn [sem_el v_td v_ts1 v_ts2 v_get1 v_get2 v_op]; try assumption.
    + rewrite Hdp. lia.
    + rewrite Hdp, Hel. intros k e d Hk He Hdd. assert (d = 0) by lia. subst d.
      cbn [common_get1 common_get2 fst snd src_no Z.eqb]. rewrite Hz, Z.div_mul by (destruct T; discriminate).
      rewrite E1. split.
      * destruct ((sizeof T =? sizeof T) && (sizeof T =? 2 * sizeof T)); cbn [reads]; nia.
      * apply (second_reads T _ scalar (nops strip) k); [apply H2; exact I|assumption|lia|nia].
    + intros dv a b Rd Ra Rb. destruct (el_rdest op) eqn:Er.
      * apply el_safe; try assumption. replace (el_td op T) with T in Rd; [exact Rd|]. destruct op; (reflexivity || discriminate).
      * replace (el_op op T dv a b) with (el_op op T 0 a b) by (destruct op; (reflexivity || discriminate)).
        apply el_safe; try assumption. smalls HT; reflexivity.
  - (* VWiden *)
    destruct (wide_small _ _ HL) as [HSd HSs]. destruct (wide_sz _ _ HL) as (Hsz & Hel & _).
    assert (Hdp : dest_per_op (sem_widen op Td Ts) = 2) by (now apply (wide_dpo Td Ts)).
    pose proof (elts_pos _ HSd) as Hp. pose proof (sizeof_pos Ts) as Hq.
    apply exec_binary_safe; cbn [sem_widen v_td v_ts1 v_ts2 v_get1 v_get2 v_op]; try assumption.
    + rewrite Hdp. lia.
    + rewrite Hdp. intros k e d Hk He Hdd.
      cbn [common_get1 common_get2 fst snd src_no Z.eqb].
      assert (Q : e * sizeof Td / sizeof Ts = 2 * e) by (rewrite Hsz; replace (e * (2 * sizeof Ts)) with (2 * e * sizeof Ts) by ring; now rewrite Z.div_mul by lia).
      rewrite Q, E1. split.
      * assert ((sizeof Td =? sizeof Ts) && (sizeof Ts =? 2 * sizeof Ts) = false) as -> by lia. cbn [reads]. nia.
      * apply (second_reads Ts _ scalar (nops strip) k); [apply H2; exact I|assumption|lia|nia].
    + intros dv a b Rd Ra Rb. destruct (w_lane op Td Ts a b HL Ra Rb) as (v & -> & _). exact I.
  - (* VAcc *)
    destruct (wide_small _ _ HL) as [HSd HSs]. destruct (wide_sz _ _ HL) as (Hsz & Hel & _).
    assert (Hdp : dest_per_op (sem_acc Td Ts) = 2) by (now apply (wide_dpo Td Ts)).
    pose proof (elts_pos _ HSd) as Hp. pose proof (sizeof_pos Ts) as Hq.
    apply exec_binary_safe; cbn [sem_acc v_td v_ts1 v_ts2 v_get1 v_get2 v_op]; try assumption.
    + rewrite Hdp. lia.
    + rewrite Hdp. intros k e d Hk He Hdd.
      cbn [common_get1 common_get2 fst snd src_no Z.eqb].
      assert (Q : e * sizeof Td / sizeof Ts = 2 * e) by (rewrite Hsz; replace (e * (2 * sizeof Ts)) with (2 * e * sizeof Ts) by ring; now rewrite Z.div_mul by lia).
      rewrite Q, E1. split.
      * rewrite Z.div_mul by lia.
        assert ((sizeof Td =? sizeof Td) && (sizeof Td =? 2 * sizeof Ts) = true) as -> by lia. cbn [reads].
        assert (Hdd' : d = 0 \/ d = 1) by lia. destruct Hdd' as [-> | ->]; nia.
      * apply (second_reads Ts _ scalar (nops strip) k); [apply H2; exact I|assumption|lia|nia].
    + intros dv a b Rd Ra Rb. destruct (c12 Td Ts b b HL (R' _ _ Rb) (R' _ _ Rb)) as (_ & _ & _ & _ & _ & _ & H).
      destruct (H a (R' _ _ Ra)) as (v & -> & _). exact I.
  - (* VPair *)
    destruct (wide_small _ _ HL) as [HSd HSs]. destruct (wide_sz _ _ HL) as (Hsz & Hel & _).
    assert (Hdp : dest_per_op (sem_pair sub Td Ts) = 1).
    { unfold dest_per_op. cbn [sem_pair v_td v_ts2 v_half v_wdst]. now rewrite andb_false_r. }
    pose proof (elts_pos _ HSd) as Hp. pose proof (sizeof_pos Ts) as Hq.
    apply exec_binary_safe; cbn [sem_pair v_td v_ts1 v_ts2 v_get1 v_get2 v_op]; try assumption.
    + rewrite Hdp. lia.
    + rewrite Hdp. intros k e d Hk He Hdd.
      cbn [packed_get1 packed_get2 fst snd src_no Z.eqb].
      assert (Q : e * sizeof Td / sizeof Ts = 2 * e) by (rewrite Hsz; replace (e * (2 * sizeof Ts)) with (2 * e * sizeof Ts) by ring; now rewrite Z.div_mul by lia).
      rewrite Q, E1. cbn [reads]. nia.
    + intros dv a b Rd Ra Rb. destruct (c12 Td Ts a b HL (R' _ _ Ra) (R' _ _ Rb)) as (_ & _ & Ep & _ & _ & (v & Ev & _) & _).
      destruct sub; [rewrite Ev|rewrite Ep]; exact I.
  - (* VUn *)
    pose proof (un_small _ _ HL) as HT. pose proof (elts_pos _ HT) as Hp.
    apply exec_unary_safe; try assumption.
    + rewrite E1. cbn [reads]. nia.
    + intros a Ra. destruct (un_lane op T a HL Ra) as (v & -> & _). exact I.
  - (* VNarrow *)
    destruct (narrow_small _ _ HL) as [HSd HSs]. destruct (narrow_sz _ _ HL) as (Hf2 & Hsz & Hel).
    assert (Hdp : dest_per_op (sem_narrow r Td Ts) = 1).
    { unfold dest_per_op. cbn. now rewrite Z.ltb_irrefl. }
    pose proof (elts_pos _ HSs) as Hp. pose proof (sizeof_pos Td) as Hq. set (f := ratio Td Ts) in *.
    apply exec_binary_safe; cbn [sem_narrow v_td v_ts1 v_ts2 v_get1 v_get2 v_op]; try assumption.
    + rewrite Hdp. lia.
    + rewrite Hdp. intros k e d Hk He Hdd. assert (d = 0) by lia. subst d.
      cbn [srans_get1 common_get2 fst snd src_no Z.eqb]. rewrite Z.div_mul, Z.add_0_r by lia. rewrite E1. split.
      * pose proof (narrow_reg_range f e Hf2) as Hnr.
        match goal with |- reads _ _ ?i => replace i with ((narrow_reg f e * nops strip + k) * elts Ts + e / f) end.
        -- cbn [reads]. assert (0 <= e / f < elts Ts) by (destruct Hf2 as [E|E]; rewrite E in Hel |- *; lia). nia.
        -- rewrite <- (narrow_reg_eq f e Hf2) by lia.
           replace (e * sizeof Td / sizeof Ts) with (e / f)
             by (rewrite Hsz, Z.mul_comm, (Z.mul_comm f), Z.div_mul_cancel_l;
                 [reflexivity|destruct Hf2; lia|destruct Td; discriminate]).
           replace (sizeof Ts / sizeof Td) with f
             by (rewrite Hsz, Z.div_mul; [reflexivity|destruct Td; discriminate]).
           destruct (f =? 2); [destruct (negb (Z.land e 1 =? 0))|]; ring.
      * apply (second_reads Td _ scalar (nops strip) k); [apply H2; exact I|assumption|lia|lia].
    + intros dv a b Rd Ra Rb. rewrite c08; [exact I|exact HL|now apply R'|now apply R'].
  - (* VPerm *)
    destruct HL as [HT Hok].
    assert (E : match p with
      | PSliden h _ | PSlidep h _ => exec_binary (sem_perm p T) o false (h || strip) junk rf
      | _ => exec_binary (sem_perm p T) o scalar strip junk rf end = exec_binary (sem_perm p T) o scalar strip junk rf).
    { destruct p; cbn [perm_ok] in Hok; try reflexivity;
      destruct Hok as (_ & -> & Hh); (destruct horizontal; [rewrite Hh by reflexivity|]; reflexivity). }
    rewrite E. clear E.
    assert (Hdpo : dest_per_op (sem_perm p T) * nops strip = perm_regs p (nops strip)) by apply perm_dpo.
    assert (Hd12 := dpo12 (sem_perm p T)).
    assert (HL : elts T = 8 \/ elts T = 16 \/ elts T = 32) by now apply elts_cases.
    assert (S2 : match o_s1 o with SVec _ n => scalar = false /\ nops strip <= n | SScal _ => scalar = true end) by (apply H2; exact I).
    assert (rd1 : forall idx, 0 <= idx < nops strip * elts T -> reads T (o_s0 o) idx).
    { intros idx Hi. rewrite E1. cbn [reads]. nia. }
    assert (rd2 : forall idx, 0 <= idx < nops strip * elts T -> reads T (o_s1 o) (if scalar then 0 else idx)).
    { intros idx Hi. destruct (o_s1 o); cbn [reads]; [destruct S2 as [-> S2]; nia|now rewrite S2]. }
    apply exec_binary_safe; cbn [sem_perm v_td v_ts1 v_ts2 v_op]; try assumption.
    + lia.
    + intros k e d Hk He Hdd. fold (sem_perm p T) in Hdd.
      assert (G1 : let g := v_get1 (sem_perm p T) scalar (nops strip) k e d in reads T (src_no o (fst g)) (snd g)).
      { cbn [sem_perm v_get1].
        assert (Hdd' : match p with PEvnodd | PZip | PMvp => d = 0 \/ d = 1 | _ => d = 0 end).
        { destruct p; cbn [perm_regs] in Hdpo; destruct Hd12 as [E|E]; rewrite E in *; lia. }
        set (L := elts T) in *. set (N := nops strip) in *.
        destruct p as [h q|h q| | | | |]; cbn [perm_ok] in Hok.
        - destruct Hok as (Hq & Hsc & Hh). subst d scalar. unfold sliden_get, sliden_start, sliden_end. fold L. destruct h.
          + assert (HN4 : N = 4) by (unfold N; now rewrite Hh).
            destruct (e + q <? L) eqn:F1; [|destruct (k =? 3) eqn:F2]; cbn [fst snd src_no Z.eqb].
            * apply rd1. nia.
            * apply (rd2 (0 * L + e + q - L)). nia.
            * apply rd1. nia.
          + destruct (e + q <? L) eqn:F1; cbn [fst snd src_no Z.eqb].
            * apply rd1. nia.
            * apply (rd2 (k * L + e + q - L)). nia.
        - destruct Hok as (Hq & Hsc & Hh). subst d scalar. unfold slidep_get, slidep_start, slidep_end. fold L. destruct h.
          + assert (HN4 : N = 4) by (unfold N; now rewrite Hh).
            destruct (e <? q) eqn:F1; [destruct (k =? 0) eqn:F2|]; cbn [fst snd src_no Z.eqb].
            * apply rd1. nia.
            * apply (rd2 ((k - 1) * L + e - q + L)). nia.
            * apply (rd2 (k * L + e - q)). nia.
          + destruct (e <? q) eqn:F1; cbn [fst snd src_no Z.eqb].
            * apply rd1. nia.
            * apply (rd2 (k * L + e - q)). nia.
        - subst d. unfold evn_get, evnodd_get_at. fold L. rewrite (Z.mul_comm L N).
          destruct (k * L * 2 + e * 2 + 0 <? N * L) eqn:F1; cbn [fst snd src_no Z.eqb].
          + apply rd1. nia.
          + apply rd2. destruct HN as [E|E]; rewrite E in *; nia.
        - subst d. unfold odd_get, evnodd_get_at. fold L. rewrite (Z.mul_comm L N).
          destruct (k * L * 2 + e * 2 + 1 <? N * L) eqn:F1; cbn [fst snd src_no Z.eqb].
          + apply rd1. nia.
          + apply rd2. destruct HN as [E|E]; rewrite E in *; nia.
        - unfold evnodd_get, evn_get, odd_get, evnodd_get_at. fold L. rewrite (Z.mul_comm L N).
          destruct Hdd' as [-> | ->]; cbn [Z.eqb].
          + destruct (k * L * 2 + e * 2 + 0 <? N * L) eqn:F1; cbn [fst snd src_no Z.eqb].
            * apply rd1. nia.
            * apply rd2. destruct HN as [E|E]; rewrite E in *; nia.
          + destruct (k * L * 2 + e * 2 + 1 <? N * L) eqn:F1; cbn [fst snd src_no Z.eqb].
            * apply rd1. nia.
            * apply rd2. destruct HN as [E|E]; rewrite E in *; nia.
        - unfold zip_get. fold L. cbv zeta.
          assert (Hh2 : L = 2 * (L / 2)) by (destruct HL as [E|[E|E]]; rewrite E; reflexivity).
          set (h := L / 2) in *. assert (He2 : 0 <= e / 2 < h) by lia.
          assert (Hi : 0 <= k * h + e / 2 + d * h * N < N * L).
          { rewrite Hh2. destruct Hdd' as [-> | ->]; destruct HN as [E|E]; rewrite E in *; nia. }
          destruct (negb (Z.land e 1 =? 0)); cbn [fst snd src_no Z.eqb]; [now apply rd2|now apply rd1].
        - unfold mvp_get. destruct Hdd' as [-> | ->]; change (0 =? 0) with true; change (1 =? 0) with false; cbv iota;
          unfold common_get1, common_get2; cbv beta zeta.
          + assert ((sizeof T =? sizeof T) && (sizeof T =? 2 * sizeof T) = false) as ->
              by (destruct T; reflexivity).
            rewrite Z.div_mul by (destruct T; discriminate). fold L.
            cbn [fst snd src_no Z.eqb]. apply rd1. nia.
          + rewrite Z.div_mul by (destruct T; discriminate). fold L.
            cbn [fst snd src_no Z.eqb]. apply rd2. nia. }
      split; [exact G1|].
      destruct p; try exact G1; cbn [v_get2 sem_perm]; cbn [common_get2 fst snd src_no Z.eqb].
      all: apply rd2; assert (d = 0) by (cbn [perm_regs] in Hdpo; destruct Hd12 as [E|E]; rewrite E in *; lia);
         subst d; rewrite Z.div_mul by (destruct T; discriminate); nia.
    + intros dv a b Rd Ra Rb. rewrite arg1_ok by assumption. exact I.
Qed.
