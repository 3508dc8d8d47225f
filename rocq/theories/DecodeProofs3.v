(** * Operands built from a word fit the instruction *)
From Verif Require Import CInt Lane LaneSpec LaneProofs LaneCor VecModel VecSpec VecProofs VecEl VecFam VecPerm VecFrame
  ConvModel ConvSpec ConvProofs ConvProofs2 MemModel MemSpec MemProofs
  DecodeTypes DecodeModel DecodeSpec DecodeProofs DecodeProofs2.
From Coq Require Import ZifyBool ZifyNat.
Import ListNotations.
Open Scope string_scope.
Open Scope Z_scope.
Ltac Zify.zify_post_hook ::= Z.div_mod_to_equations.

Inductive kind := KVec (n : Z) | KX | KOther.
Definition kind_of (o : operand) : kind :=
  match o with OVec g => KVec (g_n g) | OReg _ | OZero => KX | OOther => KOther end.
(** The fields operand shapes depend on. *)
Definition same_shape (w w' : Z) : Prop :=
  xbits w 5 1 = xbits w' 5 1 /\ xbits w 0 2 = xbits w' 0 2 /\ xbits w 2 3 = xbits w' 2 3 /\
  xbits w 26 6 = xbits w' 26 6 /\ xbits w 12 2 = xbits w' 12 2.
Lemma src_kind e w w' s : same_shape w w' -> kind_of (src_op e w s) = kind_of (src_op e w' s).
Proof.
  intros (E1 & E2 & E3 & E4 & E5).
  assert (W : src1_widen e w = src1_widen e w').
  { unfold src1_widen. change (ext FV2 "func1") with (fun w => xbits w 2 3). change (ext FV2 "func2") with (fun w => xbits w 26 6).
    change (ext FV2 "sz") with (fun w => xbits w 12 2). cbv beta. now rewrite E3, E4, E5. }
  unfold src_op. rewrite W. change (ext FV2 "m") with (fun w => xbits w 5 1). change (ext FV2 "form") with (fun w => xbits w 0 2).
  cbv beta zeta. rewrite E1, E2.
  destruct s; cbn [kind_of]; try reflexivity;
  repeat match goal with |- context [if ?c then _ else _] => destruct c end; reflexivity.
Qed.
Lemma dst_kind e w w' d : same_shape w w' -> kind_of (dst_op e w d) = kind_of (dst_op e w' d).
Proof.
  intros (E1 & E2 & E3 & E4 & E5).
  assert (W : widen_dst e w = widen_dst e w').
  { unfold widen_dst. change (ext FV2 "func1") with (fun w => xbits w 2 3). change (ext FV2 "func2") with (fun w => xbits w 26 6).
    cbv beta. now rewrite E3, E4. }
  unfold dst_op. rewrite W. change (ext FV2 "m") with (fun w => xbits w 5 1).
  cbv beta zeta. rewrite E1.
  destruct d; cbn [kind_of]; try reflexivity;
  repeat match goal with |- context [if ?c then _ else _] => destruct c end; reflexivity.
Qed.

(** Values a row leaves open for a field. *)
Definition cand (e : entry) (lo k : Z) : list Z :=
  match known (tighten e) lo k with Some v => [v] | None => map Z.of_nat (seq 0 (Z.to_nat (2 ^ k))) end.
Lemma cand_in w e lo k : 0 <= lo -> 0 <= k -> In e all_entries -> canonical w e -> matches w e = true -> In (xbits w lo k) (cand e lo k).
Proof.
  intros Hl Hk Hin Hc Hm. unfold cand. destruct (known (tighten e) lo k) as [v|] eqn:E.
  - left. symmetry. apply (known_sound w (tighten e)); auto. now apply tighten_matches.
  - apply in_map_iff. exists (Z.to_nat (xbits w lo k)).
    assert (0 <= xbits w lo k < 2 ^ k) by (apply Z.mod_pos_bound; lia).
    split; [lia|]. apply in_seq. lia.
Qed.
Definition shape_word (m form f1 f2 sz : Z) : Z := f2 * 2 ^ 26 + sz * 2 ^ 12 + m * 2 ^ 5 + f1 * 2 ^ 2 + form.
Definition shapes (e : entry) : list Z :=
  flat_map (fun m => flat_map (fun form => flat_map (fun f1 => flat_map (fun f2 =>
    map (fun sz => shape_word m form f1 f2 sz) (cand e 12 2)) (cand e 26 6)) (cand e 2 3)) (cand e 0 2)) (cand e 5 1).
Lemma shape_in w e : In e all_entries -> canonical w e -> matches w e = true ->
  exists w', In w' (shapes e) /\ same_shape w w'.
Proof.
  intros Hin Hc Hm.
  exists (shape_word (xbits w 5 1) (xbits w 0 2) (xbits w 2 3) (xbits w 26 6) (xbits w 12 2)). split.
  - unfold shapes. apply in_flat_map. exists (xbits w 5 1). split; [apply cand_in; (lia || assumption)|].
    apply in_flat_map. exists (xbits w 0 2). split; [apply cand_in; (lia || assumption)|].
    apply in_flat_map. exists (xbits w 2 3). split; [apply cand_in; (lia || assumption)|].
    apply in_flat_map. exists (xbits w 26 6). split; [apply cand_in; (lia || assumption)|].
    apply in_map_iff. exists (xbits w 12 2). split; [reflexivity|apply cand_in; (lia || assumption)].
  - assert (B : forall lo k, 0 <= k -> 0 <= xbits w lo k < 2 ^ k) by (intros; apply Z.mod_pos_bound; lia).
    pose proof (B 5 1 ltac:(lia)). pose proof (B 0 2 ltac:(lia)). pose proof (B 2 3 ltac:(lia)).
    pose proof (B 26 6 ltac:(lia)). pose proof (B 12 2 ltac:(lia)).
    unfold same_shape. set (m := xbits w 5 1) in *. set (fo := xbits w 0 2) in *. set (f1 := xbits w 2 3) in *.
    set (f2 := xbits w 26 6) in *. set (sz := xbits w 12 2) in *. clearbody m fo f1 f2 sz.
    unfold shape_word, xbits. 
    change (2 ^ 26) with 67108864. change (2 ^ 12) with 4096. change (2 ^ 5) with 32. change (2 ^ 2) with 4 in *.
    change (2 ^ 1) with 2 in *. change (2 ^ 3) with 8 in *. change (2 ^ 6) with 64 in *. change (2 ^ 0) with 1.
    repeat split; lia.
Qed.

(** ** The check of a row *)
Definition vecb (k : kind) (n : Z) : bool := match k with KVec m => n <=? m | _ => false end.
Definition xb (k : kind) : bool := match k with KX => true | _ => false end.
Definition smallb (T : ity) : bool := match T with I64 | U64 => false | _ => true end.
Definition wide_pairb (a b : ity) : bool :=
  match a, b with I16, I8 | I32, I16 | U16, U8 | U32, U16 => true | _, _ => false end.
Definition narrow_pairb (a b : ity) : bool :=
  match a, b with I8, I16 | I16, I32 | U8, U16 | U16, U32 | I8, I32 | U8, U32 => true | _, _ => false end.
Definition un_legalb (o : unop) (T : ity) : bool :=
  match o with UNot | UMv => ity_eqb T I32 | _ => match T with U8 | U16 | U32 => true | _ => false end end.
Definition perm_okb (p : perm) (scalar strip : bool) : bool :=
  match p with
  | PSliden h k | PSlidep h k => (1 <=? k) && (k <=? 4) && negb scalar && (negb h || strip)
  | _ => true
  end.
Definition legalb (i : vinst) (scalar strip : bool) : bool :=
  match i with
  | VEl o T => el_legal o T
  | VWiden _ Td Ts | VAcc Td Ts | VPair _ Td Ts => wide_pairb Td Ts
  | VUn o T => un_legalb o T
  | VNarrow _ Td Ts => narrow_pairb Td Ts
  | VPerm p T => smallb T && perm_okb p scalar strip
  end.
Lemma smallb_ok T : smallb T = true -> small T.
Proof. unfold small. destruct T; cbn; intros; (discriminate || auto 10). Qed.
Lemma legalb_ok i sc st : legalb i sc st = true -> legal_dec i sc st.
Proof.
  destruct i as [op T|op Td Ts|Td Ts|sub Td Ts|op T|r Td Ts|p T]; cbn [legalb legal_dec]; auto.
  1,2,3: unfold wide_pair; destruct Td, Ts; cbn; intros; (discriminate || auto 10).
  - unfold un_legal. destruct op, T; cbn; intros; (discriminate || auto 10).
  - unfold narrow_pair. destruct Td, Ts; cbn; intros; (discriminate || auto 10).
  - intros H. apply andb_true_iff in H as [H1 H2]. split; [now apply smallb_ok|].
    unfold perm_ok. destruct p; auto; cbn [perm_okb] in H2; repeat (apply andb_true_iff in H2 as [H2 ?]);
      (split; [lia|]); (split; [now apply negb_true_iff|]); intros ->; assumption.
Qed.
Definition regs (st : bool) : Z := if st then 4 else 1.
(** A scalar at position [p], an optional further one after it. *)
Definition scalarsb (ks : list kind) (p : nat) (need2 : bool) : bool :=
  xb (nth p ks KOther) && match nth_error ks (S p) with Some k => xb k | None => negb need2 end.
Definition postb (ds : list kind) : bool := match ds with [] => true | d :: _ => xb d end.
Definition rowb (e : entry) (w : Z) : bool :=
  let ks := map (fun s => kind_of (src_op e w s)) (e_src e) in
  let ds := map (fun d => kind_of (dst_op e w d)) (e_dst e) in
  let cs := map (fun d => kind_of (dst_op e w d)) (e_child e) in
  let k n := nth n ks KOther in
  match e_sem e with
  | SmVec i sc st => legalb i sc st && vecb (k 0%nat) (need1 i st) &&
      (negb (two_operandsb i) || (if sc then xb (k 1%nat) else vecb (k 1%nat) (nops st))) &&
      vecb (nth 0 ds KOther) (need_dst i st)
  | SmLd T len stride st Tw stw => smallb T && ity_eqb T Tw && Bool.eqb st stw &&
      scalarsb ks 0 (len || stride) && vecb (nth 0 cs KOther) (regs st) && postb ds
  | SmSt T len stride st => smallb T && scalarsb ks 1 (len || stride) && vecb (k 0%nat) (regs st) && postb ds
  | SmStq T st => smallb T && scalarsb ks 1 true && vecb (k 0%nat) (regs st) && postb ds
  | SmDup T st => smallb T && xb (k 0%nat) && vecb (nth 0 ds KOther) (regs st)
  | SmGetVl T st r1 r2 => smallb T && (negb r1 || xb (k 0%nat)) && (negb r2 || xb (k 1%nat)) && xb (nth 0 ds KOther)
  | SmConv => vecb (k 0%nat) 8 && xb (k 1%nat) && vecb (k 2%nat) 8
  | SmDwconv acc => vecb (k 0%nat) 9 && xb (k 1%nat) && vecb (k 2%nat) 3 && (negb acc || vecb (nth 0 ds KOther) 4)
  | SmAcSet _ => vecb (k 0%nat) 8
  | SmVcGet => vecb (nth 0 ds KOther) 8
  | SmADwInit => vecb (k 0%nat) 4 && vecb (nth 0 ds KOther) 4
  | SmScalar _ => true
  end.
Lemma rows_all : forallb (fun e => scalarb (e_sem e) || forallb (rowb e) (shapes e)) all_entries = true.
Proof. vm_compute. reflexivity. Qed.
Lemma row_ok e w : encodes e w -> canonical w e -> rowb e w = true.
Proof.
  intros [Hin Hm] Hc. destruct (shape_in w e Hin Hc Hm) as (w' & Hw & Hs).
  pose proof rows_all as H. rewrite forallb_forall in H. specialize (H e Hin).
  apply orb_true_iff in H as [H|H].
  - unfold rowb. destruct (e_sem e); try discriminate. reflexivity.
  - rewrite forallb_forall in H. specialize (H w' Hw). rewrite <- H. clear H.
    unfold rowb.
    rewrite (map_ext _ _ (fun s => src_kind e w w' s Hs)), !(map_ext _ _ (fun d => dst_kind e w w' d Hs)). reflexivity.
Qed.

(** ** Executing the row *)
Lemma kind_nth e w l k : nth k (map (fun s => kind_of (src_op e w s)) l) KOther = kind_of (nth k (map (src_op e w) l) OOther).
Proof. rewrite <- (map_map (src_op e w) kind_of). now rewrite <- (map_nth kind_of). Qed.
Lemma kind_nth_d e w l k : nth k (map (fun s => kind_of (dst_op e w s)) l) KOther = kind_of (nth k (map (dst_op e w) l) OOther).
Proof. rewrite <- (map_map (dst_op e w) kind_of). now rewrite <- (map_nth kind_of). Qed.
Lemma kind_nth_error e w l k : nth_error (map (fun s => kind_of (src_op e w s)) l) k = option_map kind_of (nth_error (map (src_op e w) l) k).
Proof. rewrite <- (map_map (src_op e w) kind_of). apply nth_error_map. Qed.
Lemma xb_rd o s : xb (kind_of o) = true -> exists x, rd_scalar o s = Ok x.
Proof. destruct o; cbn; intros; try discriminate; eauto. Qed.
Lemma vecb_grp o n : vecb (kind_of o) n = true -> n <= g_n (to_group o).
Proof. destruct o; cbn; intros; try discriminate. lia. Qed.

Lemma mop_ok small e w s len stride st quad p v :
  scalarsb (map (fun s => kind_of (src_op e w s)) (e_src e)) p (len || stride) = true ->
  regs st <= g_n (to_group v) ->
  exists o, mop_of small e w s len stride st quad p v = Ok o /\ op_ok o /\ mo_quad o = quad /\ mo_v o = to_group v /\
    mo_strip o = st /\ mo_post o = (match map (dst_op e w) (e_dst e) with d :: _ => Some (to_xdst d) | [] => None end).
Proof.
  intros H Hg. unfold scalarsb in H. rewrite kind_nth, kind_nth_error in H. apply andb_true_iff in H as [H1 H2].
  unfold mop_of. destruct (xb_rd _ s H1) as (b & ->). cbn [bind].
  destruct (nth_error (map (src_op e w) (e_src e)) (S p)) as [o|]; cbn [option_map] in H2.
  - destruct (xb_rd _ s H2) as (x & ->). cbn [bind]. eexists. split; [reflexivity|]. cbn [mo_quad mo_v mo_post mo_strip]. repeat split.
    intros _. cbn. discriminate.
  - cbn [bind]. eexists. split; [reflexivity|]. cbn [mo_quad mo_v mo_post mo_strip]. repeat split.
    intros [K|K]; cbn in K; subst; rewrite ?orb_true_r in H2; cbn in H2; discriminate.
Qed.
Lemma regs_num st o : mo_strip o = st -> regs_of o = regs st.
Proof. intros <-. reflexivity. Qed.

Theorem row_runs small pc junk e w s : encodes e w -> canonical w e -> ~ is_scalar_op (e_sem e) -> wstate_ok s ->
  exists r, exec_row small pc junk e w s = Some r /\ safe (word_ub (e_sem e)) r.
Proof.
  intros He Hc Hns (Hwf & Hacc & Hdw). pose proof (row_ok e w He Hc) as H. unfold rowb in H. unfold exec_row.
  destruct (e_sem e) as [i sc st|T len stride st Tw stw|T len stride st|T st|T st|T st r1 r2| |acc|tr| | |f] eqn:Es.
  12: destruct Hns; exact I.
  all: repeat (apply andb_true_iff in H as [H ?]); rewrite ?kind_nth, ?kind_nth_d in *.
  - eexists. split; [reflexivity|]. unfold with_v. cbn [word_ub]. apply bind_safe; [|intros; exact I].
    apply exec_safe; cbn [o_s0 o_s1 o_nd].
    + now apply legalb_ok.
    + destruct (nth 0 (map (src_op e w) (e_src e)) OOther); cbn in *; try discriminate. lia.
    + intros Ht. replace (two_operandsb i) with true in * by (destruct i; (reflexivity || destruct Ht)).
      cbn [negb orb] in *. destruct sc; destruct (nth 1 (map (src_op e w) (e_src e)) OOther); cbn in *; try discriminate; auto.
      split; [reflexivity|lia].
    + now apply vecb_grp.
  - apply ity_eqb_eq in H4. subst Tw. rewrite H3. replace (ity_eqb T T) with true by (destruct T; reflexivity).
    cbn [andb]. eexists. split; [reflexivity|]. pose proof (vecb_grp _ _ H1) as G.
    destruct (mop_ok small e w s len stride st false 0 _ H2 G) as (o & -> & Ho & Hq & Hv & Hst & _). cbn [bind].
    destruct (vld_ok T o junk (to_m s) (smallb_ok _ H) Ho Hq) as (rf & x & -> & _); [|exact I].
    rewrite Hv, (regs_num _ _ Hst). exact G.
  - eexists. split; [reflexivity|]. pose proof (vecb_grp _ _ H1) as G.
    destruct (mop_ok small e w s len stride st false 1 _ H2 G) as (o & -> & Ho & Hq & Hv & Hst & _). cbn [bind].
    destruct (vst_ok T o (to_m s) (smallb_ok _ H) Ho Hwf) as (m & x & -> & _); [|exact I].
    rewrite Hv, (regs_num _ _ Hst). exact G.
  - eexists. split; [reflexivity|]. pose proof (vecb_grp _ _ H1) as G.
    destruct (mop_ok small e w s false true st true 1 _ H2 G) as (o & -> & Ho & Hq & Hv & Hst & _). cbn [bind].
    destruct (vst_ok T o (to_m s) (smallb_ok _ H) Ho Hwf) as (m & x & -> & _); [|exact I].
    rewrite Hv, (regs_num _ _ Hst). exact G.
  - eexists. split; [reflexivity|]. destruct (xb_rd _ s H1) as (x & ->). cbn [bind].
    destruct (vdup_ok T st (to_group (nth 0 (map (dst_op e w) (e_dst e)) OOther)) x junk (w_v s) (smallb_ok _ H)) as (rf & -> & _);
      [now apply vecb_grp|exact I].
  - eexists. split; [reflexivity|].
    assert (A : exists a, (if r1 then x <- rd_scalar (nth 0 (map (src_op e w) (e_src e)) OOther) s ;; Ok (Some x) else Ok None) = Ok a).
    { destruct r1; [|eauto]. cbn [negb orb] in *. destruct (xb_rd _ s H2) as (x & ->). cbn [bind]. eauto. }
    assert (B : exists b, (if r2 then x <- rd_scalar (nth 1 (map (src_op e w) (e_src e)) OOther) s ;; Ok (Some x) else Ok None) = Ok b).
    { destruct r2; [|eauto]. cbn [negb orb] in *. destruct (xb_rd _ s H1) as (x & ->). cbn [bind]. eauto. }
    destruct A as (a & ->). destruct B as (b & ->). exact I.
  - eexists. split; [reflexivity|]. destruct (xb_rd _ s H1) as (c & ->). cbn [bind]. apply vecb_grp in H, H0.
    assert (D : conv_legal c \/ ~ conv_legal c) by (unfold conv_legal; lia).
    destruct D as [D|D].
    + destruct (conv_exact (to_group (nth 0 (map (src_op e w) (e_src e)) OOther)) (to_group (nth 2 (map (src_op e w) (e_src e)) OOther)) c pc (to_c s))
        as (acc & -> & _); try assumption; [|exact I].
      unfold conv_len. destruct D. pose proof (fld_range c 2 5 ltac:(lia)). lia.
    + rewrite conv_illegal by exact D. exact I.
  - eexists. split; [reflexivity|]. destruct (xb_rd _ s H2) as (c & ->). cbn [bind]. apply vecb_grp in H, H1.
    assert (Hd : acc = true -> 4 <= g_n (to_group (nth 0 (map (dst_op e w) (e_dst e)) OOther))).
    { intros ->. now apply vecb_grp. }
    destruct (Z.eq_dec (fld c 2 2) 3) as [E3|E3].
    { rewrite vdwconv_sparsity3 by assumption. cbn. auto. }
    destruct (w_dw s) as [dw|] eqn:Edw.
    + destruct (vdwconv_cases acc (to_group (nth 0 (map (src_op e w) (e_src e)) OOther)) (to_group (nth 2 (map (src_op e w) (e_src e)) OOther))
        (to_group (nth 0 (map (dst_op e w) (e_dst e)) OOther)) c pc junk (to_c s) dw) as [[_ (rf & d' & -> & _)]|[_ ->]]; try assumption; cbn; auto.
    + unfold exec_vdwconv. rewrite dw_fields. cbn [dc_regbase dc_sparsity].
      pose proof (fld_range c 4 4 ltac:(lia)) as R4. change (2 ^ 4) with 16 in R4.
      rewrite dw_index_regs by assumption.
      pose proof (dw_regs_range _ R4) as RR. destruct (dw_regs (fld c 4 4)) as [[x y] z] eqn:ER.
      rewrite !(get_reg_ok _ (c_v (to_c s)) x), !(get_reg_ok _ (c_v (to_c s)) y), !(get_reg_ok _ (c_v (to_c s)) z) by lia.
      cbn [bind]. destruct (dw_adata (fld c 2 2) _ _ _); cbn [to_c c_dw]; rewrite ?Edw; cbn; auto.
  - eexists. split; [reflexivity|]. apply vecb_grp in H.
    destruct (acset_ok tr (to_group (nth 0 (map (src_op e w) (e_src e)) OOther)) (to_c s) Hwf H) as (acc & -> & _). exact I.
  - eexists. split; [reflexivity|]. apply vecb_grp in H.
    destruct (vcget_ok (to_group (nth 0 (map (dst_op e w) (e_dst e)) OOther)) junk (to_c s) Hacc H) as (rf & acc & -> & _). exact I.
  - eexists. split; [reflexivity|]. apply vecb_grp in H, H0. unfold with_c. apply bind_safe; [|intros; exact I].
    unfold exec_adwinit. apply bind_safe; [|intros; exact I]. apply for_n_safe. intros op st Hop.
    rewrite get_reg_ok by lia. cbn [bind]. match goal with |- context [op <? ?n] => replace (op <? n) with true by lia end. exact I.
Qed.

(** ** Scalar operands *)
Lemma x_src e w o st : w_x st 0 = 0 -> kind_of (src_op e w o) = KX ->
  rd_scalar (src_op e w o) st = Ok (xval st (xfield o w)) /\ to_src (src_op e w o) st = SScal (xval st (xfield o w)).
Proof.
  intros H0 Hk.
  assert (H : exists r, (src_op e w o = OReg r \/ (src_op e w o = OZero /\ r = 0)) /\ r = xfield o w).
  { destruct o; cbn [src_op xfield] in *; try discriminate.
    - change (ext FR "rs1" w) with (xbits w 15 5) in *. destruct (Z.eqb_spec (xbits w 15 5) 0) as [E|E]; eexists; split; eauto.
    - change (ext FR "rs2" w) with (xbits w 20 5) in *. destruct (Z.eqb_spec (xbits w 20 5) 0) as [E|E]; eexists; split; eauto.
    - change (ext FV2 "vs1" w) with (xbits w 14 6) in *.
      assert (X : Z.shiftr (xbits w 14 6) 1 = xbits w 15 5).
      { rewrite Z.shiftr_div_pow2 by lia. unfold xbits. change (2 ^ 14) with 16384. change (2 ^ 15) with 32768.
        change (2 ^ 6) with 64. change (2 ^ 5) with 32. change (2 ^ 1) with 2. lia. }
      destruct (ext FV2 "form" w =? 3); [|repeat match type of Hk with context [if ?c then _ else _] => destruct c end; discriminate].
      destruct (Z.eqb_spec (xbits w 14 6) 0) as [E|E].
      + exists 0. split; [right; auto|]. change (0 = xbits w 15 5). rewrite <- X, E. reflexivity.
      + eexists. split; [left; reflexivity|exact X].
    - change (ext FV2 "vs2" w) with (xbits w 20 6) in *.
      assert (X : Z.land (xbits w 20 6) 31 = xbits w 20 5).
      { change 31 with (Z.ones 5). rewrite Z.land_ones by lia. unfold xbits. change (2 ^ 20) with 1048576.
        change (2 ^ 6) with 64. change (2 ^ 5) with 32. lia. }
      destruct ((ext FV2 "form" w =? 2) || (ext FV2 "form" w =? 3) || is e "aconv_vxv"); [|discriminate].
      destruct (Z.eqb_spec (xbits w 20 6) 0) as [E|E].
      + exists 0. split; [right; auto|]. change (0 = xbits w 20 5). rewrite <- X, E. reflexivity.
      + eexists. split; [left; reflexivity|exact X]. }
  destruct H as (r & [->|[-> ->]] & <-); unfold xval; cbn [rd_scalar to_src].
  - destruct (Z.eqb_spec r 0) as [->|]; rewrite ?H0; auto.
  - auto.
Qed.
Lemma x_dst e w o : kind_of (dst_op e w o) = KX ->
  to_xdst (dst_op e w o) = match o with
    | DRd => if xbits w 7 5 =? 0 then -1 else xbits w 7 5
    | _ => if xbits w 14 6 =? 0 then -1 else xbits w 15 5 end.
Proof.
  destruct o; cbn [dst_op kind_of]; try discriminate; intros _.
  - change (ext FR "rd" w) with (xbits w 7 5). destruct (xbits w 7 5 =? 0); reflexivity.
  - change (ext FV2 "vs1" w) with (xbits w 14 6).
    assert (X : Z.shiftr (xbits w 14 6) 1 = xbits w 15 5).
    { rewrite Z.shiftr_div_pow2 by lia. unfold xbits. change (2 ^ 14) with 16384. change (2 ^ 15) with 32768.
      change (2 ^ 6) with 64. change (2 ^ 5) with 32. change (2 ^ 1) with 2. lia. }
    destruct (xbits w 14 6 =? 0); [reflexivity|exact X].
Qed.
(** Scalar destinations are rd for getvl and vs1 for loads and stores. *)
Definition dstsb (e : entry) : bool :=
  match e_sem e, e_dst e with
  | SmLd _ _ _ _ _ _, [] | SmSt _ _ _ _, [] | SmStq _ _, [] => true
  | SmLd _ _ _ _ _ _, [DVs1] | SmSt _ _ _ _, [DVs1] | SmStq _ _, [DVs1] => true
  | SmGetVl _ _ _ _, [DRd] => true
  | SmLd _ _ _ _ _ _, _ | SmSt _ _ _ _, _ | SmStq _ _, _ | SmGetVl _ _ _ _, _ => false
  | _, _ => true
  end.
Lemma dsts_all : forallb dstsb all_entries = true.
Proof. vm_compute. reflexivity. Qed.
Lemma post_frame T o q x x' r : post_spec T o q x x' -> mo_post o <> Some r -> x' r = x r.
Proof.
  unfold post_spec. destruct (mo_post o) as [p|]; intros H Hr; [|apply H].
  destruct H as [H _]. apply H. congruence.
Qed.
Theorem x_frame small pc junk e w s s' : encodes e w -> canonical w e -> wstate_ok s ->
  exec_row small pc junk e w s = Some (Ok s') ->
  forall r, 0 <= r -> xdest e w <> Some r -> w_x s' r = w_x s r.
Proof.
  intros He Hc (Hwf & Hacc & Hdw) HE r Hr Hd. pose proof (row_ok e w He Hc) as H. unfold rowb in H.
  pose proof dsts_all as HD. rewrite forallb_forall in HD. specialize (HD e (proj1 He)). unfold dstsb in HD.
  unfold exec_row in HE. unfold xdest in Hd.
  assert (V : forall o, with_v s o = Ok s' -> w_x s' r = w_x s r).
  { intros o K. unfold with_v in K. apply bind_ok in K as (v & _ & K). injection K as <-. reflexivity. }
  assert (C : forall o, with_c s o = Ok s' -> w_x s' r = w_x s r).
  { intros o K. unfold with_c in K. apply bind_ok in K as (v & _ & K). injection K as <-. reflexivity. }
  assert (Q : forall o, (e_dst e = [] \/ e_dst e = [DVs1]) -> postb (map (fun d => kind_of (dst_op e w d)) (e_dst e)) = true ->
    mo_post o = (match map (dst_op e w) (e_dst e) with d :: _ => Some (to_xdst d) | [] => None end) ->
    match e_dst e with [] => None | _ => if xbits w 14 6 =? 0 then None else Some (xbits w 15 5) end <> Some r ->
    mo_post o <> Some r).
  { intros o [E|E] Hp Hm Hx; rewrite E in *; cbn [map] in *; rewrite Hm; [discriminate|].
    cbn [postb] in Hp. rewrite x_dst by (destruct (kind_of (dst_op e w DVs1)); (reflexivity || discriminate)).
    destruct (xbits w 14 6 =? 0); [intros K; injection K; lia|exact Hx]. }
  destruct (e_sem e) as [i sc st|T len stride st Tw stw|T len stride st|T st|T st|T st r1 r2| |acc|tr| | |f] eqn:Es.
  all: repeat (apply andb_true_iff in H as [H ?]); rewrite ?kind_nth, ?kind_nth_d in *.
  - injection HE as HE. exact (V _ HE).
  - apply ity_eqb_eq in H4. subst Tw. rewrite H3 in HE. replace (ity_eqb T T) with true in HE by (destruct T; reflexivity).
    cbn [andb] in HE. injection HE as HE. pose proof (vecb_grp _ _ H1) as G.
    destruct (mop_ok small e w s len stride st false 0 _ H2 G) as (o & E & Ho & Hq & Hv & Hst & Hpo). rewrite E in HE. cbn [bind] in HE.
    destruct (vld_ok T o junk (to_m s) (smallb_ok _ H) Ho Hq) as (rf & x & E' & _ & _ & _ & Hp);
      [rewrite Hv, (regs_num _ _ Hst); exact G|]. rewrite E' in HE. cbn in HE. injection HE as <-. cbn [w_x].
    apply (post_frame _ _ _ _ _ _ Hp). apply Q; try assumption.
    destruct (e_dst e) as [|[] [|]]; try discriminate; auto.
  - injection HE as HE. pose proof (vecb_grp _ _ H1) as G.
    destruct (mop_ok small e w s len stride st false 1 _ H2 G) as (o & E & Ho & Hq & Hv & Hst & Hpo). rewrite E in HE. cbn [bind] in HE.
    destruct (vst_ok T o (to_m s) (smallb_ok _ H) Ho Hwf) as (m & x & E' & _ & Hp);
      [rewrite Hv, (regs_num _ _ Hst); exact G|]. rewrite E' in HE. cbn in HE. injection HE as <-. cbn [w_x].
    apply (post_frame _ _ _ _ _ _ Hp). apply Q; try assumption.
    destruct (e_dst e) as [|[] [|]]; try discriminate; auto.
  - injection HE as HE. pose proof (vecb_grp _ _ H1) as G.
    destruct (mop_ok small e w s false true st true 1 _ H2 G) as (o & E & Ho & Hq & Hv & Hst & Hpo). rewrite E in HE. cbn [bind] in HE.
    destruct (vst_ok T o (to_m s) (smallb_ok _ H) Ho Hwf) as (m & x & E' & _ & Hp);
      [rewrite Hv, (regs_num _ _ Hst); exact G|]. rewrite E' in HE. cbn in HE. injection HE as <-. cbn [w_x].
    apply (post_frame _ _ _ _ _ _ Hp). apply Q; try assumption.
    destruct (e_dst e) as [|[] [|]]; try discriminate; auto.
  - injection HE as HE. apply bind_ok in HE as (x & _ & HE). exact (V _ HE).
  - injection HE as HE. apply bind_ok in HE as (a & _ & HE). apply bind_ok in HE as (b & _ & HE). injection HE as <-.
    cbn [w_x]. destruct (e_dst e) as [|[] [|]]; try discriminate. cbn [map nth] in *.
    rewrite x_dst by (destruct (kind_of (dst_op e w DRd)); (reflexivity || discriminate)).
    change ((w / 2 ^ 7) mod 2 ^ 5) with (xbits w 7 5) in Hd.
    unfold upd. destruct (xbits w 7 5 =? 0); [now replace (r =? -1) with false by lia|].
    destruct (Z.eqb_spec r (xbits w 7 5)) as [->|]; [destruct Hd; reflexivity|reflexivity].
  - injection HE as HE. apply bind_ok in HE as (x & _ & HE). exact (C _ HE).
  - injection HE as HE. apply bind_ok in HE as (x & _ & HE). exact (C _ HE).
  - injection HE as HE. exact (C _ HE).
  - injection HE as HE. exact (C _ HE).
  - injection HE as HE. exact (C _ HE).
  - discriminate.
Qed.
