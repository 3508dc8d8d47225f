(** * V1 disassembly texts *)
From Verif Require Import CInt DecodeTypes DecodeModel DecodeSpec DecodeProofs.
From Verif Require Import V2DecTypes V2DecModel V2DecSpec V2DecProofs V1ScalModel V1ScalSpec V1ScalProofs.
From Coq Require Import Lia ZifyBool ZifyNat.
Import ListNotations.
Open Scope string_scope.
Open Scope list_scope.
Open Scope Z_scope.
Ltac Zify.zify_post_hook ::= Z.div_mod_to_equations.

(** ** The row *)
(** Whether a name is that of an immediate. *)
Definition imm_names : list string :=
  ["B_imm12"; "CSR_uimm5"; "csr"; "I_imm12"; "I_uimm5"; "r_uimm5"; "J_imm12"; "J_imm20"; "S_imm12"; "U_imm20"].
Definition sort_of (e : entry) (n : string) : string :=
  match List.find (fun s => String.eqb n (src_name s)) (e_src e) with Some (SImm _) => "i" | _ => "r" end.
Definition sort_seen (o : what) : string := match o with WNum _ => "i" | _ => "r" end.
Lemma imms_known : forallb (fun e => forallb (fun s => match s with SImm n => existsb (String.eqb n) imm_names | _ => true end) (e_src e)) all_entries = true.
Proof. vm_cast_no_check (eq_refl true). Qed.
Lemma imm_seen n w : In n imm_names -> exists v, imm1 n w = PImm v.
Proof. intros H. repeat (destruct H as [<-|H]; [eexists; unfold imm1; cbn [String.eqb Ascii.eqb Bool.eqb]; reflexivity|]). destruct H. Qed.
Lemma sort_ok e w n : In e all_entries -> sort_seen (oper e w n) = sort_of e n.
Proof.
  intros He. unfold oper, sort_of. destruct (List.find _ (e_src e)) as [s|] eqn:F.
  - apply find_some in F as [Hs _]. pose proof imms_known as K. rewrite forallb_forall in K. specialize (K e He).
    rewrite forallb_forall in K. specialize (K s Hs). destruct s as [| | | | | |i]; cbn [src1];
      try (match goal with |- context [src_op ?a ?b ?c] => destruct (src_op a b c) end; reflexivity).
    apply existsb_exists in K as (i' & Hi & E). apply String.eqb_eq in E. subst i'.
    destruct (imm_seen i w Hi) as (v & ->). reflexivity.
  - destruct (List.find _ (e_dst e ++ e_child e)) as [d|]; [|reflexivity].
    destruct d; cbn [dst1]; try reflexivity; match goal with |- context [dst_op ?a ?b ?c] => destruct (dst_op a b c) end; reflexivity.
Qed.
Definition skel (e : entry) (t : tok) : tok := match t with TChr c => TChr c | TOp r n f => TOp r (sort_of e n) f end.
Definition tok_eqb (a b : tok) : bool :=
  match a, b with
  | TChr c, TChr d => Ascii.eqb c d
  | TOp r n f, TOp r' n' f' => Bool.eqb r r' && String.eqb n n' && String.eqb f f'
  | _, _ => false
  end.
Fixpoint toks_eqb (a b : list tok) : bool :=
  match a, b with
  | [], [] => true
  | x :: a', y :: b' => if tok_eqb x y then toks_eqb a' b' else false
  | _, _ => false
  end.
Lemma toks_eqb_refl a : toks_eqb a a = true.
Proof.
  induction a as [|x a IH]; [reflexivity|]. cbn. replace (tok_eqb x x) with true; [exact IH|].
  destruct x; cbn; [now rewrite Ascii.eqb_refl|]. now rewrite Bool.eqb_reflx, !String.eqb_refl.
Qed.
Definition grouped (a b : string) : bool :=
  existsb (fun l => if existsb (String.eqb a) l then existsb (String.eqb b) l else false) same_text.
(** Text of a row without the operands. *)
Definition face (e : entry) : string * string * list tok := (e_name e, hd "" (texts e), map (skel e) (toks e)).
Definition apart (x y : string * string * list tok) : bool :=
  let '(n, m, s) := x in let '(n', m', s') := y in
  if String.eqb m m' then if toks_eqb s s' then grouped n n' else true else true.
Lemma faces_apart : pairwise apart (map face all_entries) = true.
Proof. vm_cast_no_check (eq_refl true). Qed.
Lemma line_face e1 e2 w1 w2 : In e1 all_entries -> In e2 all_entries -> line1 e1 w1 = line1 e2 w2 ->
  hd "" (texts e1) = hd "" (texts e2) /\ map (skel e1) (toks e1) = map (skel e2) (toks e2).
Proof.
  unfold line1. intros I1 I2 H. injection H as H1 H2. split; [exact H1|].
  revert H2. generalize (toks e1) (toks e2). intros l. induction l as [|t l IH]; intros [|t' l'] H; try discriminate; [reflexivity|].
  cbn [map] in *. injection H as A B. f_equal; [|now apply IH].
  destruct t, t'; cbn [show_tok skel] in *; [congruence|discriminate|discriminate|].
  rewrite <- (sort_ok e1 w1 name I1), <- (sort_ok e2 w2 name0 I2). congruence.
Qed.
Lemma grouped_iff a b : grouped a b = true -> exists l, In l same_text /\ In a l /\ In b l.
Proof.
  unfold grouped. rewrite existsb_exists. intros (l & Hl & H). exists l. split; [exact Hl|].
  destruct (existsb (String.eqb a) l) eqn:E; [|discriminate].
  apply existsb_exists in E as (a' & Ha & Ea). apply existsb_exists in H as (b' & Hb & Eb).
  apply String.eqb_eq in Ea, Eb. now subst.
Qed.
Theorem line_row e1 e2 w1 w2 : In e1 all_entries -> In e2 all_entries -> line1 e1 w1 = line1 e2 w2 ->
  e1 = e2 \/ exists l, In l same_text /\ In (e_name e1) l /\ In (e_name e2) l.
Proof.
  intros I1 I2 H. apply line_face in H as [A B]; [|assumption|assumption].
  destruct (pairwise_sound _ _ e1 e2 (pairwise_map _ _ _ faces_apart) I1 I2) as [E|[E|E]]; [now left| |]; right;
    unfold apart, face in E; rewrite A, B, String.eqb_refl, toks_eqb_refl in E; apply grouped_iff in E; [exact E|].
  destruct E as (l & X & Y & Z). exists l. auto.
Qed.

(** ** The operands *)
Fixpoint upto (n : nat) : list Z := match n with O => [] | S k => upto k ++ [Z.of_nat k] end.
Definition kn (s : sig) (lo n : Z) : bool := existsb (fun v => knows s (lo, n, v)) (upto (Z.to_nat (2 ^ n))).
Lemma kn_sound w1 w2 s lo n : kn s lo n = true -> meets w1 s -> meets w2 s -> at_ w1 lo n = at_ w2 lo n.
Proof.
  unfold kn. rewrite existsb_exists. intros (v & _ & K) A B.
  transitivity v; [exact (knows_sound w1 s _ _ _ K A)|symmetry; exact (knows_sound w2 s _ _ _ K B)].
Qed.
Definition seen (e : entry) (n : string) : bool := existsb (fun t => match t with TOp _ n' _ => String.eqb n n' | TChr _ => false end) (toks e).
Lemma seen_same e w1 w2 n : line1 e w1 = line1 e w2 -> seen e n = true -> oper e w1 n = oper e w2 n.
Proof.
  unfold line1, seen. intros H. assert (H2 : map (show_tok e w1) (toks e) = map (show_tok e w2) (toks e)) by congruence. clear H.
  revert H2. induction (toks e) as [|t l IH]; [discriminate|]. cbn [map existsb]. intros H S. apply orb_true_iff in S as [S|S].
  - destruct t as [c|r n' f]; [discriminate|]. apply String.eqb_eq in S. subst n'. cbn [show_tok] in H.
    injection H as H _. exact H.
  - apply IH; [congruence|exact S].
Qed.
Definition srcop_eqb (a b : srcop) : bool :=
  match a, b with
  | SRs1, SRs1 | SRs2, SRs2 | SVs1, SVs1 | SVs2, SVs2 | SVs3, SVs3 | SVd, SVd => true
  | SImm n, SImm m => String.eqb n m
  | _, _ => false
  end.
Lemma srcop_eqb_eq a b : srcop_eqb a b = true -> a = b.
Proof. destruct a, b; cbn; intros H; try discriminate; try reflexivity. now apply String.eqb_eq in H as ->. Qed.
Definition dstop_eqb (a b : dstop) : bool :=
  match a, b with
  | DRd, DRd | DVd, DVd | DVs1, DVs1 | DecodeTypes.DCsr, DecodeTypes.DCsr | DecodeTypes.DNextPc, DecodeTypes.DNextPc => true
  | _, _ => false
  end.
Lemma dstop_eqb_eq a b : dstop_eqb a b = true -> a = b.
Proof. destruct a, b; cbn; intros H; try discriminate; reflexivity. Qed.
Definition src_seen (e : entry) (s : srcop) : bool :=
  if seen e (src_name s) then
    match List.find (fun s' => String.eqb (src_name s) (src_name s')) (e_src e) with Some s' => srcop_eqb s s' | None => false end
  else false.
Definition src_clear (e : entry) (s : srcop) : bool :=
  if src_seen e s then true else
  match s with
  | SRs1 => kn (sig_of e) 15 5
  | SImm n => (String.eqb n "I_imm12" || String.eqb n "J_imm12") && knows (sig_of e) (20, 12, 0)
  | _ => false
  end.
Definition dst_clear (e : entry) (d : dstop) : bool :=
  match d with
  | DecodeTypes.DCsr | DecodeTypes.DNextPc => true
  | DVs1 => src_seen e SVs1 && knows (sig_of e) (0, 2, 3)
  | _ =>
    if (if seen e (dst_name d) then
          match List.find (fun s' => String.eqb (dst_name d) (src_name s')) (e_src e) with
          | Some _ => false
          | None => match List.find (fun d' => String.eqb (dst_name d) (dst_name d')) (e_dst e ++ e_child e) with
                    | Some d' => dstop_eqb d d' | None => false end
          end
        else false) then true
    else match d with DRd => kn (sig_of e) 7 5 | DVd => src_seen e SVd | _ => false end
  end.
(** Whether the lengths of the register groups follow from the row and the text. *)
Definition vec_ops (e : entry) : bool :=
  existsb (fun s => match s with SVs1 | SVs2 | SVs3 | SVd => true | _ => false end) (e_src e)
  || existsb (fun d => match d with DVd => true | _ => false end) (e_dst e ++ e_child e).
Definition ctx_ok (e : entry) : bool :=
  if vec_ops e then
    if is e "vcget" then match e_src e with [] => true | _ => false end
    else kn (sig_of e) 5 1 && (looseb e || kn (sig_of e) 2 3) && (kn (sig_of e) 26 6 || src_seen e SVs3)
      && (kn (sig_of e) 12 2 || looseb e || existsb (fun v => if v =? 2 then false else knows (sig_of e) (2, 3, v)) (upto 8))
  else true.
Definition row_clear (e : entry) : bool :=
  if existsb (String.eqb (e_name e)) hides then true
  else ctx_ok e && forallb (src_clear e) (e_src e) && forallb (dst_clear e) (e_dst e ++ e_child e).
Lemma rows_clear : forallb row_clear all_entries = true.
Proof. vm_cast_no_check (eq_refl true). Qed.

Lemma src_seen_same e w1 w2 s : line1 e w1 = line1 e w2 -> src_seen e s = true -> what_src (src1 e w1 s) = what_src (src1 e w2 s).
Proof.
  unfold src_seen. intros H. destruct (seen e (src_name s)) eqn:S; [|discriminate].
  pose proof (seen_same _ _ _ _ H S) as O. unfold oper in O.
  destruct (List.find _ (e_src e)) as [s'|]; [|discriminate]. intros E. apply srcop_eqb_eq in E. subst s'. congruence.
Qed.
(** What the lengths of register groups depend on. *)
Definition same_m (w1 w2 : Z) : Prop := ext FV2 "m" w1 = ext FV2 "m" w2.
Lemma src_op_same e w1 w2 s : what_src (src1 e w1 s) = what_src (src1 e w2 s) ->
  (forall v, s = v -> In v [SVs1; SVs2; SVd] -> same_m w1 w2) -> (s = SVs1 -> src1_widen e w1 = src1_widen e w2) ->
  x0_op (src_op e w1 s) = x0_op (src_op e w2 s).
Proof.
  unfold same_m. intros H M W. destruct s; cbn [src1 src_op] in *.
  - destruct (ext FR "rs1" w1 =? 0), (ext FR "rs1" w2 =? 0); cbn [what_src x0_op] in *; congruence.
  - destruct (ext FR "rs2" w1 =? 0), (ext FR "rs2" w2 =? 0); cbn [what_src x0_op] in *; congruence.
  - rewrite (M _ eq_refl ltac:(cbn; tauto)), (W eq_refl) in *.
    destruct (ext FV2 "form" w1 =? 3), (ext FV2 "form" w2 =? 3), (ext FV2 "vs1" w1 =? 0), (ext FV2 "vs1" w2 =? 0),
      (is e "adwconv_vxv" || is e "vdwconv_vxv"); unfold vgrp in *; cbn [g_base what_src x0_op] in *; congruence.
  - rewrite (M _ eq_refl ltac:(cbn; tauto)) in *.
    destruct ((ext FV2 "form" w1 =? 2) || (ext FV2 "form" w1 =? 3) || is e "aconv_vxv"),
      ((ext FV2 "form" w2 =? 2) || (ext FV2 "form" w2 =? 3) || is e "aconv_vxv"), (ext FV2 "vs2" w1 =? 0), (ext FV2 "vs2" w2 =? 0);
      unfold vgrp in *; cbn [g_base what_src x0_op] in *; congruence.
  - unfold vgrp in *; cbn [g_base what_src x0_op] in *; congruence.
  - rewrite (M _ eq_refl ltac:(cbn; tauto)) in *. unfold vgrp in *; cbn [g_base what_src x0_op] in *; congruence.
  - reflexivity.
Qed.
Lemma dst_op_same e w1 w2 d : what_dst (dst1 e w1 d) = what_dst (dst1 e w2 d) ->
  (d = DVd -> is e "vcget" = true \/ (same_m w1 w2 /\ widen_dst e w1 = widen_dst e w2)) -> x0_op (dst_op e w1 d) = x0_op (dst_op e w2 d).
Proof.
  unfold same_m. intros H M. destruct d; cbn [dst1 dst_op] in *; try reflexivity.
  - destruct (ext FR "rd" w1 =? 0), (ext FR "rd" w2 =? 0); cbn [what_dst x0_op] in *; congruence.
  - unfold vgrp in *. cbn [g_base what_dst x0_op] in *. destruct (M eq_refl) as [V|(E & W)].
    + assert (W : forall w, widen_dst e w = true).
      { intros w. unfold widen_dst. rewrite V. repeat match goal with |- (if ?c then _ else _) = _ => destruct c end; reflexivity. }
      rewrite !W, V. cbn [orb]. congruence.
    + rewrite W, E. congruence.
  - destruct (ext FV2 "vs1" w1 =? 0), (ext FV2 "vs1" w2 =? 0); cbn [what_dst x0_op] in *; congruence.
Qed.
Lemma src1_same e w1 w2 s : x0_op (src_op e w1 s) = x0_op (src_op e w2 s) -> what_src (src1 e w1 s) = what_src (src1 e w2 s) ->
  x0_src (src1 e w1 s) = x0_src (src1 e w2 s).
Proof.
  intros H K. destruct s as [| | | | | |n];
    try (unfold src1 in *; destruct (src_op e w1 _), (src_op e w2 _); cbn [x0_op x0_src] in *; congruence).
  cbn [src1] in *. revert K. unfold imm1. repeat (match goal with |- context [if ?c then _ else _] => destruct c end; [cbn; congruence|]).
  reflexivity.
Qed.
Lemma dst1_same e w1 w2 d : x0_op (dst_op e w1 d) = x0_op (dst_op e w2 d) -> x0_dst (dst1 e w1 d) = x0_dst (dst1 e w2 d).
Proof.
  intros H. destruct d; try reflexivity; unfold dst1; destruct (dst_op e w1 _), (dst_op e w2 _); cbn [x0_op x0_dst] in *; congruence.
Qed.
Lemma src_clear_same e w1 w2 s : matches w1 e = true -> matches w2 e = true -> line1 e w1 = line1 e w2 ->
  src_clear e s = true -> what_src (src1 e w1 s) = what_src (src1 e w2 s).
Proof.
  intros M1 M2 H. apply sig1 in M1, M2. unfold src_clear. destruct (src_seen e s) eqn:S.
  { intros _. now apply src_seen_same. }
  destruct s; try discriminate; intros K.
  - pose proof (kn_sound w1 w2 _ _ _ K M1 M2) as E. cbn [src1 src_op]. change (ext FR "rs1") with (fun w => at_ w 15 5). cbv beta. now rewrite E.
  - apply andb_true_iff in K as [N K]. assert (E : at_ w1 20 12 = at_ w2 20 12).
    { transitivity 0; [exact (knows_sound w1 _ _ _ _ K M1)|symmetry; exact (knows_sound w2 _ _ _ _ K M2)]. }
    assert (X : forall w, src1 e w (SImm n) = PImm (wrap I32 (sext 12 (at_ w 20 12)))).
    { intros w. apply orb_true_iff in N as [N|N]; apply String.eqb_eq in N; subst n; reflexivity. }
    now rewrite !X, E.
Qed.
Lemma dst_clear_same e w1 w2 d : matches w1 e = true -> matches w2 e = true -> line1 e w1 = line1 e w2 ->
  dst_clear e d = true -> what_dst (dst1 e w1 d) = what_dst (dst1 e w2 d).
Proof.
  intros M1 M2 H. apply sig1 in M1, M2.
  assert (G : (if seen e (dst_name d) then
          match List.find (fun s' => String.eqb (dst_name d) (src_name s')) (e_src e) with
          | Some _ => false
          | None => match List.find (fun d' => String.eqb (dst_name d) (dst_name d')) (e_dst e ++ e_child e) with
                    | Some d' => dstop_eqb d d' | None => false end
          end
        else false) = true -> what_dst (dst1 e w1 d) = what_dst (dst1 e w2 d)).
  { destruct (seen e (dst_name d)) eqn:S; [|discriminate]. pose proof (seen_same _ _ _ _ H S) as O. unfold oper in O.
    destruct (List.find _ (e_src e)); [discriminate|]. destruct (List.find _ (e_dst e ++ e_child e)) as [d'|]; [|discriminate].
    intros E. apply dstop_eqb_eq in E. subst d'. exact O. }
  destruct d; try reflexivity; unfold dst_clear.
  - destruct (if seen e (dst_name DRd) then _ else _) eqn:S; intros K; [now apply G|].
    pose proof (kn_sound w1 w2 _ _ _ K M1 M2) as E. cbn [dst1 dst_op]. change (ext FR "rd") with (fun w => at_ w 7 5). cbv beta. now rewrite E.
  - destruct (if seen e (dst_name DVd) then _ else _) eqn:S; intros K; [now apply G|].
    pose proof (src_seen_same e w1 w2 SVd H K) as E. cbn [src1 src_op dst1 dst_op g_base vgrp what_src what_dst] in *. congruence.
  - rewrite andb_true_iff. intros [K F]. pose proof (src_seen_same e w1 w2 SVs1 H K) as E.
    pose proof (knows_sound w1 _ _ _ _ F M1) as F1. pose proof (knows_sound w2 _ _ _ _ F M2) as F2.
    cbn [src1 src_op dst1 dst_op] in *. change (ext FV2 "form") with (fun w => DecodeTypes.xbits w 0 2) in E. cbv beta in E.
    rewrite F1, F2 in E. cbn [Z.eqb Pos.eqb] in E.
    destruct (ext FV2 "vs1" w1 =? 0), (ext FV2 "vs1" w2 =? 0); cbn [what_src what_dst] in *; congruence.
Qed.
Lemma canon_func1 w : DecodeTypes.xbits w 0 5 = 6 -> at_ w 2 3 = 1.
Proof. unfold DecodeTypes.xbits, at_. change (2 ^ 0) with 1. change (2 ^ 2) with 4. change (2 ^ 5) with 32. change (2 ^ 3) with 8. lia. Qed.
Lemma func1_at w : ext FV2 "func1" w = at_ w 2 3. Proof. reflexivity. Qed.
Lemma func2_at w : ext FV2 "func2" w = at_ w 26 6. Proof. reflexivity. Qed.
Lemma sz_at w : ext FV2 "sz" w = at_ w 12 2. Proof. reflexivity. Qed.
Lemma m_at w : ext FV2 "m" w = at_ w 5 1. Proof. reflexivity. Qed.
Lemma vs3_at w : ext FV3 "vs3" w = at_ w 26 6. Proof. reflexivity. Qed.
Lemma ctx_same e w1 w2 : matches w1 e = true -> matches w2 e = true -> canonical w1 e -> canonical w2 e -> line1 e w1 = line1 e w2 ->
  ctx_ok e = true -> vec_ops e = true ->
  (is e "vcget" = true /\ e_src e = []) \/
  (same_m w1 w2 /\ src1_widen e w1 = src1_widen e w2 /\ widen_dst e w1 = widen_dst e w2).
Proof.
  intros M1 M2 C1 C2 H. apply sig1 in M1, M2. unfold ctx_ok. intros K V. rewrite V in K.
  destruct (is e "vcget") eqn:I; [left; split; [reflexivity|]; destruct (e_src e); [reflexivity|discriminate]|right].
  rewrite !andb_true_iff, !orb_true_iff in K. destruct K as (((A & B) & C) & D).
  assert (L : looseb e = true -> at_ w1 2 3 = 1 /\ at_ w2 2 3 = 1).
  { intros L. apply looseb_iff in L. specialize (C1 L). specialize (C2 L). split; now apply canon_func1. }
  assert (F1 : at_ w1 2 3 = at_ w2 2 3).
  { destruct B as [B|B]; [destruct (L B); congruence|exact (kn_sound w1 w2 _ _ _ B M1 M2)]. }
  assert (F2 : at_ w1 26 6 = at_ w2 26 6).
  { destruct C as [C|C]; [exact (kn_sound w1 w2 _ _ _ C M1 M2)|].
    pose proof (src_seen_same e w1 w2 SVs3 H C) as E. cbn [src1 src_op g_base vgrp what_src] in E. rewrite !vs3_at in E. congruence. }
  assert (S : at_ w1 12 2 = at_ w2 12 2 \/ at_ w2 2 3 <> 2).
  { destruct D as [[D|D]|D].
    - left. exact (kn_sound w1 w2 _ _ _ D M1 M2).
    - right. destruct (L D) as [_ ->]. discriminate.
    - right. apply existsb_exists in D as (v & _ & D). destruct (v =? 2) eqn:E; [discriminate|].
      pose proof (knows_sound w2 _ _ _ _ D M2 : at_ w2 2 3 = v) as K. rewrite K. now apply Z.eqb_neq. }
  split; [unfold same_m; rewrite !m_at; exact (kn_sound w1 w2 _ _ _ A M1 M2)|].
  split.
  - unfold src1_widen. rewrite !func1_at, !func2_at, !sz_at, F1, F2. destruct S as [S|S]; [now rewrite S|].
    apply Z.eqb_neq in S. rewrite S. cbn [andb]. reflexivity.
  - unfold widen_dst. now rewrite !func1_at, !func2_at, F1, F2.
Qed.
Theorem line_operands e w1 w2 : In e all_entries -> matches w1 e = true -> matches w2 e = true -> canonical w1 e -> canonical w2 e ->
  line1 e w1 = line1 e w2 -> ~ In (e_name e) hides ->
  map (fun o => x0_op (src_op e w1 o)) (e_src e) = map (fun o => x0_op (src_op e w2 o)) (e_src e) /\
  map (fun o => x0_op (dst_op e w1 o)) (e_dst e ++ e_child e) = map (fun o => x0_op (dst_op e w2 o)) (e_dst e ++ e_child e) /\
  x0_act (act1 e w1) = x0_act (act1 e w2).
Proof.
  intros He M1 M2 C1 C2 H N. pose proof (good_of _ _ _ rows_clear He) as R. unfold row_clear in R.
  destruct (existsb (String.eqb (e_name e)) hides) eqn:X.
  { apply existsb_exists in X as (n & Hn & X). apply String.eqb_eq in X. subst n. contradiction. }
  rewrite !andb_true_iff, !forallb_forall in R. destruct R as ((K & RS) & RD).
  assert (Vs : forall s, In s (e_src e) -> In s [SVs1; SVs2; SVs3; SVd] -> vec_ops e = true).
  { intros s Hs Hv. unfold vec_ops. apply orb_true_iff. left. apply existsb_exists. exists s. split; [exact Hs|].
    cbn in Hv. destruct Hv as [<-|[<-|[<-|[<-|[]]]]]; reflexivity. }
  assert (So : forall s, In s (e_src e) -> x0_op (src_op e w1 s) = x0_op (src_op e w2 s)).
  { intros s Hs. apply src_op_same.
    + apply src_clear_same; auto.
    + intros v -> Hv. assert (Hv' : In v [SVs1; SVs2; SVs3; SVd]) by (cbn [In] in Hv |- *; tauto).
      destruct (ctx_same e w1 w2 M1 M2 C1 C2 H K (Vs v Hs Hv')) as [(_ & E)|(E & _)]; [|exact E].
      rewrite E in Hs. destruct Hs.
    + intros ->. destruct (ctx_same e w1 w2 M1 M2 C1 C2 H K (Vs _ Hs (or_introl eq_refl))) as [(_ & E)|(_ & E & _)]; [|exact E].
      rewrite E in Hs. destruct Hs. }
  assert (Do : forall d, In d (e_dst e ++ e_child e) -> x0_op (dst_op e w1 d) = x0_op (dst_op e w2 d)).
  { intros d Hd. apply dst_op_same.
    + apply dst_clear_same; auto.
    + intros ->. assert (V : vec_ops e = true).
      { unfold vec_ops. apply orb_true_iff. right. apply existsb_exists. exists DVd. auto. }
      destruct (ctx_same e w1 w2 M1 M2 C1 C2 H K V) as [(E & _)|(E & _ & E')]; [now left|right; auto]. }
  split; [|split]; [now apply map_ext_in|now apply map_ext_in|].
  assert (Ss : forall s, In s (e_src e) -> x0_src (src1 e w1 s) = x0_src (src1 e w2 s)).
    { intros s Hs. apply src1_same; [now apply So|apply src_clear_same; auto]. }
    assert (D : forall l, (forall d, In d l -> In d (e_dst e ++ e_child e)) -> map x0_dst (map (dst1 e w1) l) = map x0_dst (map (dst1 e w2) l)).
    { intros l Hl. rewrite !map_map. apply map_ext_in. intros d Hd. apply dst1_same. apply Do. auto. }
    unfold x0_act, act1. cbn [a_sem a_src a_dst a_child]. f_equal.
    + rewrite !map_map. now apply map_ext_in.
    + apply D. intros. apply in_app_iff. auto.
    + destruct (e_child e) as [|c l] eqn:E; [reflexivity|]. cbn [option_map fst snd]. do 2 f_equal.
      apply D. intros. apply in_app_iff. auto.
Qed.
Lemma names_apart : pairwise (fun a b => negb (String.eqb a b)) (map e_name all_entries) = true.
Proof. vm_cast_no_check (eq_refl true). Qed.
Theorem text_tells d w1 w2 e1 e2 : decoder_ok d -> parse d w1 = Some e1 -> parse d w2 = Some e2 ->
  canonical w1 e1 -> canonical w2 e2 -> line1 e1 w1 = line1 e2 w2 ->
  (exists l, In l same_text /\ In (e_name e1) l /\ In (e_name e2) l /\ e1 <> e2) \/
  (e1 = e2 /\ (In (e_name e1) hides \/
    (map (fun o => x0_op (src_op e1 w1 o)) (e_src e1) = map (fun o => x0_op (src_op e2 w2 o)) (e_src e2) /\
     map (fun o => x0_op (dst_op e1 w1 o)) (e_dst e1 ++ e_child e1) = map (fun o => x0_op (dst_op e2 w2 o)) (e_dst e2 ++ e_child e2) /\
     x0_act (act1 e1 w1) = x0_act (act1 e2 w2)))).
Proof.
  intros Hd H1 H2 C1 C2 H. destruct (parse_sound d w1 e1 Hd H1) as [I1 M1]. destruct (parse_sound d w2 e2 Hd H2) as [I2 M2].
  assert (R : forall e, e1 = e -> e2 = e -> (e1 = e2 /\ (In (e_name e1) hides \/
    (map (fun o => x0_op (src_op e1 w1 o)) (e_src e1) = map (fun o => x0_op (src_op e2 w2 o)) (e_src e2) /\
     map (fun o => x0_op (dst_op e1 w1 o)) (e_dst e1 ++ e_child e1) = map (fun o => x0_op (dst_op e2 w2 o)) (e_dst e2 ++ e_child e2) /\
     x0_act (act1 e1 w1) = x0_act (act1 e2 w2))))).
  { intros e E1 E2. split; [congruence|]. subst e1 e2. destruct (in_dec string_dec (e_name e) hides) as [N|N]; [now left|right].
    now apply line_operands. }
  destruct (String.eqb (e_name e1) (e_name e2)) eqn:N.
  - right. apply (R e2); [|reflexivity]. apply String.eqb_eq in N.
    destruct (pairwise_sound _ _ e1 e2 (pairwise_map _ _ _ names_apart) I1 I2) as [E|[E|E]]; [exact E| |];
      rewrite N, String.eqb_refl in E; discriminate.
  - destruct (line_row e1 e2 w1 w2 I1 I2 H) as [E|(l & A & B & C)]; [right; now apply (R e2)|].
    left. exists l. repeat split; auto. intros ->. now rewrite String.eqb_refl in N.
Qed.
