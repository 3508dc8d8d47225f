(** * From words to instructions *)
From Verif Require Import CInt Lane LaneSpec LaneProofs LaneCor VecModel VecSpec VecProofs VecEl VecFam VecPerm VecFrame
  ConvModel ConvSpec ConvProofs ConvProofs2 MemModel MemSpec MemProofs
  DecodeTypes DecodeModel DecodeSpec DecodeProofs DecodeProofs2 DecodeProofs3.
From Coq Require Import ZifyBool ZifyNat.
Import ListNotations.
Open Scope string_scope.
Open Scope Z_scope.
Ltac Zify.zify_post_hook ::= Z.div_mod_to_equations.

(** Which operands the rows have. *)
Definition opsb (e : entry) : bool :=
  match e_sem e with
  | SmVec i sc st =>
      match e_src e with
      | SVs1 :: SVs2 :: _ => true | [SVs1] => negb (two_operandsb i) | _ => false end &&
      match e_dst e with [DVd] => true | _ => false end
  | SmLd T len stride st Tw stw =>
      match e_src e with [SVs1] => negb (len || stride) | [SVs1; SVs2] => true | _ => false end &&
      match e_dst e with [] | [DVs1] => true | _ => false end &&
      match e_child e with [DVd] => true | _ => false end
  | SmSt T len stride st =>
      match e_src e with [SVd; SVs1] => negb (len || stride) | [SVd; SVs1; SVs2] => true | _ => false end &&
      match e_dst e with [] | [DVs1] => true | _ => false end
  | SmStq T st =>
      match e_src e with [SVd; SVs1; SVs2] => true | _ => false end &&
      match e_dst e with [] | [DVs1] => true | _ => false end
  | SmDup T st => match e_src e with [SVs2] => true | _ => false end && match e_dst e with [DVd] => true | _ => false end
  | _ => true
  end.
Lemma ops_all : forallb opsb all_entries = true.
Proof. vm_compute. reflexivity. Qed.
Lemma ops_ok e : In e all_entries -> opsb e = true.
Proof. intros H. pose proof ops_all as A. rewrite forallb_forall in A. now apply A. Qed.

Lemma vs1_vec e w n : vecb (kind_of (src_op e w SVs1)) n = true ->
  exists n1, src_op e w SVs1 = OVec (VG (f_vs1 w) n1) /\ n <= n1.
Proof.
  cbn [src_op]. change (ext FV2 "vs1" w) with (f_vs1 w). unfold vgrp.
  destruct (ext FV2 "form" w =? 3); [destruct (f_vs1 w =? 0); discriminate|].
  destruct (is e "adwconv_vxv" || is e "vdwconv_vxv"); cbn [kind_of vecb g_n]; intros H; eexists; (split; [reflexivity|lia]).
Qed.
Lemma vs2_vec e w n : vecb (kind_of (src_op e w SVs2)) n = true ->
  exists n2, src_op e w SVs2 = OVec (VG (f_vs2 w) n2) /\ n <= n2.
Proof.
  cbn [src_op]. change (ext FV2 "vs2" w) with (f_vs2 w). unfold vgrp.
  destruct ((ext FV2 "form" w =? 2) || (ext FV2 "form" w =? 3) || is e "aconv_vxv"); [destruct (f_vs2 w =? 0); discriminate|].
  cbn [kind_of vecb g_n]; intros H; eexists; (split; [reflexivity|lia]).
Qed.
Lemma vd_src e w n : vecb (kind_of (src_op e w SVd)) n = true ->
  exists n2, src_op e w SVd = OVec (VG (f_vd w) n2) /\ n <= n2.
Proof. cbn [src_op kind_of vecb vgrp g_n]. intros H. eexists. split; [reflexivity|lia]. Qed.
Lemma vd_dst e w n : vecb (kind_of (dst_op e w DVd)) n = true ->
  exists n2, dst_op e w DVd = OVec (VG (f_vd w) n2) /\ n <= n2.
Proof. cbn [dst_op kind_of vecb vgrp g_n]. intros H. eexists. split; [reflexivity|lia]. Qed.
Lemma xb_kx k : xb k = true -> k = KX.
Proof. destruct k; (reflexivity || discriminate). Qed.

Theorem vec_word small pc junk e w s i sc st :
  encodes e w -> e_sem e = SmVec i sc st -> w_x s 0 = 0 ->
  exists n1 s2 nd, need1 i st <= n1 /\ need_dst i st <= nd /\
    (two_operands i -> exists n2, nops st <= n2 /\ s2 = second sc w n2 s) /\
    exec_row small pc junk e w s = Some (with_v s (exec i sc st
      {| o_s0 := SVec (f_vs1 w) n1; o_s1 := s2; o_vd := f_vd w; o_nd := nd |} junk (w_v s))).
Proof.
  intros He Es H0. assert (Hc : canonical w e).
  { intros L. exfalso. revert L. unfold loose. cbn [In]. 
    destruct (meaning_ok e (proj1 He)) as [M _]. rewrite Es in M. specialize (M (fun f => f)).
    intros [L|[L|[L|[]]]]; rewrite <- L in M; vm_compute in M; discriminate. }
  pose proof (row_ok e w He Hc) as H. unfold rowb in H. rewrite Es in H.
  pose proof (ops_ok e (proj1 He)) as O. unfold opsb in O. rewrite Es in O.
  repeat (apply andb_true_iff in H as [H ?]). apply andb_true_iff in O as [O1 O2].
  destruct (e_dst e) as [|[] [|]] eqn:Ed; try discriminate.
  unfold exec_row. rewrite Es, Ed.
  assert (A : exists r, e_src e = SVs1 :: r /\ (two_operands i -> exists r', r = SVs2 :: r')).
  { destruct (e_src e) as [|[] [|[] l]]; try discriminate; eexists; (split; [reflexivity|]); intros T; eauto.
    destruct i; try discriminate; destruct T. }
  destruct A as (r & Er & Hr). rewrite Er in *. cbn [map nth] in *.
  destruct (vs1_vec _ _ _ H3) as (n1 & E1 & L1). destruct (vd_dst _ _ _ H1) as (nd & E2 & L2).
  rewrite E1, E2. cbn [to_src to_group g_base g_n].
  exists n1, (to_src (nth 0 (map (src_op e w) r) OOther) s), nd. split; [exact L1|]. split; [exact L2|]. split; [|reflexivity].
  intros T2. destruct (Hr T2) as (r' & ->). cbn [map nth] in *.
  replace (two_operandsb i) with true in H2 by (destruct i; (reflexivity || destruct T2)). cbn [negb orb] in H2.
  unfold second. destruct sc.
  - apply xb_kx in H2. destruct (x_src e w SVs2 s H0 H2) as [_ ->]. exists (nops st). split; [lia|reflexivity].
  - destruct (vs2_vec _ _ _ H2) as (n2 & -> & L). exists n2. split; [exact L|reflexivity].
Qed.

Lemma mop_word small e w s len stride st quad p v n :
  w_x s 0 = 0 -> v = OVec (VG (f_vd w) n) ->
  (exists r, skipn p (e_src e) = SVs1 :: r /\ (r = [] \/ r = [SVs2])) ->
  scalarsb (map (fun s => kind_of (src_op e w s)) (e_src e)) p (len || stride) = true ->
  (e_dst e = [] \/ e_dst e = [DVs1]) -> postb (map (fun d => kind_of (dst_op e w d)) (e_dst e)) = true ->
  exists two post, (len || stride = true -> two = true) /\ (post = true <-> e_dst e <> []) /\
    (two = true <-> In SVs2 (skipn p (e_src e))) /\
    mop_of small e w s len stride st quad p v = Ok (mem_operands small w s len stride st quad two post n).
Proof.
  intros H0 -> (r & Hs & Hr) Hk Hd Hp. unfold mop_of, mem_operands, scalarsb in *. cbn [to_group].
  apply andb_true_iff in Hk as [K1 K2].
  assert (N1 : forall (B : Type) (f : srcop -> B) d, nth p (map f (e_src e)) d = f SVs1).
  { intros B f d. rewrite <- (firstn_skipn p (e_src e)), Hs, map_app.
    assert (L : length (firstn p (e_src e)) = p).
    { apply firstn_length_le. assert (length (skipn p (e_src e)) <> 0%nat) by (rewrite Hs; discriminate).
      rewrite skipn_length in H. lia. }
    rewrite app_nth2; rewrite map_length, L; [|lia]. rewrite Nat.sub_diag. reflexivity. }
  assert (N2 : forall (B : Type) (f : srcop -> B), nth_error (map f (e_src e)) (S p) = nth_error (map f r) 0).
  { intros B f. rewrite <- (firstn_skipn p (e_src e)), Hs, map_app.
    assert (L : length (firstn p (e_src e)) = p).
    { apply firstn_length_le. assert (length (skipn p (e_src e)) <> 0%nat) by (rewrite Hs; discriminate).
      rewrite skipn_length in H. lia. }
    rewrite nth_error_app2; rewrite map_length, L; [|lia]. replace (S p - p)%nat with 1%nat by lia. reflexivity. }
  rewrite N1 in *. rewrite N2 in *. apply xb_kx in K1. destruct (x_src e w SVs1 s H0 K1) as [-> _]. cbn [bind].
  change (xfield SVs1 w) with (f_xs1 w). rewrite Hs.
  assert (P : (match map (dst_op e w) (e_dst e) with d :: _ => Some (to_xdst d) | [] => None end) =
    (if match e_dst e with [] => false | _ => true end then Some (if f_vs1 w =? 0 then -1 else f_xs1 w) else None)).
  { destruct Hd as [E|E]; rewrite E in *; cbn [map] in *; [reflexivity|]. cbn [postb] in Hp. apply xb_kx in Hp.
    rewrite (x_dst e w DVs1 Hp). reflexivity. }
  rewrite P.
  assert (PI : match e_dst e with [] => false | _ => true end = true <-> e_dst e <> []).
  { destruct (e_dst e); split; (discriminate || congruence || auto). }
  destruct Hr as [-> | ->]; cbn [map nth_error] in *.
  - exists false, (match e_dst e with [] => false | _ => true end). split; [apply negb_true_iff in K2; rewrite K2; discriminate|].
    split; [exact PI|]. split; [|reflexivity]. split; [discriminate|]. cbn. intros [K|[]]; discriminate.
  - apply xb_kx in K2. destruct (x_src e w SVs2 s H0 K2) as [-> _]. cbn [bind].
    exists true, (match e_dst e with [] => false | _ => true end). split; [auto|].
    split; [exact PI|]. split; [|reflexivity]. split; [|auto]. cbn. auto.
Qed.

Lemma not_loose e w i : encodes e w -> meaning (e_name e) = Some i -> 
  match i with SmLd _ _ _ _ _ _ | SmSt _ _ _ _ | SmStq _ _ | SmDup _ _ => True | _ => False end -> canonical w e.
Proof.
  intros He M Hi L. exfalso. unfold loose in L. cbn [In] in L.
  destruct L as [L|[L|[L|[]]]]; rewrite <- L in M; vm_compute in M; injection M as <-; exact Hi.
Qed.
Theorem ld_word small pc junk e w s T len stride st Tw stw :
  encodes e w -> e_sem e = SmLd T len stride st Tw stw -> w_x s 0 = 0 ->
  exists two post n, (len || stride = true -> two = true) /\ (post = true <-> e_dst e <> []) /\
    (two = true <-> In SVs2 (e_src e)) /\ regs st <= n /\
    exec_row small pc junk e w s =
    Some (with_m s (exec_vld T (mem_operands small w s len stride st false two post n) junk (to_m s))).
Proof.
  intros He Es H0. assert (Hc : canonical w e).
  { destruct (meaning_ok e (proj1 He)) as [M _]. rewrite Es in M. specialize (M (fun f => f)).
    eapply not_loose; [eassumption|exact M|exact I]. }
  pose proof (row_ok e w He Hc) as H. unfold rowb in H. rewrite Es in H.
  pose proof (ops_ok e (proj1 He)) as O. unfold opsb in O. rewrite Es in O.
  repeat (apply andb_true_iff in H as [H ?]). repeat (apply andb_true_iff in O as [O ?]).
  unfold exec_row. rewrite Es, H5, H4. cbn [andb].
  destruct (e_child e) as [|[] [|]] eqn:Ec; try discriminate. cbn [map nth] in *.
  match goal with K : vecb (kind_of (dst_op e w DVd)) _ = true |- _ => destruct (vd_dst _ _ _ K) as (n & E & Ln) end.
  destruct (mop_word small e w s len stride st false 0 (dst_op e w DVd) n H0 E) as (two & post & A & B & C & D); try assumption.
  - cbn [skipn]. destruct (e_src e) as [|[] [|[] [|]]]; try discriminate; eauto.
  - destruct (e_dst e) as [|[] [|]]; try discriminate; auto.
  - exists two, post, n. cbn [skipn] in C. rewrite D. cbn [bind]. auto.
Qed.
Theorem st_word small pc junk e w s T len stride st :
  encodes e w -> e_sem e = SmSt T len stride st -> w_x s 0 = 0 ->
  exists two post n, (len || stride = true -> two = true) /\ (post = true <-> e_dst e <> []) /\
    (two = true <-> In SVs2 (e_src e)) /\ regs st <= n /\
    exec_row small pc junk e w s =
    Some (with_m s (exec_vst T (mem_operands small w s len stride st false two post n) (to_m s))).
Proof.
  intros He Es H0. assert (Hc : canonical w e).
  { destruct (meaning_ok e (proj1 He)) as [M _]. rewrite Es in M. specialize (M (fun f => f)).
    eapply not_loose; [eassumption|exact M|exact I]. }
  pose proof (row_ok e w He Hc) as H. unfold rowb in H. rewrite Es in H.
  pose proof (ops_ok e (proj1 He)) as O. unfold opsb in O. rewrite Es in O.
  repeat (apply andb_true_iff in H as [H ?]). repeat (apply andb_true_iff in O as [O ?]).
  unfold exec_row. rewrite Es.
  assert (A : exists r, e_src e = SVd :: SVs1 :: r /\ (r = [] \/ r = [SVs2])).
  { destruct (e_src e) as [|[] [|[] [|[] [|]]]]; try discriminate; eauto. }
  destruct A as (r & Er & Hr). rewrite Er in *. cbn [map nth] in *.
  match goal with K : vecb (kind_of (src_op e w SVd)) _ = true |- _ => destruct (vd_src _ _ _ K) as (n & E & Ln) end.
  destruct (mop_word small e w s len stride st false 1 (src_op e w SVd) n H0 E) as (two & post & A & B & C & D); rewrite ?Er; try assumption.
  - exists r. auto.
  - destruct (e_dst e) as [|[] [|]]; try discriminate; auto.
  - exists two, post, n. rewrite D. cbn [bind]. rewrite Er in C. cbn [skipn] in C.
    split; [exact A|]. split; [exact B|]. split; [|auto]. rewrite C. split; [intros; now right|intros [K|K]; [discriminate|exact K]].
Qed.
Theorem stq_word small pc junk e w s T st :
  encodes e w -> e_sem e = SmStq T st -> w_x s 0 = 0 ->
  exists post n, (post = true <-> e_dst e <> []) /\ regs st <= n /\
    exec_row small pc junk e w s =
    Some (with_m s (exec_vst T (mem_operands small w s false true st true true post n) (to_m s))).
Proof.
  intros He Es H0. assert (Hc : canonical w e).
  { destruct (meaning_ok e (proj1 He)) as [M _]. rewrite Es in M. specialize (M (fun f => f)).
    eapply not_loose; [eassumption|exact M|exact I]. }
  pose proof (row_ok e w He Hc) as H. unfold rowb in H. rewrite Es in H.
  pose proof (ops_ok e (proj1 He)) as O. unfold opsb in O. rewrite Es in O.
  repeat (apply andb_true_iff in H as [H ?]). repeat (apply andb_true_iff in O as [O ?]).
  unfold exec_row. rewrite Es.
  assert (A : e_src e = [SVd; SVs1; SVs2]).
  { destruct (e_src e) as [|[] [|[] [|[] [|]]]]; try discriminate; eauto. }
  rename A into Er. rewrite Er in *. cbn [map nth] in *.
  match goal with K : vecb (kind_of (src_op e w SVd)) _ = true |- _ => destruct (vd_src _ _ _ K) as (n & E & Ln) end.
  destruct (mop_word small e w s false true st true 1 (src_op e w SVd) n H0 E) as (two & post & A & B & C & D); rewrite ?Er; try assumption.
  - eexists. split; [reflexivity|]. auto.
  - destruct (e_dst e) as [|[] [|]]; try discriminate; auto.
  - exists post, n. rewrite (A eq_refl) in D. rewrite D. cbn [bind]. auto.
Qed.
Theorem dup_word small pc junk e w s T st :
  encodes e w -> e_sem e = SmDup T st -> w_x s 0 = 0 ->
  exists n, regs st <= n /\
    exec_row small pc junk e w s =
    Some (with_v s (exec_vdup T st (VG (f_vd w) n) (xval s (f_xs2 w)) junk (w_v s))).
Proof.
  intros He Es H0. assert (Hc : canonical w e).
  { destruct (meaning_ok e (proj1 He)) as [M _]. rewrite Es in M. specialize (M (fun f => f)).
    eapply not_loose; [eassumption|exact M|exact I]. }
  pose proof (row_ok e w He Hc) as H. unfold rowb in H. rewrite Es in H.
  pose proof (ops_ok e (proj1 He)) as O. unfold opsb in O. rewrite Es in O.
  repeat (apply andb_true_iff in H as [H ?]). repeat (apply andb_true_iff in O as [O ?]).
  unfold exec_row. rewrite Es.
  destruct (e_src e) as [|[] [|]]; try discriminate. destruct (e_dst e) as [|[] [|]]; try discriminate. cbn [map nth] in *.
  destruct (vd_dst _ _ _ H1) as (n & -> & Ln). apply xb_kx in H2. destruct (x_src e w SVs2 s H0 H2) as [-> _].
  cbn [bind to_group]. exists n. auto.
Qed.

(** ** Words executed *)
Definition namesb (e : entry) : bool :=
  match e_sem e with
  | SmLd _ _ _ _ _ _ | SmSt _ _ _ _ | SmStq _ _ =>
      Bool.eqb (has_post (e_name e)) (match e_dst e with [] => false | _ => true end) &&
      Bool.eqb (has_xs2 (e_name e)) (existsb (fun s => match s with SVs2 => true | _ => false end) (e_src e))
  | _ => true
  end.
Lemma names_all : forallb namesb all_entries = true.
Proof. vm_compute. reflexivity. Qed.
Lemma names_ok e : In e all_entries -> namesb e = true.
Proof. intros H. pose proof names_all as A. rewrite forallb_forall in A. now apply A. Qed.
Lemma names_mem e two post : namesb e = true ->
  match e_sem e with SmLd _ _ _ _ _ _ | SmSt _ _ _ _ | SmStq _ _ => True | _ => False end ->
  (post = true <-> e_dst e <> []) -> (two = true <-> In SVs2 (e_src e)) ->
  post = has_post (e_name e) /\ two = has_xs2 (e_name e).
Proof.
  unfold namesb. intros H Hs Hp Ht.
  assert (E : Bool.eqb (has_post (e_name e)) (match e_dst e with [] => false | _ => true end) &&
      Bool.eqb (has_xs2 (e_name e)) (existsb (fun s => match s with SVs2 => true | _ => false end) (e_src e)) = true)
    by (destruct (e_sem e); (exact H || destruct Hs)).
  apply andb_true_iff in E as [E1 E2]. apply eqb_prop in E1, E2. rewrite E1, E2. split.
  - apply eq_true_iff_eq. rewrite Hp. destruct (e_dst e); split; (discriminate || congruence || auto).
  - apply eq_true_iff_eq. rewrite Ht, existsb_exists. split.
    + intros K. exists SVs2. auto.
    + intros ([] & K & L); try discriminate. exact K.
Qed.

Lemma sem_of e s : In e all_entries -> meaning (e_name e) = Some s -> ~ is_scalar_op s -> e_sem e = s.
Proof.
  intros Hin M Hs. destruct (meaning_ok e Hin) as [A B].
  destruct (e_sem e) eqn:E; try (rewrite A in M by (intros []); now injection M).
  rewrite B in M by exact I. discriminate.
Qed.
Lemma vec_fields e w i sc st : encodes e w -> e_sem e = SmVec i sc st -> st = w_m w /\ (two_operands i -> (sc = true <-> w_form w = 2)).
Proof. intros He Es. pose proof (select_ok e w He) as H. rewrite Es in H. cbn [fields_select] in H. tauto. Qed.
Lemma legal_of e w i sc st : encodes e w -> e_sem e = SmVec i sc st -> legal_dec i sc st.
Proof.
  intros He Es. assert (Hc : canonical w e).
  { intros L. exfalso. destruct (meaning_ok e (proj1 He)) as [M _]. rewrite Es in M. specialize (M (fun f => f)).
    unfold loose in L. cbn [In] in L. destruct L as [L|[L|[L|[]]]]; rewrite <- L in M; vm_compute in M; discriminate. }
  pose proof (row_ok e w He Hc) as H. unfold rowb in H. rewrite Es in H. apply legalb_ok.
  repeat (apply andb_true_iff in H as [H ?]). exact H.
Qed.
Lemma with_v_ok s o rf : o = Ok rf -> with_v s o = Ok (WS (w_mem s) rf (w_x s) (w_acc s) (w_dw s) (w_traps s)).
Proof. intros ->. reflexivity. Qed.

Theorem word_elementwise small pc junk d w e s o T sc st :
  decoder_ok d -> parse d w = Some e -> meaning (e_name e) = Some (SmVec (VEl o T) sc st) ->
  wf (w_v s) -> w_x s 0 = 0 ->
  let N := if w_m w then 4 else 1 in
  let a k i := lane T (w_v s (f_vs1 w + k)) i in
  let b k i := if w_form w =? 2 then trunc T (xval s (f_xs2 w)) else lane T (w_v s (f_vs2 w + k)) i in
  no_hazard N (f_vd w) (f_vs1 w) -> (w_form w <> 2 -> no_hazard N (f_vd w) (f_vs2 w)) ->
  (forall k i, 0 <= k < N -> 0 <= i < nlanes T -> lane_pre o T (a k i) (b k i)) ->
  exists s', exec_word small pc junk d w s = Some (Ok s') /\ rest_same s s' /\ wf (w_v s') /\
    only_written (f_vd w) N (w_v s) (w_v s') /\
    forall k i, 0 <= k < N -> 0 <= i < nlanes T ->
      lane_spec o T (lane T (w_v s (f_vd w + k)) i) (a k i) (b k i) (lane (dst_ty o T) (w_v s' (f_vd w + k)) i).
Proof.
  intros Hd Hp M Hwf H0 N a b Hh1 Hh2 Hpre.
  pose proof (parse_sound d w e Hd Hp) as He. pose proof (sem_of e _ (proj1 He) M (fun f => f)) as Es.
  destruct (vec_fields e w _ _ _ He Es) as [Est Hsc]. specialize (Hsc I).
  destruct (vec_word small pc junk e w s _ _ _ He Es H0) as (n1 & s2 & nd & L1 & L2 & E2 & E).
  destruct (E2 I) as (n2 & L3 & ->). cbn [need1 need_dst] in *.
  assert (EN : nops st = N) by (unfold N, nops; now rewrite Est).
  assert (Eb : forall k i, arg2 T (w_v s) (second sc w n2 s) k i = b k i).
  { intros k i. unfold b, second, arg2. destruct sc.
    - rewrite (proj1 Hsc eq_refl). reflexivity.
    - destruct (Z.eqb_spec (w_form w) 2) as [K|]; [apply Hsc in K; discriminate|reflexivity]. }
  destruct (el_exec o T sc st (f_vd w) nd (f_vs1 w) n1 (second sc w n2 s) junk (w_v s)) as (rf & X1 & X2 & X3 & X4); try lia; try assumption.
  - exact (legal_of e w _ _ _ He Es).
  - now rewrite EN.
  - rewrite EN. unfold second, second_ok. destruct sc; [reflexivity|]. split; [reflexivity|]. split; [lia|]. apply Hh2.
    intros K. apply Hsc in K. discriminate.
  - intros k i Hk Hi. rewrite Eb. rewrite EN in Hk. now apply Hpre.
  - rewrite EN in *. unfold exec_word. rewrite Hp, E, (with_v_ok _ _ _ X1). eexists. split; [reflexivity|].
    cbn [w_v w_mem w_x w_acc w_dw w_traps]. split; [repeat split|]. split; [exact X2|]. split; [exact X3|].
    intros k i Hk Hi. rewrite <- Eb. now apply X4.
Qed.

Theorem word_vector small pc junk d w e s i sc st :
  decoder_ok d -> parse d w = Some e -> meaning (e_name e) = Some (SmVec i sc st) -> w_x s 0 = 0 ->
  st = w_m w /\ (two_operands i -> (sc = true <-> w_form w = 2)) /\
  exists n1 s2 nd, need1 i st <= n1 /\ need_dst i st <= nd /\
    (two_operands i -> exists n2, nops st <= n2 /\ s2 = second sc w n2 s) /\
    exec_word small pc junk d w s = Some (with_v s (exec i sc st
      {| o_s0 := SVec (f_vs1 w) n1; o_s1 := s2; o_vd := f_vd w; o_nd := nd |} junk (w_v s))).
Proof.
  intros Hd Hp M H0. pose proof (parse_sound d w e Hd Hp) as He. pose proof (sem_of e _ (proj1 He) M (fun f => f)) as Es.
  destruct (vec_fields e w _ _ _ He Es) as [Est Hsc]. split; [exact Est|]. split; [exact Hsc|].
  unfold exec_word. rewrite Hp. now apply vec_word.
Qed.

Lemma mo_ops small w s len stride st quad two post n : (len || stride = true -> two = true) ->
  op_ok (mem_operands small w s len stride st quad two post n).
Proof.
  intros H K. cbn [mem_operands mo_len mo_stride mo_xs2] in *. rewrite H; [discriminate|].
  apply orb_true_iff. exact K.
Qed.
Lemma small_of e w T : encodes e w -> match e_sem e with
  | SmLd T' _ _ _ _ _ | SmSt T' _ _ _ | SmStq T' _ | SmDup T' _ => T' = T | _ => False end -> VecProofs.small T.
Proof.
  intros He Hs. assert (Hc : canonical w e).
  { destruct (meaning_ok e (proj1 He)) as [M _].
    destruct (e_sem e) eqn:Es; try destruct Hs; (eapply not_loose; [eassumption|apply M; intros []|exact I]). }
  pose proof (row_ok e w He Hc) as H. unfold rowb in H. destruct (e_sem e); try destruct Hs; apply smallb_ok;
    repeat (apply andb_true_iff in H as [H ?]); exact H.
Qed.

Theorem word_load small pc junk d w e s T len stride st Tw stw :
  decoder_ok d -> parse d w = Some e -> meaning (e_name e) = Some (SmLd T len stride st Tw stw) -> w_x s 0 = 0 ->
  let N := if w_m w then 4 else 1 in
  let o := mem_operands small w s len stride st false (has_xs2 (e_name e)) (has_post (e_name e)) N in
  st = w_m w /\ op_ok o /\
  exists s', exec_word small pc junk d w s = Some (Ok s') /\
    w_mem s' = w_mem s /\ w_acc s' = w_acc s /\ w_dw s' = w_dw s /\ w_traps s' = w_traps s /\
    (forall k j, 0 <= k < N -> 0 <= j < nlanes T ->
       lane T (w_v s' (f_vd w + k)) j =
       let n := k * nlanes T + j in
       if n <? nsel T o then trunc T (uval (Z.to_nat (lanebytes T)) (w_mem s) (eaddr T o false n)) else 0) /\
    regs_outside (f_vd w) N (w_v s) (w_v s') /\ post_spec T o false (w_x s) (w_x s').
Proof.
  intros Hd Hp M H0 N o. pose proof (parse_sound d w e Hd Hp) as He. pose proof (sem_of e _ (proj1 He) M (fun f => f)) as Es.
  pose proof (select_ok e w He) as Hf. rewrite Es in Hf. cbn [fields_select] in Hf. destruct Hf as (_ & _ & Est & _).
  destruct (ld_word small pc junk e w s _ _ _ _ _ _ He Es H0) as (two & post & n & A & B & C & L & E).
  destruct (names_mem e two post (names_ok e (proj1 He))) as [-> ->]; try assumption; [now rewrite Es|].
  split; [exact Est|]. assert (Ho : op_ok o) by (apply mo_ops; exact A). split; [exact Ho|].
  assert (HT : VecProofs.small T) by (apply (small_of e w T He); now rewrite Es).
  set (o' := mem_operands small w s len stride st false (has_xs2 (e_name e)) (has_post (e_name e)) n) in *.
  assert (EN : regs_of o' = N) by (unfold N, regs_of, o'; cbn [mem_operands mo_strip]; now rewrite Est).
  destruct (vld_ok T o' junk (to_m s) HT) as (rf & x & X1 & X2 & X3 & X4 & X5).
  - apply mo_ops. exact A.
  - reflexivity.
  - unfold regs_of, regs in *. cbn. exact L.
  - unfold exec_word. rewrite Hp, E, X1. eexists. split; [reflexivity|]. cbn [w_mem w_acc w_dw w_traps w_v w_x m_mem m_v m_x to_m].
    rewrite EN in *. repeat (split; [reflexivity|]). split; [exact X2|]. split; [exact X3|]. exact X5.
Qed.
Theorem word_store small pc junk d w e s T len stride st quad :
  decoder_ok d -> parse d w = Some e ->
  meaning (e_name e) = Some (if quad : bool then SmStq T st else SmSt T len stride st) ->
  (quad = true -> len = false /\ stride = true) -> wf (w_v s) -> w_x s 0 = 0 ->
  let N := if w_m w then 4 else 1 in
  let o := mem_operands small w s len stride st quad (has_xs2 (e_name e)) (has_post (e_name e)) N in
  st = w_m w /\ op_ok o /\
  exists s', exec_word small pc junk d w s = Some (Ok s') /\
    w_v s' = w_v s /\ w_acc s' = w_acc s /\ w_dw s' = w_dw s /\ w_traps s' = w_traps s /\
    stored T o quad (w_v s) (w_mem s) (w_mem s') /\ post_spec T o quad (w_x s) (w_x s').
Proof.
  intros Hd Hp M Hq Hwf H0 N o. pose proof (parse_sound d w e Hd Hp) as He.
  assert (Es : e_sem e = (if quad : bool then SmStq T st else SmSt T len stride st)).
  { apply (sem_of e _ (proj1 He) M). destruct quad; intros []. }
  assert (Est : st = w_m w).
  { pose proof (select_ok e w He) as Hf. rewrite Es in Hf. destruct quad; cbn [fields_select] in Hf; tauto. }
  assert (W : exists n, (len || stride = true -> has_xs2 (e_name e) = true) /\ regs st <= n /\
    exec_row small pc junk e w s = Some (with_m s (exec_vst T
      (mem_operands small w s len stride st quad (has_xs2 (e_name e)) (has_post (e_name e)) n) (to_m s)))).
  { destruct quad.
    - destruct (Hq eq_refl) as [-> ->]. destruct (stq_word small pc junk e w s _ _ He Es H0) as (post & n & B & L & E).
      destruct (names_mem e true post (names_ok e (proj1 He))) as [-> <-]; [now rewrite Es|exact B| |eauto].
      pose proof (ops_ok e (proj1 He)) as O. unfold opsb in O. rewrite Es in O. apply andb_true_iff in O as [O _].
      split; [|reflexivity]. intros _. destruct (e_src e) as [|[] [|[] [|[] [|]]]]; try discriminate. cbn. auto.
    - destruct (st_word small pc junk e w s _ _ _ _ He Es H0) as (two & post & n & A & B & C & L & E).
      destruct (names_mem e two post (names_ok e (proj1 He))) as [-> ->]; try assumption; [now rewrite Es|]. eauto. }
  destruct W as (n & A & L & E).
  split; [exact Est|]. split; [apply mo_ops; exact A|].
  assert (HT : VecProofs.small T) by (apply (small_of e w T He); rewrite Es; destruct quad; reflexivity).
  set (o' := mem_operands small w s len stride st quad (has_xs2 (e_name e)) (has_post (e_name e)) n) in *.
  destruct (vst_ok T o' (to_m s) HT) as (m & x & X1 & X2 & X3).
  - apply mo_ops. exact A.
  - exact Hwf.
  - unfold regs_of, regs in *. cbn. exact L.
  - unfold exec_word. rewrite Hp, E, X1. eexists. split; [reflexivity|]. cbn [w_mem w_acc w_dw w_traps w_v w_x m_mem m_v m_x to_m].
    repeat (split; [reflexivity|]). split; [exact X2|]. exact X3.
Qed.

(** ** Corollaries *)
Theorem decode_sound_complete d w : decoder_ok d ->
  (forall e, parse d w = Some e -> encodes e w) /\
  (forall e, encodes e w -> exists e', parse d w = Some e').
Proof. intros Hd. split; intros e; [now apply parse_sound|now apply parse_complete]. Qed.
Theorem decodes_itself d w e : decoder_ok d -> encodes e w ->
  (In (e_grp e) [GInst; GArith; GConv] -> parse d w = Some e) /\
  (canonical w e ->
   ((w / 2 ^ 20) mod 2 ^ 6 <> 0 \/ (w / 2 ^ 5) mod 2 <> 0 \/ ~ 16 <= (w / 2 ^ 26) mod 2 ^ 6 <= 18 \/ loose e) ->
   parse d w = Some e).
Proof.
  intros Hd He. split; [now apply decodes_early|]. intros Hc H.
  destruct (looseb e) eqn:L.
  - apply looseb_iff in L. apply decodes_alone; auto. intros e' L' He'.
    pose proof (Hc L) as K. apply (encoding_unique w); auto. intros _. exact K.
  - assert (NL : ~ loose e) by (intros K; apply looseb_iff in K; congruence).
    apply decodes_alone; auto. intros e' L' He'. exfalso.
    destruct (loose_fields w e' L' He') as (A & B & C). unfold xbits in *. change (2 ^ 1) with 2 in B. tauto.
Qed.
Lemma only_in_group d w l1 g l2 e : decoder_ok d -> order = (l1 ++ g :: l2)%list ->
  forallb (fun g' => forallb (fun x => negb (matches w x)) (table g')) l1 = true ->
  filter (matches w) (table g) = [e] -> parse d w = Some e.
Proof.
  intros Hd Ho H1 H2. destruct (parse_first d w l1 g l2 Hd Ho) as (e' & -> & A & B).
  - intros g' x G X. rewrite forallb_forall in H1. specialize (H1 g' G). rewrite forallb_forall in H1.
    specialize (H1 x X). now apply negb_true_iff.
  - exists e. apply filter_In. rewrite H2. now left.
  - assert (K : In e' [e]) by (rewrite <- H2; apply filter_In; auto). destruct K as [->|[]]. reflexivity.
Qed.
Theorem decoded_selects d w e : decoder_ok d -> parse d w = Some e ->
  fields_select (e_sem e) w /\
  (~ is_scalar_op (e_sem e) -> meaning (e_name e) = Some (e_sem e)) /\
  (is_scalar_op (e_sem e) -> meaning (e_name e) = None).
Proof.
  intros Hd Hp. pose proof (parse_sound d w e Hd Hp) as He. split; [now apply select_ok|]. apply meaning_ok, He.
Qed.
Theorem groups_cover small pc junk d w e s :
  decoder_ok d -> parse d w = Some e -> canonical w e -> ~ is_scalar_op (e_sem e) -> wstate_ok s ->
  exists r, exec_word small pc junk d w s = Some r /\ safe (word_ub (e_sem e)) r /\ r <> UB OutOfBounds.
Proof.
  intros Hd Hp Hc Hs Hw. pose proof (parse_sound d w e Hd Hp) as He. unfold exec_word. rewrite Hp.
  destruct (row_runs small pc junk e w s He Hc Hs Hw) as (r & E & S). exists r. split; [exact E|]. split; [exact S|].
  intros ->. cbn [safe] in S. unfold word_ub in S. destruct (e_sem e); try destruct S; try discriminate. Qed.
Theorem scalar_reads e w o st : w_x st 0 = 0 ->
  (exists r, src_op e w o = OReg r) \/ src_op e w o = OZero ->
  rd_scalar (src_op e w o) st = Ok (xval st (xfield o w)) /\
  to_src (src_op e w o) st = SScal (xval st (xfield o w)).
Proof. intros H0 H. apply x_src; [exact H0|]. destruct H as [[r ->]| ->]; reflexivity. Qed.
Theorem scalar_writes small pc junk d w e s s' :
  decoder_ok d -> parse d w = Some e -> canonical w e -> wstate_ok s ->
  exec_word small pc junk d w s = Some (Ok s') ->
  (forall r, 0 <= r -> xdest e w <> Some r -> w_x s' r = w_x s r) /\
  (f_vs1 w <> 1 -> w_x s' 0 = w_x s 0).
Proof.
  intros Hd Hp Hc Hw HE. pose proof (parse_sound d w e Hd Hp) as He. unfold exec_word in HE. rewrite Hp in HE.
  pose proof (x_frame small pc junk e w s s' He Hc Hw HE) as F. split; [exact F|].
  intros H1. apply F; [lia|]. unfold xdest, f_vs1 in *.
  assert (K : (w / 2 ^ 14) mod 64 <> 1 -> (w / 2 ^ 14) mod 2 ^ 6 <> 0 -> (w / 2 ^ 15) mod 2 ^ 5 <> 0).
  { change (2 ^ 14) with 16384. change (2 ^ 15) with 32768. change (2 ^ 6) with 64. change (2 ^ 5) with 32. lia. }
  assert (R : forall l : list dstop, match l with [] => None | _ => if (w / 2 ^ 14) mod 2 ^ 6 =? 0 then None else Some ((w / 2 ^ 15) mod 2 ^ 5) end <> Some 0).
  { intros [|? ?]; [discriminate|]. destruct (Z.eqb_spec ((w / 2 ^ 14) mod 2 ^ 6) 0); [discriminate|].
    intros X. injection X as X. now apply K. }
  destruct (e_sem e); try discriminate; try apply R.
  destruct (Z.eqb_spec ((w / 2 ^ 7) mod 2 ^ 5) 0); [discriminate|]. intros X. injection X as X. contradiction.
Qed.
