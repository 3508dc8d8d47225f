(** * V1 scalar decoding: every word of the manuals gets its function and operands *)
From Verif Require Import CInt DecodeTypes DecodeModel DecodeSpec DecodeProofs.
From Verif Require Import V2DecTypes V2DecModel V2DecSpec V2DecProofs V1ScalModel V1ScalSpec.
From Coq Require Import Lia ZifyBool ZifyNat.
Import ListNotations.
Open Scope string_scope.
Open Scope list_scope.
Open Scope Z_scope.
Ltac Zify.zify_post_hook ::= Z.div_mod_to_equations.

(** ** Rows as fields *)
Definition atoms1 (e : entry) : atoms := (eqs e, nes e).
Definition con_known (f : fmt) (c : DecodeTypes.con) : bool :=
  match c with
  | DecodeTypes.Ceq n _ | DecodeTypes.Cne n _ => match field f n with Some _ => true | None => false end
  end.
Lemma rows_known : forallb (fun e => forallb (con_known (e_fmt e)) (e_cons e)) all_entries = true.
Proof. vm_compute. reflexivity. Qed.
Lemma row_iff1 e w : In e all_entries -> (matches w e = true <-> holds w (atoms1 e)).
Proof.
  intros Hin. pose proof (good_of _ _ _ rows_known Hin) as K. unfold matches, atoms1, eqs, nes, holds. cbn [fst snd].
  rewrite forallb_forall in K. rewrite forallb_forall. split.
  - intros H. split; intros lo k v Hv; apply in_flat_map in Hv as (c & Hc & Hv); specialize (H c Hc); destruct c as [n u|n u];
      [ | destruct Hv | destruct Hv | ]; cbn [con_ok] in H; destruct (field (e_fmt e) n) as [[lo' k']|];
      [ | destruct Hv | | destruct Hv ]; destruct Hv as [Hv|[]]; injection Hv as -> -> ->; unfold DecodeTypes.xbits in *; lia.
  - intros [H1 H2] c Hc. specialize (K c Hc). destruct c as [n u|n u]; cbn [con_known con_ok] in *;
      destruct (field (e_fmt e) n) as [[lo k]|] eqn:E; try discriminate.
    + rewrite (H1 lo k u); [apply Z.eqb_refl|]. apply in_flat_map. exists (DecodeTypes.Ceq n u). rewrite E. split; [exact Hc|now left].
    + apply negb_true_iff, Z.eqb_neq. apply H2. apply in_flat_map. exists (DecodeTypes.Cne n u). rewrite E. split; [exact Hc|now left].
Qed.
Lemma sig1 e w : matches w e = true -> meets w (sig_of e).
Proof. apply sig_sound. Qed.

(** ** Operands *)
Lemma imm_b w : imm1 "B_imm12" w = src2 "B_imm12" w. Proof. reflexivity. Qed.
Lemma imm_j w : imm1 "J_imm20" w = src2 "J_imm20" w. Proof. reflexivity. Qed.
Lemma imm_s w : imm1 "S_imm12" w = src2 "S_imm12" w. Proof. reflexivity. Qed.
Lemma imm_u w : imm1 "U_imm20" w = src2 "U_imm20" w. Proof. reflexivity. Qed.
Lemma imm_plain w :
  imm1 "I_imm12" w = PImm (wrap I32 (sext 12 (at_ w 20 12))) /\ imm1 "J_imm12" w = PImm (wrap I32 (sext 12 (at_ w 20 12))) /\
  imm1 "CSR_uimm5" w = PImm (wrap U32 (at_ w 15 5 * 2 ^ 0 + 0)) /\ imm1 "csr" w = PImm (wrap U32 (at_ w 20 12 * 2 ^ 0 + 0)) /\
  imm1 "I_uimm5" w = PImm (wrap U32 (at_ w 20 5 * 2 ^ 0 + 0)) /\ imm1 "r_uimm5" w = PImm (wrap U32 (at_ w 20 5 * 2 ^ 0 + 0)).
Proof. repeat split. Qed.
Definition itab : list (string * kind) := [
  ("B_imm12", Bimm); ("CSR_uimm5", Ufld 15 5); ("csr", Ufld 20 12); ("I_imm12", Iimm); ("I_uimm5", Ufld 20 5);
  ("r_uimm5", Ufld 20 5); ("J_imm12", Iimm); ("J_imm20", Jimm); ("S_imm12", Simm); ("U_imm20", Uimm) ].
Lemma itab_sound w n k : In (n, k) itab -> operand_is k w (imm1 n w).
Proof.
  destruct (imm_plain w) as (I1 & I2 & I3 & I4 & I5 & I6). rewrite plain in *.
  assert (Y : forall lo n, 0 <= n <= 12 -> wrap U32 (at_ w lo n) = at_ w lo n).
  { intros lo m Hm. pose proof (at_range w lo m ltac:(lia)) as R. assert (2 ^ m <= 2 ^ 12) by (apply Z.pow_le_mono_r; lia).
    apply wrap_u; lia. }
  assert (V : forall lo n v, 0 <= n -> v = at_ w lo n -> operand_is (Ufld lo n) w (PImm v)) by (intros; now apply ufld_is).
  unfold itab. cbn [In]. intros H.
  destruct H as [H|H]; [injection H as <- <-; rewrite imm_b; apply b_is|].
  destruct H as [H|H]; [injection H as <- <-; rewrite I3; apply V; [lia|apply Y; lia]|].
  destruct H as [H|H]; [injection H as <- <-; rewrite I4; apply V; [lia|apply Y; lia]|].
  destruct H as [H|H]; [injection H as <- <-; rewrite I1; apply i_is|].
  destruct H as [H|H]; [injection H as <- <-; rewrite I5; apply V; [lia|apply Y; lia]|].
  destruct H as [H|H]; [injection H as <- <-; rewrite I6; apply V; [lia|apply Y; lia]|].
  destruct H as [H|H]; [injection H as <- <-; rewrite I2; apply i_is|].
  destruct H as [H|H]; [injection H as <- <-; rewrite imm_j; apply j_is|].
  destruct H as [H|H]; [injection H as <- <-; rewrite imm_s; apply s_is|].
  destruct H as [H|H]; [injection H as <- <-; rewrite imm_u; apply u_is|]. destruct H.
Qed.
Definition kind1 (s : srcop) (k : kind) : bool :=
  match s with
  | SRs1 => dec (kind_eq_dec k (KX 15))
  | SRs2 => dec (kind_eq_dec k (KX 20))
  | SImm n => existsb (fun t => String.eqb n (fst t) && dec (kind_eq_dec k (snd t))) itab
  | _ => false
  end.
Definition dkind1 (d : dstop) (k : dkind) : bool :=
  match d with
  | DRd => dec (dkind_eq_dec k (DKX 7))
  | DecodeTypes.DCsr => dec (dkind_eq_dec k DKCsr)
  | DecodeTypes.DNextPc => dec (dkind_eq_dec k DKPc)
  | _ => false
  end.
Lemma dec_true {P} (x : {P} + {~ P}) : dec x = true -> P.
Proof. unfold dec. now destruct x. Qed.
Lemma kind1_sound e w s k : kind1 s k = true -> operand_is k w (src1 e w s).
Proof.
  destruct s; cbn [kind1]; intros H; try discriminate.
  - apply dec_true in H as ->. cbn [src1 src_op]. change (ext FR "rs1" w) with (at_ w 15 5).
    cbn [operand_is]. destruct (at_ w 15 5 =? 0); reflexivity.
  - apply dec_true in H as ->. cbn [src1 src_op]. change (ext FR "rs2" w) with (at_ w 20 5).
    cbn [operand_is]. destruct (at_ w 20 5 =? 0); reflexivity.
  - apply existsb_exists in H as ([n' k'] & Hin & H). cbn [fst snd] in H. apply andb_true_iff in H as [H1 H2].
    apply String.eqb_eq in H1 as <-. apply dec_true in H2 as ->. now apply itab_sound.
Qed.
Lemma dkind1_sound e w d k : dkind1 d k = true -> dest_is k w (dst1 e w d).
Proof.
  destruct d; cbn [dkind1]; intros H; try discriminate; apply dec_true in H as ->; [|reflexivity|reflexivity].
  cbn [dst1 dst_op]. change (ext FR "rd" w) with (at_ w 7 5). cbn [dest_is]. destruct (at_ w 7 5 =? 0); reflexivity.
Qed.
Lemma kinds1 e w l m : all2b kind1 l m = true -> list_is operand_is w m (map (src1 e w) l).
Proof.
  revert m. induction l as [|n l IH]; intros [|k m]; try discriminate; cbn [all2b map]; [constructor|].
  intros H. apply andb_true_iff in H as [H1 H2]. constructor; [now apply kind1_sound|now apply IH].
Qed.
Lemma dkinds1 e w l m : all2b dkind1 l m = true -> list_is dest_is w m (map (dst1 e w) l).
Proof.
  revert m. induction l as [|n l IH]; intros [|k m]; try discriminate; cbn [all2b map]; [constructor|].
  intros H. apply andb_true_iff in H as [H1 H2]. constructor; [now apply dkind1_sound|now apply IH].
Qed.

(** ** Rows against the manual *)
Definition sem1 (e : entry) : list fn2 := match DecodeTypes.find (e_name e) v1_sems with Some l => l | None => [] end.
Definition same1 (m : ment) (e : entry) : bool :=
  dec (list_eq_dec fn2_eq_dec (sem1 e) (m_sem m)) && all2b kind1 (e_src e) (m_src m) && all2b dkind1 (e_dst e) (m_dst m) &&
  match m_child m, e_child e with
  | None, [] => true
  | Some (s, t), (_ :: _) as l => match s with [] => all2b dkind1 l t | _ => false end
  | _, _ => false
  end.
Definition nop1 (m : ment) (e : entry) : bool :=
  dec (list_eq_dec fn2_eq_dec (sem1 e) [Fn "RiscVINop" []]) && match e_child e with [] => true | _ => false end &&
  existsb (fun c => implies (join (psig (m_pat m)) (sig_of e)) (c, [])) (m_nop m).
Lemma same1_sound w m e : same1 m e = true -> does m w (act1 e w).
Proof.
  unfold same1. rewrite !andb_true_iff. intros (((H1 & H2) & H3) & H4). left. unfold act1. cbn [a_sem a_src a_dst a_child].
  split; [exact (dec_true _ H1)|]. split; [now apply kinds1|]. split; [now apply dkinds1|].
  destruct (m_child m) as [[s t]|], (e_child e) as [|x l]; try discriminate; [|exact I].
  destruct s; [|discriminate]. split; [constructor|]. now apply dkinds1.
Qed.
Lemma nop1_sound w m e : nop1 m e = true -> meets w (psig (m_pat m)) -> meets w (sig_of e) -> does m w (act1 e w).
Proof.
  unfold nop1. rewrite !andb_true_iff. intros ((H1 & H2) & H3) P R. right. unfold act1. cbn [a_sem a_child].
  split; [exact (dec_true _ H1)|]. split. { now destruct (e_child e). }
  apply existsb_exists in H3 as (c & Hc & H). exists c. split; [exact Hc|].
  exact (proj1 (implies_sound w _ _ H (join_sound _ _ _ P R))).
Qed.
Definition agree1 (m : ment) (ps : sig) (e : entry) : bool :=
  if clash ps (sig_of e) then true else if same1 m e then true else nop1 m e.
Lemma manual1_good : forallb (fun m => good_pat (m_pat m)) (manual1 ++ zbb) = true.
Proof. vm_compute. reflexivity. Qed.
Lemma holes1_good : forallb good_pat holes1 = true.
Proof. vm_compute. reflexivity. Qed.
Lemma agree1_all : forallb (fun m => let ps := psig (m_pat m) in forallb (agree1 m ps) tab_GInst) manual1 = true.
Proof. vm_cast_no_check (eq_refl true). Qed.
Definition tgts1 : list tgt := map (fun e => (sig_of e, atoms1 e)) tab_GInst.
Definition splits1 : list (Z * Z * Z) := [(7, 5, 0); (15, 5, 0); (15, 5, 1); (20, 12, 0); (20, 5, 0); (20, 12, 0x480)].
Definition stray_pat : pat := P [(0, 7, 19); (12, 3, 0); (7, 5, 0); (15, 5, 0); (20, 12, 0x480)] [].
Lemma cover1 : (let ts := tgts1 ++ map pt (stray_pat :: holes1) in forallb (fun m => covers splits1 (psig (m_pat m)) ts) manual1) = true.
Proof. vm_cast_no_check (eq_refl true). Qed.
Lemma none1_clash : (let rs := map sig_of all_entries in forallb (fun p => let ps := psig p in forallb (clash ps) rs) (holes1 ++ map m_pat zbb)) = true.
Proof. vm_cast_no_check (eq_refl true). Qed.

Lemma base_grp e : In e tab_GInst -> In e all_entries /\ e_grp e = GInst.
Proof.
  intros H. split; [now apply (in_all GInst)|]. pose proof table_grp as T.
  pose proof (good_of _ _ GInst T ltac:(cbn; auto)) as G. cbv beta in G. pose proof (good_of _ _ _ G H) as E. now apply grp_eqb_eq.
Qed.
Lemma none1 w p e : In p (holes1 ++ map m_pat zbb) -> meets_pat w p -> In e all_entries -> matches w e = false.
Proof.
  intros Hp Hw He. destruct (matches w e) eqn:M; [exfalso|reflexivity].
  pose proof (good_of _ _ _ none1_clash Hp) as C. cbv zeta in C. pose proof (good_of _ _ _ C (in_map sig_of _ _ He)) as D.
  apply (clash_sound w _ _ D); [|now apply sig1]. apply psig_sound; [|exact Hw].
  apply in_app_iff in Hp as [Hp|Hp]; [exact (good_of _ _ _ holes1_good Hp)|].
  apply in_map_iff in Hp as (m & <- & Hm). apply (good_of _ _ _ manual1_good). apply in_app_iff. now right.
Qed.
Lemma unparsed d w : decoder_ok d -> (forall e, In e all_entries -> matches w e = false) -> parse d w = None.
Proof.
  intros Hd H. destruct (parse d w) as [e|] eqn:E; [|reflexivity].
  destruct (parse_sound d w e Hd E) as [Hin Hm]. rewrite (H e Hin) in Hm. discriminate.
Qed.
Theorem rejects d w p : decoder_ok d -> In p (holes1 ++ map m_pat zbb) -> meets_pat w p -> decode1 d w = None.
Proof.
  intros Hd Hp Hw. unfold decode1. rewrite unparsed; [reflexivity|exact Hd|]. intros e He. exact (none1 w p e Hp Hw He).
Qed.
Theorem manual_words d m w : decoder_ok d -> In m manual1 -> meets_pat w (m_pat m) ->
  V2DecSpec.word w -> w <> stray1 -> (forall p, In p holes1 -> ~ meets_pat w p) -> exists a, decode1 d w = Some a /\ does m w a.
Proof.
  intros Hd Hm Hw Hr Hs Hh.
  assert (P : meets w (psig (m_pat m))).
  { apply psig_sound; [|exact Hw]. apply (good_of _ _ _ manual1_good). apply in_app_iff. now left. }
  pose proof cover1 as C. cbv zeta in C. pose proof (good_of _ _ _ C Hm) as Cm. clear C.
  destruct (covers_sound w splits1 eq_refl _ _ Cm P) as (t & Ht & Hold).
  apply in_app_iff in Ht as [Ht|Ht].
  - apply in_map_iff in Ht as (e & <- & He). cbn [snd] in Hold. destruct (base_grp e He) as [Ha Hg].
    assert (M : matches w e = true) by now apply row_iff1.
    assert (D : parse d w = Some e).
    { apply decodes_early; [exact Hd|split; assumption|rewrite Hg; cbn; auto]. }
    exists (act1 e w). unfold decode1. rewrite D. split; [reflexivity|].
    pose proof (good_of _ _ _ agree1_all Hm) as A. cbv zeta in A. pose proof (good_of _ _ _ A He) as Ae. unfold agree1 in Ae.
    pose proof (sig1 e w M) as R.
    destruct (clash (psig (m_pat m)) (sig_of e)) eqn:X; [destruct (clash_sound w _ _ X P R)|].
    destruct (same1 m e) eqn:S; [now apply same1_sound|now apply nop1_sound].
  - apply in_map_iff in Ht as (p & <- & Hp). destruct Hp as [<-|Hp].
    + destruct Hs. clear - Hr Hold. destruct Hold as [H _]. cbn in H.
      pose proof (H 0 7 19 ltac:(auto 10)) as A. pose proof (H 12 3 0 ltac:(auto 10)) as B. pose proof (H 7 5 0 ltac:(auto 10)) as C.
      pose proof (H 15 5 0 ltac:(auto 10)) as D. pose proof (H 20 12 0x480 ltac:(auto 10)) as E. clear H.
      unfold V2DecSpec.word, stray1, DecodeTypes.xbits in *. change (2 ^ 32) with 4294967296 in *. lia.
    + destruct (Hh p Hp). exact Hold.
Qed.
