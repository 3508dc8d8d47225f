(** * V1 scalar decoding: accepted words, stores, disassembly texts *)
From Verif Require Import CInt DecodeTypes DecodeModel DecodeSpec DecodeProofs LogModel LogSpec.
From Verif Require LogProofs DecodeProofs4.
From Verif Require Import V2DecTypes V2DecModel V2DecSpec V2DecProofs V2DecProofs2 V1ScalModel V1ScalSpec V1ScalProofs.
From Coq Require Import Lia ZifyBool ZifyNat.
Import ListNotations.
Open Scope string_scope.
Open Scope list_scope.
Open Scope Z_scope.
Ltac Zify.zify_post_hook ::= Z.div_mod_to_equations.

(** ** Accepted words *)
Lemma base_covered : (let ts := map (fun m => pt (m_pat m)) manual1 in forallb (fun e => covers [] (sig_of e) ts) tab_GInst) = true.
Proof. vm_cast_no_check (eq_refl true). Qed.
Definition outside1 (e : entry) : bool :=
  if looseb e then knows (sig_of e) (5, 1, 0) && knows (sig_of e) (20, 6, 0)
       && (knows (sig_of e) (26, 6, 16) || knows (sig_of e) (26, 6, 17) || knows (sig_of e) (26, 6, 18))
  else bars (sig_of e) (0, 2, 3) || knows (sig_of e) (0, 5, 31).
Lemma vector_outside : forallb outside1 (flat_map table [GArith; GConv; GMemory; GMul; GShift]) = true.
Proof. vm_compute. reflexivity. Qed.
Theorem accepted_words d w e : decoder_ok d -> parse d w = Some e ->
  (exists m, In m manual1 /\ meets_pat w (m_pat m)) \/ at_ w 0 2 <> 3 \/ at_ w 0 5 = 31 \/
  (loose e /\ at_ w 5 1 = 0 /\ at_ w 20 6 = 0 /\ 16 <= at_ w 26 6 <= 18).
Proof.
  intros Hd H. destruct (parse_sound d w e Hd H) as [Hin Hm]. pose proof (sig1 e w Hm) as S.
  unfold all_entries, order in Hin. cbn [flat_map] in Hin. apply in_app_iff in Hin as [Hin|Hin].
  - left. pose proof base_covered as C. cbv zeta in C. pose proof (good_of _ _ _ C Hin) as Ce.
    destruct (covers_sound w [] eq_refl _ _ Ce S) as (t & Ht & Hold). apply in_map_iff in Ht as (m & <- & Hmm).
    exists m. split; [exact Hmm|exact Hold].
  - right. pose proof (good_of _ _ _ vector_outside Hin) as O. unfold outside1 in O. destruct (looseb e) eqn:L.
    + right. right. rewrite !andb_true_iff, !orb_true_iff in O. destruct O as ((A & B) & C).
      split; [now apply looseb_iff|]. split; [exact (knows_sound w _ _ _ _ A S)|]. split; [exact (knows_sound w _ _ _ _ B S)|].
      destruct C as [[C|C]|C]; pose proof (knows_sound w _ _ _ _ C S) as K; unfold at_, DecodeTypes.xbits in *; lia.
    + apply orb_true_iff in O as [O|O]; [left; exact (bars_sound w _ _ _ _ O S)|right; left; exact (knows_sound w _ _ _ _ O S)].
Qed.
Lemma manual1_apart : pairwise clash (map (fun m => psig (m_pat m)) manual1) = true.
Proof. vm_compute. reflexivity. Qed.
Theorem one_entry w m1 m2 : In m1 manual1 -> In m2 manual1 -> meets_pat w (m_pat m1) -> meets_pat w (m_pat m2) -> m1 = m2.
Proof.
  intros I1 I2 H1 H2.
  assert (G : forall m, In m manual1 -> meets_pat w (m_pat m) -> meets w (psig (m_pat m))).
  { intros m Hm Hp. apply psig_sound; [|exact Hp]. apply (good_of _ _ _ manual1_good). apply in_app_iff. now left. }
  destruct (pairwise_sound _ _ m1 m2 (pairwise_map _ _ _ manual1_apart) I1 I2) as [E|[E|E]]; [exact E| |]; exfalso.
  - exact (clash_sound w _ _ E (G _ I1 H1) (G _ I2 H2)).
  - exact (clash_sound w _ _ E (G _ I2 H2) (G _ I1 H1)).
Qed.

(** ** Stores *)
Theorem store_words d w k T : decoder_ok d -> In (k, T) [(0, U8); (1, U16); (2, U32)] ->
  V2DecSpec.word w -> at_ w 0 7 = 35 -> at_ w 12 3 = k -> forall small x m,
  exists off, operand_is Simm w (PImm off) /\
    exec1 d small x w m = Some (exec_store T small (reg_at x w 15) off (reg_at x w 20) m).
Proof.
  intros Hd HT Hw Ho Hk small x m.
  assert (Hne : w <> stray1) by (intros ->; vm_compute in Ho; discriminate).
  assert (Hh : forall p, In p holes1 -> ~ meets_pat w p).
  { intros p [<-|[<-|[]]] [H _]; specialize (H 0 7 _ (or_introl eq_refl)); rewrite Ho in H; discriminate. }
  assert (G : forall name ty, In (st1 name k ty) manual1 -> store_ty (Fn ("coralnpu::CoralNPUIStore<" ++ ty ++ ">") []) = Some T ->
    exists off, operand_is Simm w (PImm off) /\
    exec1 d small x w m = Some (exec_store T small (reg_at x w 15) off (reg_at x w 20) m)).
  { intros name ty Hin Hty.
    destruct (manual_words d (st1 name k ty) w Hd Hin) as (a & Ha & Hdo); auto.
    { split; intros lo n v; cbn [m_pat st1 p_eq p_ne In]; [|tauto].
      intros [E|[E|[]]]; injection E as <- <- <-; assumption. }
    unfold exec1. rewrite Ha. destruct Hdo as [(S & O & _)|(_ & _ & c & [] & _)].
    cbn [m_sem m_src st1] in S, O. unfold list_is in O.
    inversion O as [|? b ? r1 Hb O1 E1 E2]; subst. inversion O1 as [|? o ? r2 Hoff O2 E1 E2']; subst.
    inversion O2 as [|? v ? r3 Hv O3 E1 E2']; subst. inversion O3; subst.
    pose proof Hoff as (off & -> & _). exists off. split; [exact Hoff|].
    unfold store_act. rewrite S, <- E2, Hty. cbn [operand_is] in Hb, Hv. rewrite Hb, Hv. f_equal. unfold reg_at.
    destruct (at_ w 15 5 =? 0), (at_ w 20 5 =? 0); reflexivity. }
  destruct HT as [E|[E|[E|[]]]]; injection E as <- <-.
  - apply (G "sb" "uint8_t"); [cbn; auto 60|reflexivity].
  - apply (G "sh" "uint16_t"); [cbn; auto 60|reflexivity].
  - apply (G "sw" "uint32_t"); [cbn; auto 60|reflexivity].
Qed.
