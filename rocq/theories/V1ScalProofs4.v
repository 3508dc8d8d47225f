(** * V1 disassembly texts: branch and jump targets *)
From Verif Require Import CInt DecodeTypes DecodeModel DecodeSpec DecodeProofs.
From Verif Require Import V2DecTypes V2DecModel V2DecSpec V2DecProofs V1ScalModel V1ScalSpec V1ScalProofs.
From Coq Require Import Lia ZifyBool ZifyNat.
Import ListNotations.
Open Scope string_scope.
Open Scope list_scope.
Open Scope Z_scope.
Ltac Zify.zify_post_hook ::= Z.div_mod_to_equations.

Definition shows_target (e : entry) (n : string) : bool :=
  existsb (fun t => match t with TOp true n' _ => String.eqb n' n | _ => false end) (toks e) &&
  match List.find (fun s => String.eqb n (src_name s)) (e_src e) with Some (SImm n') => String.eqb n' n | _ => false end.
Definition no_target (e : entry) : bool := forallb (fun t => match t with TOp true _ _ => false | _ => true end) (toks e).
Definition row_target (e : entry) : bool :=
  if knows (sig_of e) (0, 7, 99) then shows_target e "B_imm12"
  else if knows (sig_of e) (0, 7, 111) then shows_target e "J_imm20"
  else (bars (sig_of e) (0, 7, 99) || knows (sig_of e) (5, 1, 0)) && (bars (sig_of e) (0, 7, 111) || knows (sig_of e) (5, 1, 0)) && no_target e.
Lemma rows_target : forallb row_target all_entries = true.
Proof. vm_compute. reflexivity. Qed.

Lemma shows_target_ok e n w : shows_target e n = true ->
  exists f, In (HOp true f (what_src (imm1 n w))) (snd (line1 e w)).
Proof.
  unfold shows_target. rewrite andb_true_iff. intros [A B]. apply existsb_exists in A as (t & Ht & A).
  destruct t as [|[|] n' f]; try discriminate A. apply String.eqb_eq in A. subst n'.
  exists f. unfold line1. cbn [snd]. apply in_map_iff. exists (TOp true n f). split; [|exact Ht].
  cbn [show_tok]. unfold oper. destruct (List.find (fun s => String.eqb n (src_name s)) (e_src e)) as [[]|]; try discriminate B.
  apply String.eqb_eq in B. subst n0. reflexivity.
Qed.
Lemma no_target_ok e w f o : no_target e = true -> ~ In (HOp true f o) (snd (line1 e w)).
Proof.
  unfold no_target. intros H Hin. unfold line1 in Hin. cbn [snd] in Hin. apply in_map_iff in Hin as (t & E & Ht).
  pose proof (proj1 (forallb_forall _ _) H t Ht) as K. destruct t as [|[|] n' f']; try discriminate K; discriminate E.
Qed.
Theorem targets d w e : decoder_ok d -> parse d w = Some e ->
  (at_ w 0 7 = 99 -> exists f v, In (HOp true f (WNum v)) (snd (line1 e w)) /\ operand_is Bimm w (PImm v)) /\
  (at_ w 0 7 = 111 -> exists f v, In (HOp true f (WNum v)) (snd (line1 e w)) /\ operand_is Jimm w (PImm v)) /\
  (at_ w 0 7 <> 99 -> at_ w 0 7 <> 111 -> forall f o, ~ In (HOp true f o) (snd (line1 e w))).
Proof.
  intros Hd H. destruct (parse_sound d w e Hd H) as [Hin Hm]. pose proof (sig1 e w Hm) as S.
  pose proof (good_of _ _ _ rows_target Hin) as R. unfold row_target in R.
  destruct (knows (sig_of e) (0, 7, 99)) eqn:K1.
  { pose proof (knows_sound w _ _ _ _ K1 S) as E. change (at_ w 0 7 = 99) in E. rewrite E.
    split; [|split; [discriminate|intros N; now destruct N]]. intros _. destruct (shows_target_ok e _ w R) as (f & I).
    pose proof (b_is w) as B. rewrite <- imm_b in B. destruct B as (v & Ev & B). rewrite Ev in I. exists f, v. split; [exact I|].
    exists v. split; [reflexivity|exact B]. }
  destruct (knows (sig_of e) (0, 7, 111)) eqn:K2.
  { pose proof (knows_sound w _ _ _ _ K2 S) as E. change (at_ w 0 7 = 111) in E. rewrite E.
    split; [discriminate|split; [|intros _ N; now destruct N]]. intros _. destruct (shows_target_ok e _ w R) as (f & I).
    pose proof (j_is w) as B. rewrite <- imm_j in B. destruct B as (v & Ev & B). rewrite Ev in I. exists f, v. split; [exact I|].
    exists v. split; [reflexivity|exact B]. }
  rewrite !andb_true_iff, !orb_true_iff in R. destruct R as [[R1 R2] R3].
  assert (B5 : knows (sig_of e) (5, 1, 0) = true -> at_ w 0 7 <> 99 /\ at_ w 0 7 <> 111).
  { intros K. pose proof (knows_sound w _ _ _ _ K S) as E. unfold at_, DecodeTypes.xbits in *. clear - E.
    change (2 ^ 5) with 32 in E. change (2 ^ 1) with 2 in E. change (2 ^ 0) with 1. change (2 ^ 7) with 128. lia. }
  split; [|split].
  - intros E. exfalso. destruct R1 as [R1|R1]; [exact (bars_sound w _ _ _ _ R1 S E)|exact (proj1 (B5 R1) E)].
  - intros E. exfalso. destruct R2 as [R2|R2]; [exact (bars_sound w _ _ _ _ R2 S E)|exact (proj2 (B5 R2) E)].
  - intros _ _ f o. apply no_target_ok, R3.
Qed.
