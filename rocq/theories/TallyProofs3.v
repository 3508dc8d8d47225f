(** * The names of the V1 opcode counters *)
From Coq Require Import ZArith List Bool String Lia ZifyBool ZifyNat.
From Coq Require FinFun.
From Verif Require Import CInt DecodeTypes DecodeTable DecodeModel V2DecTypes V2DecModel V1Aux V1ScalModel TopModel MachModel TallyModel.
From Verif Require DecodeProofs.
Import ListNotations.
Open Scope Z_scope.
Open Scope list_scope.

(** ** Distinct names *)
Fixpoint distinct (fuel : nat) (l : list string) : bool :=
  match fuel, l with
  | _, [] => true
  | O, _ => false
  | S f, x :: l =>
      forallb (fun y => negb (String.eqb x y)) l &&
      distinct f (filter (fun y => match String.compare x y with Lt => true | _ => false end) l) &&
      distinct f (filter (fun y => match String.compare x y with Lt => false | _ => true end) l)
  end.
Lemma NoDup_split {A} (f : A -> bool) l : NoDup (filter f l) -> NoDup (filter (fun x => negb (f x)) l) -> NoDup l.
Proof.
  induction l as [|x l IH]; cbn [filter]; [constructor|]. destruct (f x) eqn:E; cbn [negb]; intros H K.
  - inversion H as [|? ? H1 H2]; subst. constructor; [|auto]. intros I. apply H1. apply filter_In. auto.
  - inversion K as [|? ? H1 H2]; subst. constructor; [|auto]. intros I. apply H1. apply filter_In. rewrite E. auto.
Qed.
Lemma distinct_ok fuel : forall l, distinct fuel l = true -> NoDup l.
Proof.
  induction fuel as [|f IH]; intros [|x l]; cbn [distinct]; try discriminate; try constructor.
  - apply andb_true_iff in H as [H _]. apply andb_true_iff in H as [H _]. intros I. pose proof (proj1 (forallb_forall _ _) H x I) as K. cbv beta in K.
    rewrite String.eqb_refl in K. discriminate.
  - apply andb_true_iff in H as [H H3]. apply andb_true_iff in H as [_ H2]. apply (NoDup_split (fun y => match String.compare x y with Lt => true | _ => false end)); [auto|].
    erewrite filter_ext; [exact (IH _ H3)|]. intros y. cbv beta. now destruct (String.compare x y).
Qed.

(** ** Registration *)
Lemma add_counters_ok ns : forall l, NoDup (l ++ ns) -> add_counters ns l = Ok (l ++ ns).
Proof.
  induction ns as [|n ns IH]; intros l N; cbn [add_counters]; [now rewrite app_nil_r|]. unfold add_counter.
  destruct (existsb (String.eqb n) l) eqn:E.
  - apply existsb_exists in E as (y & I & E). apply String.eqb_eq in E. subst y. exfalso. apply NoDup_remove_2 in N. apply N. apply in_or_app. auto.
  - rewrite IH; rewrite <- app_assoc; [reflexivity|exact N].
Qed.
Lemma add_counters_dup ns : forall l, ~ NoDup (l ++ ns) -> NoDup l -> add_counters ns l = Crash.
Proof.
  induction ns as [|n ns IH]; intros l N K; cbn [add_counters]; [exfalso; apply N; now rewrite app_nil_r|]. unfold add_counter.
  destruct (existsb (String.eqb n) l) eqn:E; [reflexivity|]. apply IH.
  - rewrite <- app_assoc. exact N.
  - apply NoDup_rev in K. apply NoDup_rev in K. rewrite rev_involutive in K.
    assert (M : ~ In n l). { intros I. rewrite (proj2 (existsb_exists (String.eqb n) l)) in E; [discriminate|]. exists n. split; [exact I|apply String.eqb_refl]. }
    apply NoDup_rev in K. rewrite <- (rev_involutive (l ++ [n])). apply NoDup_rev. rewrite rev_app_distr. cbn [rev app]. constructor; [|exact K]. now rewrite <- in_rev.
Qed.
Lemma num_inj a b : ("num_" ++ a = "num_" ++ b)%string -> a = b.
Proof. intros E. now injection E. Qed.
Definition shown (names : list string) : list string := map (fun n => "num_" ++ n)%string names ++ ["num_instructions"%string].
Lemma shown_NoDup names : NoDup (shown names) <-> NoDup names /\ ~ In "instructions"%string names.
Proof.
  unfold shown. split.
  - intros N. pose proof (NoDup_remove_1 _ _ _ N) as N1. pose proof (NoDup_remove_2 _ _ _ N) as N2. rewrite app_nil_r in N1, N2. split.
    + eapply NoDup_map_inv; exact N1.
    + intros I. apply N2. apply (in_map (fun n => "num_" ++ n)%string) in I. exact I.
  - intros [N F]. rewrite <- (app_nil_r (_ ++ _)), <- app_assoc. cbn [app]. apply NoDup_Add with (a := "num_instructions"%string) (l := map (fun n => "num_" ++ n)%string names).
    { pose proof (Add_app "num_instructions"%string (map (fun n => "num_" ++ n)%string names) []) as A. rewrite app_nil_r in A. exact A. }
    split.
    + apply FinFun.Injective_map_NoDup; [|exact N]. intros x y. apply num_inj.
    + intros I. apply in_map_iff in I as (x & E & I). change "num_instructions"%string with ("num_" ++ "instructions")%string in E. apply num_inj in E. subst x. contradiction.
Qed.
Theorem counters_good names : NoDup names -> ~ In "instructions"%string names -> counters names = Ok (shown names).
Proof. intros N F. apply (add_counters_ok (shown names) []). apply shown_NoDup. auto. Qed.
Theorem counters_bad names : ~ (NoDup names /\ ~ In "instructions"%string names) -> counters names = Crash.
Proof. intros N. apply (add_counters_dup (shown names) []); [|constructor]. cbn [app]. intros K. apply N. now apply shown_NoDup. Qed.

(** ** The V1 opcodes *)
Lemma names_of_table : map e_name all_entries = map fst v1_disasm.
Proof. vm_compute. reflexivity. Qed.
Lemma table_distinct : distinct 1500 ("instructions"%string :: opcode_names []) = true.
Proof. vm_compute. reflexivity. Qed.
Lemma opcode_names_ok zn : NoDup zn -> (forall n, In n zn -> ~ In n ("instructions"%string :: opcode_names [])) ->
  NoDup (opcode_names zn) /\ ~ In "instructions"%string (opcode_names zn).
Proof.
  intros Z D. pose proof (distinct_ok _ _ table_distinct) as N.
  assert (E : opcode_names zn = opcode_names [] ++ zn).
  { unfold opcode_names. rewrite app_nil_r. cbn [app]. reflexivity. }
  remember (opcode_names []) as t eqn:Et. inversion N as [|? ? N1 N2]; subst x l. rewrite E. split.
  - clear - N2 Z D. induction t as [|x t IH]; [exact Z|]. apply NoDup_cons_iff in N2 as [M1 M2]. cbn [app]. constructor.
    + intros I. apply in_app_or in I as [I|I]; [contradiction|]. exact (D x I (or_intror (or_introl eq_refl))).
    + apply IH; [|exact M2]. intros n I [F|F]; [exact (D n I (or_introl F))|exact (D n I (or_intror (or_intror F)))].
  - intros I. apply in_app_or in I as [I|I]; [contradiction|]. exact (D _ I (or_introl eq_refl)).
Qed.
Lemma op1_in d zo zn w : decoder_ok d -> (forall w n, zo w = Some n -> In n zn) -> In (op1 d zo w) (opcode_names zn).
Proof.
  intros D Z. unfold op1, opcode_names. destruct (parse d w) as [e|] eqn:E.
  - right. right. apply in_or_app. left. rewrite <- names_of_table. apply in_map.
    destruct (DecodeProofs.parse_sound d w e D E) as [I _]. exact I.
  - destruct (zo w) as [n|] eqn:F; [|left; reflexivity]. right. right. apply in_or_app. right. exact (Z w n F).
Qed.
