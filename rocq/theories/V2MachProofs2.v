(** * Whole runs of the V2 machine stay within their ranges *)
From Coq Require Import ZArith List Bool String Lia ZifyBool ZifyNat.
From Verif Require Import CInt VecModel VecSpec MemModel V2DecTypes V2Table V2DecModel V2DecSpec V2Model V2Spec V2DecProofs V2DecProofs2.
From Verif Require Import TopModel MachModel V2MachModel V2MachSpec V2MachProofs.
From Verif Require V2Proofs VecProofs.
Import ListNotations.
Open Scope list_scope.
Open Scope Z_scope.

(** ** The bytes of an admitted access *)
Lemma valid_in ranges a n b : V2Spec.low ranges -> 0 <= a < 2 ^ 32 -> 0 < n <= 8 -> lsu_valid ranges a n = true -> a <= b < a + n ->
  in_ranges ranges b \/ 2 ^ 32 - 8 <= b.
Proof.
  intros Hl Ha Hn H Hb. apply V2Proofs.lsu_valid_iff in H. destruct H as (s & l & Hi & H1 & H2). destruct (Hl s l Hi) as (L1 & L2 & L3).
  destruct (Z.lt_ge_cases (a + n) (2 ^ 32)) as [L|L]; [left|right; lia].
  rewrite !Z.mod_small in H2 by lia. exists s, l. split; [exact Hi|lia].
Qed.
Lemma size_fits i : 0 < sizeof (ty_of i) <= check_size i.
Proof. destruct i; cbn; lia. Qed.
Lemma le_agree m m' a n : (forall b, a <= b < a + Z.of_nat n -> m b = m' b) -> le m a n = le m' a n.
Proof.
  revert a. induction n as [|n IH]; intros a H; [reflexivity|]. cbn [le]. rewrite (H a) by lia. rewrite (IH (a + 1)); [reflexivity|]. intros b Hb. apply H. lia.
Qed.

Section Runs.
  Context {C : Type}.
  Notation arch := (arch (C := C)).
  Variable d : decoder2.
  Variable trap : Z -> Z -> C -> C * Z.
  Variable other : act -> Z -> arch -> arch * Z.
  Variable vmem : act -> v2st C -> v2st C.
  Variable box : Z -> Z.
  Variable start len : Z.
  Variable ranges : list range.
  Notation step := (step2 d trap other vmem box start len ranges).
  Notation run := (run2 d trap other vmem box start len ranges).

  (** What a step may do to memory. *)
  Definition seen (b : Z) : Prop := in_ranges ranges b \/ 2 ^ 32 - 8 <= b.
  Lemma decoded_at (s : v2st C) : itcm_ok start len -> 0 <= v_pc s < 2 ^ 32 ->
    (inside start len (v_pc s) /\ v2_decode start len (v_pc s) = Decoded (v_pc s)) \/ (~ inside start len (v_pc s) /\ v2_decode start len (v_pc s) = Invalid (v_pc s)).
  Proof.
    intros (H1 & H2 & H3) Hp. rewrite V2Proofs.itcm_exact by lia. unfold inside.
    destruct ((start <=? v_pc s) && (v_pc s + 4 <=? start + len)) eqn:E; [left|right]; (split; [lia|reflexivity]).
  Qed.
  Lemma act_mem c s : is_vmem (a_sem c) = false -> v_mem (exec_act2 other vmem box c s) = v_mem s.
  Proof.
    intros H. unfold exec_act2. cbv zeta. rewrite H.
    assert (D : v_mem (let '(x', p) := other c (v_pc s) (v_arch s) in V2S x' (v_mem s) (MachModel.u32 p)) = v_mem s) by (now destruct (other c (v_pc s) (v_arch s))).
    destruct (act_kind c); try exact D; try reflexivity; destruct (a_src c) as [|? [|? [|? [|]]]]; try exact D; destruct (a_dst c) as [|? [|? [|]]]; first [exact D|reflexivity].
  Qed.
  Lemma act_pc c s : is_vmem (a_sem c) = false -> 0 <= v_pc (exec_act2 other vmem box c s) < 2 ^ 32.
  Proof.
    intros H. unfold exec_act2. cbv zeta. rewrite H.
    assert (R : forall z, 0 <= MachModel.u32 z < 2 ^ 32) by (intros z; apply Z.mod_pos_bound; lia).
    assert (D : 0 <= v_pc (let '(x', p) := other c (v_pc s) (v_arch s) in V2S x' (v_mem s) (MachModel.u32 p)) < 2 ^ 32) by (destruct (other c (v_pc s) (v_arch s)); apply R).
    assert (L : forall z, 0 <= Z.land (MachModel.u32 z) (2 ^ 32 - 2) < 2 ^ 32).
    { intros z. assert (E : Z.land (MachModel.u32 z) (2 ^ 32 - 2) = Z.land (MachModel.u32 z) (2 ^ 32 - 2) mod 2 ^ 32).
      { rewrite <- Z.land_ones by lia. rewrite <- Z.land_assoc. reflexivity. }
      rewrite E. apply Z.mod_pos_bound. lia. }
    destruct (act_kind c); try exact D; try apply R; destruct (a_src c) as [|? [|? [|? [|]]]]; try exact D; destruct (a_dst c) as [|? [|? [|]]]; try exact D;
      cbn [next2 v_pc]; try apply R; try apply L.
    match goal with |- context [if ?b then _ else _] => destruct b; apply R end.
  Qed.
  (** The same step on two memories. *)
  Definition agree (P : Z -> Prop) (s t : v2st C) : Prop := v_arch s = v_arch t /\ v_pc s = v_pc t /\ forall b, P b -> v_mem s b = v_mem t b.
  Lemma act_agree P c s t : is_vmem (a_sem c) = false -> agree P s t -> agree P (exec_act2 other vmem box c s) (exec_act2 other vmem box c t).
  Proof.
    intros H (A & B & G). split; [|split; [|intros b Hb; rewrite !act_mem by exact H; now apply G]].
    - unfold exec_act2. cbv zeta. rewrite H, A, B.
      destruct (act_kind c), (a_src c) as [|? [|? [|? [|]]]], (a_dst c) as [|? [|? [|]]]; try (destruct (other c (v_pc t) (v_arch t)); reflexivity); reflexivity.
    - unfold exec_act2. cbv zeta. rewrite H, A, B.
      destruct (act_kind c), (a_src c) as [|? [|? [|? [|]]]], (a_dst c) as [|? [|? [|]]]; try (destruct (other c (v_pc t) (v_arch t)); reflexivity); cbn [next2 v_pc]; rewrite ?B; reflexivity.
  Qed.
  Lemma trap_agree P code s t : agree P s t -> agree P (trap2 trap code (v_pc s) s) (trap2 trap code (v_pc t) t).
  Proof. intros (A & B & G). unfold trap2. rewrite A, B. destruct (trap code (v_pc t) (a_csr (v_arch t))). split; [reflexivity|]. split; [reflexivity|exact G]. Qed.

  Lemma perform_frame i r t a (s : v2st C) b : ~ (a <= b < a + sizeof (ty_of i)) -> v_mem (perform2 box i r t a s) b = v_mem s b.
  Proof.
    intros H. unfold perform2. destruct (is_st i).
    - destruct r as [|p [|]]; try reflexivity. cbn [next2 v_mem]. unfold mem_put. now replace ((a <=? b) && (b <? a + sizeof (ty_of i))) with false by lia.
    - destruct t as [|p [|]]; reflexivity.
  Qed.
  Lemma perform_pc i r t a (s : v2st C) : 0 <= v_pc s < 2 ^ 32 -> 0 <= v_pc (perform2 box i r t a s) < 2 ^ 32.
  Proof.
    intros H. unfold perform2. destruct (is_st i); [destruct r as [|p [|]]|destruct t as [|p [|]]]; try exact H; cbn [next2 v_pc]; apply Z.mod_pos_bound; lia.
  Qed.
  Lemma perform_agree (P : Z -> Prop) i r t a s u : (forall b, a <= b < a + sizeof (ty_of i) -> P b) -> agree P s u ->
    agree P (perform2 box i r t a s) (perform2 box i r t a u).
  Proof.
    intros HP (A & B & G). unfold perform2. rewrite A. destruct (is_st i).
    - destruct r as [|p [|]]; try (split; [exact A|split; assumption]). unfold next2. rewrite B. split; [reflexivity|]. split; [reflexivity|].
      intros b Hb. cbn [v_mem]. unfold mem_put. destruct ((a <=? b) && _); [reflexivity|now apply G].
    - destruct t as [|p [|]]; try (split; [exact A|split; assumption]). unfold next2. rewrite B.
      assert (E : mem_get (ty_of i) (v_mem s) a = mem_get (ty_of i) (v_mem u) a).
      { unfold mem_get. f_equal. apply le_agree. intros b Hb. apply G, HP. pose proof (size_fits i). lia. }
      rewrite E. split; [reflexivity|]. split; [reflexivity|exact G].
  Qed.

  Lemma step_frame (s : v2st C) b : decoder2_ok d -> itcm_ok start len -> V2Spec.low ranges -> 0 <= v_pc s < 2 ^ 32 ->
    (inside start len (v_pc s) -> plain (word_in (v_mem s) (v_pc s))) -> ~ seen b ->
    v_mem (step s) b = v_mem s b /\ 0 <= v_pc (step s) < 2 ^ 32.
  Proof.
    intros Hd Hi Hl Hp Hw Hb. unfold step2.
    assert (T : forall k, v_mem (trap2 trap k (v_pc s) s) b = v_mem s b /\ 0 <= v_pc (trap2 trap k (v_pc s) s) < 2 ^ 32).
    { intros k. unfold trap2. destruct (trap k (v_pc s) (a_csr (v_arch s))). split; [reflexivity|apply Z.mod_pos_bound; lia]. }
    destruct (decoded_at s Hi Hp) as [[Hin ->]|[Hin ->]]; [|apply T]. rewrite le_word. specialize (Hw Hin).
    unfold exec_mem2. destruct (decode2 d (word_in (v_mem s) (v_pc s))) as [c|] eqn:Ed; [|apply T].
    assert (V : is_vmem (a_sem c) = false). { destruct (is_vmem (a_sem c)) eqn:E; [|reflexivity]. now destruct (vmem_word d _ c Hd Ed E). }
    assert (E : v_mem (exec_act2 other vmem box c s) b = v_mem s b /\ 0 <= v_pc (exec_act2 other vmem box c s) < 2 ^ 32) by (split; [now rewrite act_mem|now apply act_pc]).
    destruct (mem_fn (a_sem c)) as [i|]; [|exact E]. destruct (a_src c) as [|p [|q r]]; try exact E.
    unfold v2_exec. cbv zeta. rewrite V2Proofs.addr_eq. match goal with |- context [lsu_valid ranges ?x ?n] => set (a := x); destruct (lsu_valid ranges a n) eqn:L end; [|apply T].
    split; [|now apply perform_pc]. apply perform_frame. intros Hc. apply Hb. pose proof (size_fits i). pose proof (V2Proofs.check_size_pos i).
    apply (valid_in ranges a (check_size i) b Hl); try assumption; lia.
  Qed.
  Lemma step_agree s t : decoder2_ok d -> itcm_ok start len -> V2Spec.low ranges -> 0 <= v_pc s < 2 ^ 32 ->
    (inside start len (v_pc s) -> plain (word_in (v_mem s) (v_pc s))) ->
    agree (fun b => seen b \/ start <= b < start + len) s t -> agree (fun b => seen b \/ start <= b < start + len) (step s) (step t).
  Proof.
    intros Hd Hi Hl Hp Hw G. pose proof G as (A & B & M). set (P := fun b => seen b \/ start <= b < start + len) in *. unfold step2. rewrite <- B.
    assert (Tr : forall k, agree P (trap2 trap k (v_pc s) s) (trap2 trap k (v_pc s) t)) by (intros k; rewrite B at 2; now apply trap_agree).
    destruct (decoded_at s Hi Hp) as [[Hin ->]|[Hin ->]]; [|apply Tr].
    assert (W : le (v_mem t) (v_pc s) 4 = le (v_mem s) (v_pc s) 4). { symmetry. apply le_agree. intros b Hb. apply M. right. unfold inside in Hin. lia. }
    rewrite W, le_word, <- A. specialize (Hw Hin). unfold exec_mem2. destruct (decode2 d (word_in (v_mem s) (v_pc s))) as [c|] eqn:Ed; [|apply Tr].
    assert (V : is_vmem (a_sem c) = false). { destruct (is_vmem (a_sem c)) eqn:E; [|reflexivity]. now destruct (vmem_word d _ c Hd Ed E). }
    assert (E : agree P (exec_act2 other vmem box c s) (exec_act2 other vmem box c t)) by now apply act_agree.
    destruct (mem_fn (a_sem c)) as [i|]; [|exact E]. destruct (a_src c) as [|p [|q r]]; try exact E.
    unfold v2_exec. cbv zeta. rewrite V2Proofs.addr_eq. match goal with |- context [lsu_valid ranges ?x ?n] => set (a := x); destruct (lsu_valid ranges a n) eqn:L end; [|apply Tr].
    apply perform_agree; [|exact G]. intros b Hb. left. pose proof (size_fits i). pose proof (V2Proofs.check_size_pos i).
    apply (valid_in ranges a (check_size i) b Hl); try assumption; lia.
  Qed.

  Theorem confined n : forall s b, decoder2_ok d -> itcm_ok start len -> V2Spec.low ranges -> 0 <= v_pc s < 2 ^ 32 ->
    (forall k, (k < n)%nat -> inside start len (v_pc (run k s)) -> plain (word_in (v_mem (run k s)) (v_pc (run k s)))) ->
    ~ in_ranges ranges b -> b < 2 ^ 32 - 8 -> v_mem (run n s) b = v_mem s b.
  Proof.
    induction n as [|n IH]; intros s b Hd Hi Hl Hp Hw Hb Ht; [reflexivity|]. cbn [run2].
    assert (Hs : ~ seen b) by (unfold seen; intros [H|H]; [now apply Hb|lia]).
    destruct (step_frame s b Hd Hi Hl Hp (Hw 0%nat ltac:(lia)) Hs) as [E1 E2].
    rewrite IH; try assumption. intros k Hk. exact (Hw (S k) ltac:(lia)).
  Qed.
  (** Programs outside the data ranges cannot change; only their own words matter. *)
  Theorem confined_program s : decoder2_ok d -> itcm_ok start len -> V2Spec.low ranges -> 0 <= v_pc s < 2 ^ 32 ->
    (forall b, start <= b < start + len -> ~ in_ranges ranges b /\ b < 2 ^ 32 - 8) ->
    (forall a, inside start len a -> plain (word_in (v_mem s) a)) ->
    forall n b, ~ in_ranges ranges b -> b < 2 ^ 32 - 8 -> v_mem (run n s) b = v_mem s b.
  Proof.
    intros Hd Hi Hl Hp Hx Hw n. revert s Hp Hw. induction n as [|n IH]; intros s Hp Hw b Hb Ht; [reflexivity|]. cbn [run2].
    assert (Hs : forall b, ~ in_ranges ranges b -> b < 2 ^ 32 - 8 -> v_mem (step s) b = v_mem s b /\ 0 <= v_pc (step s) < 2 ^ 32).
    { intros c Hc Hc'. apply step_frame; try assumption; [intros Q; now apply Hw|]. unfold seen. intros [H|H]; [now apply Hc|lia]. }
    rewrite IH; try assumption; [now apply Hs|now apply (Hs b)|]. intros a Ha.
    assert (E : word_in (v_mem (step s)) a = word_in (v_mem s) a).
    { unfold inside in Ha. unfold word_in.
      rewrite (proj1 (Hs a ltac:(apply Hx; lia) ltac:(apply Hx; lia))), (proj1 (Hs (a + 1) ltac:(apply Hx; lia) ltac:(apply Hx; lia))),
        (proj1 (Hs (a + 2) ltac:(apply Hx; lia) ltac:(apply Hx; lia))), (proj1 (Hs (a + 3) ltac:(apply Hx; lia) ltac:(apply Hx; lia))). reflexivity. }
    rewrite E. now apply Hw.
  Qed.
  Theorem isolated n : forall s t, decoder2_ok d -> itcm_ok start len -> V2Spec.low ranges -> 0 <= v_pc s < 2 ^ 32 ->
    (forall k, (k < n)%nat -> inside start len (v_pc (run k s)) -> plain (word_in (v_mem (run k s)) (v_pc (run k s)))) ->
    v_arch s = v_arch t -> v_pc s = v_pc t ->
    (forall b, in_ranges ranges b \/ 2 ^ 32 - 8 <= b \/ start <= b < start + len -> v_mem s b = v_mem t b) ->
    v_arch (run n s) = v_arch (run n t) /\ v_pc (run n s) = v_pc (run n t) /\
    forall b, in_ranges ranges b \/ 2 ^ 32 - 8 <= b \/ start <= b < start + len -> v_mem (run n s) b = v_mem (run n t) b.
  Proof.
    intros s t Hd Hi Hl Hp Hw A B M.
    assert (G : agree (fun b => seen b \/ start <= b < start + len) (run n s) (run n t)).
    { assert (G : agree (fun b => seen b \/ start <= b < start + len) s t).
      { split; [exact A|split; [exact B|]]. unfold seen. intros b Hb. apply M. tauto. }
      clear A B M. revert s t Hp Hw G. induction n as [|n IH]; intros s t Hp Hw G; [exact G|]. cbn [run2].
      apply IH; [|intros k Hk; exact (Hw (S k) ltac:(lia))|apply step_agree; try assumption; exact (Hw 0%nat ltac:(lia))].
      apply (step_frame s (-1)); try assumption; [exact (Hw 0%nat ltac:(lia))|]. unfold seen. intros [(x & l & Hx & Hr)|H]; [|lia]. destruct (Hl x l Hx). lia. }
    destruct G as (G1 & G2 & G3). split; [exact G1|]. split; [exact G2|]. intros b Hb. apply G3. unfold seen. tauto.
  Qed.
End Runs.
