(** * The Renode interface always answers: proofs for C78 *)
From Coq Require Import ZArith List Bool Lia ZifyBool ZifyNat.
From Verif Require Import CInt KernSessSpec RenodeModel RenodeSpec.
From Verif Require RenodeProofs.
Import ListNotations.
Open Scope Z_scope.

Section Total.
  Context {Dbg File Blocks : Type}.
  Variable o : ops Dbg File Blocks.
  Variable max : Z.
  Hypothesis SC : step_contract o.
  (** Something every operation of the simulator keeps. *)
  Variable P : Dbg -> Prop.
  Record kept := Kept {
    p_create : forall c m, exists x, create o c m = Ok x /\ P x;
    p_step : forall n x, P x -> P (snd (d_step o n x)); p_halt : forall x, P x -> P (snd (d_halt o x));
    p_read : forall n x, P x -> P (snd (d_read o n x)); p_write : forall n v x, P x -> P (snd (d_write o n v x));
    p_rmem : forall a n x, P x -> P (snd (d_rmem o a n x)); p_wmem : forall a l x, P x -> P (snd (d_wmem o a l x));
    p_image : forall f a x, P x -> P (snd (d_image o f a x)); p_elf : forall f x, P x -> P (snd (d_elf o f x)) }.
  Hypothesis HK : kept.
  Definition lens (a : @agent Dbg) : Prop := (forall i, a_inst a i <> None -> a_len a i <> None) /\ (forall i m, a_len a i = Some m -> 0 <= m <= max) /\ forall i x, a_inst a i = Some x -> P x.
  Lemma lens_upd id d a x : lens a -> P d -> find id a = Some x -> lens (upd id d a).
  Proof.
    intros (H1 & H2 & H3) HP F. split; [|split; [exact H2|]]; [|intros i y; unfold upd; cbn [a_inst]; unfold put; destruct (_ =? _); [intros X; now injection X as <-|apply H3]]. intros i. unfold upd. cbn [a_inst a_len]. unfold put. destruct (i =? u32 id) eqn:E; [|apply H1].
    intros _. apply H1. assert (i = u32 id) by lia. subst i. unfold find in F. congruence.
  Qed.
  Lemma find_p id a x : lens a -> find id a = Some x -> P x.
  Proof. intros (_ & _ & H). exact (H _ _). Qed.
  Lemma load_p f x : P x -> P (snd (load_obj o f x)).
  Proof.
    intros H. unfold load_obj. pose proof (p_elf HK f x H) as Q. destruct (d_elf o f x) as [[e|] x1]; [|exact Q]. cbn [snd] in Q.
    pose proof (p_write HK [112; 99] e x1 Q) as Q2. destruct (d_write o [112; 99] e x1) as [[|] x2]; exact Q2.
  Qed.
  Lemma halt_p x : P x -> P (snd (halt_obj o x)).
  Proof. intros H. unfold halt_obj. pose proof (p_halt HK x H) as Q. destruct (d_halt o x) as [[|] x1]; [|exact Q]. cbn [negb]. destruct (d_reason o x1) as [[]|]; exact Q. Qed.
  Lemma loop_p : forall fuel n total x tr t s x' tr', P x -> step_loop o fuel n total x tr = Some (t, s, x', tr') -> P x'.
  Proof.
    induction fuel as [|fuel IH]; intros n total x tr t s x' tr' H E; cbn [step_loop] in E; destruct (n >? 0); try discriminate; try (injection E as <- <- <- <-; exact H).
    set (sc := if n >? int_max then int_max else n) in *. pose proof (p_step HK sc x H) as Q. destruct (d_step o sc x) as [[e|] x1]; cbn [snd] in Q; [|injection E as <- <- <- <-; exact Q].
    destruct (d_reason o x1) as [[]|]; try (injection E as <- <- <- <-; exact Q); (destruct (e <? sc); [injection E as <- <- <- <-; exact Q|exact (IH _ _ _ _ _ _ _ _ Q E)]).
  Qed.
  Lemma step_p fuel n x t s x' tr : P x -> step_obj o fuel n x = Some (t, s, x', tr) -> P x'.
  Proof.
    intros H E. unfold step_obj in E. destruct (n =? 0); [injection E as <- <- <- <-; exact H|].
    destruct (d_reason o x) as [[]|]; try (injection E as <- <- <- <-; exact H); exact (loop_p _ _ _ _ _ _ _ _ _ H E).
  Qed.
  Lemma call_total fuel k a : (2 ^ 33 + 4) < Z.of_nat fuel -> proper_call max k -> lens a ->
    exists a' r, do_call o fuel k a = Some (Ok (a', r)) /\ lens a'.
  Proof.
    intros Hf Hk L. destruct k; cbn [do_call proper_call] in *.
    - unfold construct. destruct (p_create HK (a_count a) mem) as (x & -> & Px). cbn [bind]. eexists. eexists. split; [reflexivity|].
      destruct L as (L1 & L2 & L3). split; [|split]; cbn [a_inst a_len]; unfold emplace.
      + intros i Hi. assert (i = a_count a \/ (i <> a_count a /\ a_inst a i <> None)) as [->|[N Hi']].
        { destruct (Z.eq_dec i (a_count a)); [now left|right; split; [assumption|]]. destruct (a_inst a (a_count a)); [exact Hi|].
          unfold put in Hi. replace (i =? a_count a) with false in Hi by lia. exact Hi. }
        * destruct (a_len a (a_count a)) eqn:E; [congruence|]. unfold put. rewrite Z.eqb_refl. discriminate.
        * specialize (L1 i Hi'). destruct (a_len a (a_count a)); [exact L1|]. unfold put. replace (i =? a_count a) with false by lia. exact L1.
      + intros i m. destruct (a_len a (a_count a)); [apply L2|]. unfold put. destruct (_ =? _); [|apply L2]. intros X. injection X as <-. exact Hk.
      + intros i y. destruct (a_inst a (a_count a)); [apply L3|]. unfold put. destruct (_ =? _); [|apply L3]. intros X. injection X as <-. exact Px.
    - destruct (find id a) as [x|] eqn:F; [|eauto]. eexists. eexists. split; [reflexivity|].
      destruct L as (L1 & L2 & L3). split; [|split; [exact L2|]]; intros i; cbn [a_inst a_len]; unfold put; (destruct (_ =? _); [congruence|apply L1 || apply L3]).
    - destruct (find id a); eauto.
    - destruct (find id a); eauto.
    - destruct info; cbn [negb]; [|eauto]. destruct (find id a) as [x|] eqn:F; [|eauto].
      destruct L as (L1 & L2 & L3). unfold find in F. assert (X : a_len a (u32 id) <> None) by (apply L1; congruence).
      destruct (a_len a (u32 id)) as [m|] eqn:E; [|congruence]. specialize (L2 _ _ E) as B.
      destruct Hk as [Hk|[K1 K2]]; [discriminate|].
      assert (Y : exists v, register_info (enum o) (reg_name o) index m cap = Ok v).
      { destruct (Z_lt_dec index 0); [rewrite RenodeProofs.register_info_range by lia; eauto|].
        destruct (Z_le_dec 33 index); [rewrite RenodeProofs.register_info_range by lia; eauto|].
        rewrite RenodeProofs.register_info_ok by lia. cbv zeta. destruct (reg_name o _).
        - replace ((m <? 0) || (cap <? m)) with false by lia. eauto.
        - replace (cap <? 1) with false by lia. eauto. }
      destruct Y as [v ->]. cbn [bind]. eexists. eexists. split; [reflexivity|]. repeat split; assumption || apply (L2 _ _ ltac:(eassumption)).
    - subst st. destruct (find id a) as [x|] eqn:F; [|eauto]. pose proof (load_p f x (find_p _ _ _ L F)) as Q. destruct (load_obj o f x) as [[v s] x']. eexists. eexists. split; [reflexivity|].
      now apply (lens_upd _ _ _ x).
    - destruct (find id a) as [x|] eqn:F; [|eauto]. pose proof (p_image HK f a0 x (find_p _ _ _ L F)) as Q. destruct (d_image o f _ x) as [v x']. eexists. eexists. split; [reflexivity|].
      now apply (lens_upd _ _ _ x).
    - destruct (negb val); [eauto|]. destruct (find id a) as [x|] eqn:F; [|eauto]. destruct (reg_name o _) as [nm|]; [|eauto].
      pose proof (p_read HK nm x (find_p _ _ _ L F)) as Q. destruct (d_read o nm x) as [v x']. eexists. eexists. split; [reflexivity|]. now apply (lens_upd _ _ _ x).
    - destruct (find id a) as [x|] eqn:F; [|eauto]. destruct (reg_name o _) as [nm|]; [|eauto].
      pose proof (p_write HK nm v x (find_p _ _ _ L F)) as Q. destruct (d_write o nm v x) as [w x']. eexists. eexists. split; [reflexivity|]. now apply (lens_upd _ _ _ x).
    - destruct (find id a) as [x|] eqn:F; [|eauto]. pose proof (p_rmem HK a0 n x (find_p _ _ _ L F)) as Q. destruct (d_rmem o _ _ x) as [w x']. eexists. eexists. split; [reflexivity|]. now apply (lens_upd _ _ _ x).
    - destruct (find id a) as [x|] eqn:F; [|eauto]. pose proof (p_wmem HK a0 bytes x (find_p _ _ _ L F)) as Q. destruct (d_wmem o _ _ x) as [w x']. eexists. eexists. split; [reflexivity|]. now apply (lens_upd _ _ _ x).
    - destruct (find id a) as [x|] eqn:F; [|eauto].
      assert (S : exists y, step_obj o fuel n x = Some y).
      { unfold step_obj. destruct (n =? 0); [eauto|]. destruct (d_reason o x) as [rd|]; [|eauto].
        destruct (RenodeProofs.step_loop_fuel o SC fuel n 0 x [] Hk) as [y Hy].
        { apply Z.le_lt_trans with (2 ^ 33 + 4); [|exact Hf]. apply Z.le_trans with ((2 ^ 64 - 1) / int_max); [apply Z.div_le_mono; [reflexivity|lia]|]. vm_compute. discriminate. }
        destruct rd; eauto. }
      destruct S as [[[[t s] x'] tr] ES]. pose proof (step_p fuel n x _ _ _ _ (find_p _ _ _ L F) ES) as Q. rewrite ES. eexists. eexists. split; [reflexivity|]. now apply (lens_upd _ _ _ x).
    - destruct (find id a) as [x|] eqn:F; [|eauto]. pose proof (halt_p x (find_p _ _ _ L F)) as Q. destruct (halt_obj o x) as [[v s] x']. eexists. eexists. split; [reflexivity|]. now apply (lens_upd _ _ _ x).
  Qed.
  Lemma run_total fuel : (2 ^ 33 + 4) < Z.of_nat fuel -> forall ks a, Forall (proper_call max) ks -> lens a ->
    exists a' rs, run o fuel ks a = Some (Ok (a', rs)) /\ lens a'.
  Proof.
    intros Hf. induction ks as [|k ks IH]; intros a H L; cbn [run]; [eauto|].
    destruct (call_total fuel k a Hf (Forall_inv H) L) as (a1 & r & -> & L1). destruct (IH a1 (Forall_inv_tail H) L1) as (a2 & rs & -> & L2). eauto.
  Qed.
  Lemma total fuel ks : (2 ^ 33 + 4) < Z.of_nat fuel -> Forall (proper_call max) ks ->
    exists a rs, run o fuel ks agent0 = Some (Ok (a, rs)) /\ forall i x, a_inst a i = Some x -> P x.
  Proof.
    intros Hf H. destruct (run_total fuel Hf ks agent0 H) as (a & rs & E & _ & _ & Q); [|eauto].
    split; [intros i; cbn; congruence|]. split; [intros i m; cbn; discriminate|intros i x; cbn; discriminate].
  Qed.
End Total.

(** ** The simulator without breakpoints *)
From Coq Require Import String.
From Verif Require Import TopModel RenodeTopModel.
From Verif Require RenodeTopProofs.
Section Idle.
  Context {C : Type}.
  Variable exec : Z -> Z -> arch (C := C) -> (Z -> Z) -> effect (C := C).
  Variable evicted : Z -> Z -> bool.
  Variable reg_id : string -> option Z.
  Variable reg_size : Z -> Z.
  Variable csr_id : string -> option Z.
  Variable csr_get : Z -> C -> Z.
  Variable csr_set : Z -> Z -> C -> C.
  Hypothesis HX : forall w a s m r, f_halt (exec w a s m) = Some r -> r <> RSwBreakpoint /\ r <> RActionPoint.
  Definition idle (s : top (C := C)) : Prop := t_need s = false /\ t_bps s = [].
  Lemma idle_fetch a s : idle s -> idle (snd (fetch evicted a s)) /\ t_halted (snd (fetch evicted a s)) = t_halted s.
  Proof. intros H. unfold fetch. destruct (if evicted _ _ then _ else _); (split; [exact H|reflexivity]). Qed.
  Lemma idle_request r s : r <> RSwBreakpoint -> r <> RActionPoint -> idle s -> idle (request_halt r s) /\ t_reason (request_halt r s) = r.
  Proof. intros N1 N2 H. unfold request_halt. replace (reason_eqb r RSwBreakpoint || reason_eqb r RActionPoint) with false by (destruct r; try congruence; reflexivity). split; [exact H|reflexivity]. Qed.
  Lemma idle_execute w a s : idle s -> t_halted s = false -> let s' := execute exec w a s in
    idle s' /\ (t_halted s' = true -> t_reason s' <> RActionPoint).
  Proof.
    intros H Hh. unfold execute. destruct (w =? ebreak).
    - unfold has_bp. cbn [set_pc set_pcv t_bps]. destruct H as [H1 H2]. rewrite H2. cbn [existsb].
      destruct (idle_request RAbort (set_pc (a + 4) s)) as [Q1 Q2]; [discriminate|discriminate|split; assumption|]. split; [exact Q1|]. intros _.
      change (t_reason (count1 ?x)) with (t_reason x). rewrite Q2. discriminate.
    - cbv zeta. set (f := exec w a _ _). set (s1 := set_pcv _ _). assert (I1 : idle s1) by exact H.
      destruct (f_halt f) as [r|] eqn:F.
      + destruct (HX _ _ _ _ _ F) as [N1 N2]. destruct (idle_request r s1 N1 N2 I1) as [Q1 Q2]. split; [exact Q1|]. intros _.
        change (t_reason (count1 ?x)) with (t_reason x). now rewrite Q2.
      + split; [exact I1|]. intros X. change (t_halted s = true) in X. congruence.
  Qed.
  Lemma idle_loop : forall fuel num count pc np s c' pc' np' s', idle s -> TopModel.step_loop exec evicted fuel num count pc np s = (c', pc', np', s') ->
    idle s' /\ (t_halted s = false -> count < num -> (0 < fuel)%nat -> pc' <> None) /\ (pc <> None -> pc' <> None).
  Proof.
    induction fuel as [|fuel IH]; intros num count pc np s c' pc' np' s' H E; cbn [TopModel.step_loop] in E.
    - assert (X : pc' = pc /\ s' = s) by (destruct (negb (t_halted s) && (count <? num)); injection E as <- <- <- <-; auto).
      destruct X as [-> ->]. split; [exact H|]. split; [intros _ _ X; inversion X|auto].
    - destruct (negb (t_halted s) && (count <? num)) eqn:Q.
      + apply andb_true_iff in Q as [Q1 Q2]. apply negb_true_iff in Q1.
        unfold iteration in E. destruct (idle_fetch np s H) as [I1 I2]. destruct (fetch evicted np s) as [w s1]. cbn [snd] in *. rewrite Q1 in I2.
        destruct (idle_execute w np s1 I1 I2) as [I3 I4]. set (s2 := execute exec w np s1) in *. clearbody s2.
        destruct (t_halted s2) eqn:Q3; cbn [negb] in E.
        * replace (reason_eqb (t_reason s2) RActionPoint) with false in E by (specialize (I4 eq_refl); destruct (t_reason s2); try congruence; reflexivity).
          injection E as <- <- <- <-. split; [exact I3|]. split; discriminate.
        * destruct (IH _ _ _ _ _ _ _ _ _ I3 E) as (J1 & _ & J3). split; [exact J1|]. split; intros; apply J3; discriminate.
      + injection E as <- <- <- <-. split; [exact H|]. split; [|auto]. intros A B _. apply andb_false_iff in Q as [Q|Q]; [rewrite A in Q; discriminate|lia].
  Qed.
  Lemma idle_step n s : idle s -> exists x s', TopModel.step exec evicted n s = Ok (x, s') /\ idle s'.
  Proof.
    intros H. unfold TopModel.step. destruct (n <=? 0) eqn:N; [eauto|]. destruct (negb _); [eauto|].
    set (s1 := set_halted false (set_status SingleStep s)). assert (I1 : idle s1) by exact H. rewrite (proj1 I1).
    destruct (TopModel.step_loop exec evicted (Z.to_nat n) n 0 None (t_pc s1) s1) as [[[c' pc'] np'] s'] eqn:E.
    destruct (idle_loop _ _ _ _ _ _ _ _ _ _ I1 E) as (J1 & J2 & _). specialize (J2 eq_refl ltac:(lia) ltac:(lia)).
    assert (F : forall p, idle (set_status Halted (if negb (t_halted (set_pc p s')) then set_reason RNone (set_pc p s') else set_pc p s'))).
    { intros p. destruct (negb _); exact J1. }
    cbv zeta. destruct (reason_eqb _ _); [destruct pc' as [p|]; [|congruence]|]; eexists; eexists; (split; [reflexivity|apply F]).
  Qed.
  Lemma idle_guarded s x : idle s -> idle (snd x) -> idle (snd (guarded s x)).
  Proof. intros H1 H2. unfold guarded. destruct (is_halted _); assumption. Qed.
  Lemma idle_wmem a l s : idle s -> idle (snd (write_memory a l s)).
  Proof. intros H. unfold write_memory. apply idle_guarded; [exact H|]. destruct (_ <? _); exact H. Qed.
  Lemma idle_chunks : forall fuel l a s, idle s -> idle (snd (load_chunks fuel l a s)).
  Proof.
    induction fuel as [|fuel IH]; intros l a s H; cbn [load_chunks]; [exact H|]. cbv zeta. destruct (_ =? 0); [exact H|].
    pose proof (idle_wmem a (firstn buffer_size l) s H) as Q. destruct (write_memory a (firstn buffer_size l) s) as [[] s1]; try exact Q.
    destruct (_ =? _); [|exact Q]. destruct (_ =? _); [|exact Q]. now apply IH.
  Qed.
  Definition sound (d : obj (C := C)) : Prop := exists s, d = Ok s /\ idle s.
  Lemma sound_on {X} (f : top (C := C) -> X * top (C := C)) none d : (forall s, idle s -> idle (snd (f s))) -> sound d -> sound (snd (on f none d)).
  Proof. intros Hf (s & -> & H). unfold on. specialize (Hf s H). destruct (f s) as [x s']. exists s'. now split. Qed.
  Lemma idle_via {X} (g : TopModel.ret -> X) f (s : top (C := C)) : idle (snd (f s)) -> idle (snd (via g f s)).
  Proof. unfold via. now destruct (f s). Qed.

  Variable boot : arch (C := C).
  Variable boot_pc : Z.
  Context {File Blocks : Type}.
  Variable create_shared : Z * Z * Blocks -> top (C := C).
  Hypothesis HS : forall b, idle (create_shared b).
  Variable files : File -> option (list Z).
  Variable elf : File -> (Z -> Z) -> option Z * (Z -> Z).
  Variable enums : dbgreg -> Z.
  Variable names : Z -> option string.
  Notation ops_ := (top_ops exec evicted reg_id reg_size csr_id csr_get csr_set boot boot_pc create_shared files elf enums names).
  Lemma sound_kept : kept ops_ sound.
  Proof.
    constructor; cbn [create d_step d_halt d_read d_write d_rmem d_wmem d_image d_elf top_ops].
    - intros c m. eexists. split; [reflexivity|]. unfold obj_new. eexists. split; [reflexivity|]. destruct m; [apply HS|split; reflexivity].
    - intros n d (s & -> & H). unfold obj_step. destruct (idle_step n s H) as (x & s' & -> & Q). exists s'. now split.
    - intros d. apply sound_on. intros s H. apply idle_via. unfold TopModel.halt. destruct (t_status s); exact H.
    - intros n d. apply sound_on. intros s H. apply idle_via. unfold read_register. apply idle_guarded; [exact H|]. destruct (reg_id _); [destruct (size_ok _)|destruct (csr_id _)]; exact H.
    - intros n v d. apply sound_on. intros s H. apply idle_via. unfold write_register. apply idle_guarded; [exact H|].
      destruct (reg_id _) as [i|]; [|destruct (csr_id _); exact H]. cbv zeta.
      assert (Q : idle (if (text n =? pc_name)%string && reason_eqb (t_reason s) RSwBreakpoint then set_reason RNone s else s)) by (destruct (_ && _); exact H).
      match type of Q with idle ?x => set (s1 := x) in * end. clearbody s1. destruct (size_ok _); [|exact Q]. destruct (String.eqb _ _); exact Q.
    - intros a n d. apply sound_on. intros s H. apply idle_via. unfold read_memory. apply idle_guarded; [exact H|]. destruct (_ <? _); exact H.
    - intros a l d. apply sound_on. intros s H. apply idle_via. now apply idle_wmem.
    - intros f a d. apply sound_on. intros s H. apply idle_via. unfold load_image. destruct (files f); [now apply idle_chunks|exact H].
    - intros f d. apply sound_on. intros s H. unfold obj_elf. destruct (elf f (t_mem s)). exact H.
  Qed.
  Lemma core_total max fuel ks : 2 ^ 33 + 4 < Z.of_nat fuel -> Forall (proper_call max) ks ->
    exists a rs, RenodeModel.run ops_ fuel ks agent0 = Some (Ok (a, rs)) /\ List.length rs = List.length ks /\ forall i x, a_inst a i = Some x -> exists s, x = Ok s.
  Proof.
    intros Hf H. destruct (total ops_ max (RenodeTopProofs.contract_ok exec evicted reg_id reg_size csr_id csr_get csr_set boot boot_pc create_shared files elf enums names) sound sound_kept fuel ks Hf H)
      as (a & rs & E & Q). exists a, rs. split; [exact E|]. split; [exact (RenodeProofs.run_length _ _ _ _ _ _ E)|].
    intros i x Hx. destruct (Q i x Hx) as (s & -> & _). eauto.
  Qed.
End Idle.
