(** * Histories of debugger calls *)
From Coq Require Import ZArith List Bool String Lia.
From Verif Require Import CInt TopModel TopSpec DbgSpec TopProofs TopProofs2.
From Coq Require Import ZifyBool ZifyNat.
Import ListNotations.
Open Scope Z_scope.
Ltac Zify.zify_post_hook ::= Z.div_mod_to_equations.

  Lemma clamp_in a n : 0 <= a <= max_address -> 0 <= n < 2 ^ 64 -> clamp_len a n = Z.min n (max_address - a + 1).
  Proof. intros Ha Hn. unfold clamp_len. rewrite !Z.mod_small; [reflexivity|unfold max_address in *; lia|exact Hn]. Qed.
  Lemma write_memory_at m a buf x : 0 <= a <= max_address -> Z.of_nat (length buf) < 2 ^ 64 ->
    store_bytes m a (firstn (Z.to_nat (clamp_len a (Z.of_nat (length buf)))) buf) x =
    if (a <=? x) && (x <? a + Z.of_nat (length buf)) && (x <=? max_address) then nth (Z.to_nat (x - a)) buf 0 else m x.
  Proof.
    intros Ha Hn. rewrite clamp_in by lia. unfold store_bytes. rewrite firstn_length.
    set (k := Z.to_nat (Z.min (Z.of_nat (length buf)) (max_address - a + 1))).
    assert (Kz : Z.of_nat k = Z.min (Z.of_nat (length buf)) (max_address - a + 1)) by (unfold k; lia).
    replace ((a <=? x) && (x <? a + Z.of_nat (Nat.min k (length buf)))) with
      ((a <=? x) && (x <? a + Z.of_nat (length buf)) && (x <=? max_address)) by lia.
    destruct (_ && _) eqn:E; [|reflexivity].
    rewrite <- (firstn_skipn k buf) at 2. rewrite app_nth1; [reflexivity|]. rewrite firstn_length. lia.
  Qed.

Section P.
  Context {C : Type}.
  Notation arch := (arch (C := C)).
  Notation top := (top (C := C)).
  Notation mach := (mach (C := C)).
  Variable exec : Z -> Z -> arch -> (Z -> Z) -> effect (C := C).
  Variable evicted : Z -> Z -> bool.
  Variable reg_id : string -> option Z.
  Variable reg_size : Z -> Z.
  Variable csr_id : string -> option Z.
  Variable csr_get : Z -> C -> Z.
  Variable csr_set : Z -> Z -> C -> C.
  Notation call_ := (do_call exec evicted reg_id reg_size csr_id csr_get csr_set).
  Notation history := (history exec evicted reg_id reg_size csr_id csr_get csr_set).
  Notation poke := (poke reg_id reg_size csr_id csr_set).
  Notation follows := (follows exec reg_id reg_size csr_id csr_set).
  Variable code : Z -> Prop.
  Variable m0 : mach.
  Hypothesis bytes0 : bytes_ok (m_mem m0).
  Notation clean := (clean exec code).
  Notation ref := (ref exec).
  Notation ref_halt := (ref_halt exec).
  Notation first_stop := (first_stop exec).
  Notation gets_to := (gets_to exec).
  Notation K := (K code m0).
  Notation allowed := (allowed code m0).

  Record Inv (m : mach) (s : top) : Prop := {
    i_K : K m s;
    i_status : t_status s = Halted;
    i_need : t_need s = true <-> t_reason s = RSwBreakpoint;
    i_at : t_need s = true -> In (t_pc s) (t_bps s) }.

  Lemma Inv_need m s : Inv m s -> t_reason s <> RSwBreakpoint -> t_need s = false.
  Proof. intros HI HR. destruct (t_need s) eqn:E; [|reflexivity]. apply (i_need _ _ HI) in E. contradiction. Qed.
  Lemma Inv_shows m s : Inv m s -> shows s m.
  Proof.
    intros [[HJ Hp _ _ _] _ _ _]. destruct HJ as [A [M1 M2] _ _ _ _]. split; [exact Hp|]. split; [exact A|]. split; [|exact M2].
    intros x Hx. apply M1. exact Hx.
  Qed.
  (** ** Step *)
  Definition step_result (num : Z) (m : mach) (n : nat) (bps : list Z) (v : Z) (r : reason) : Prop :=
    (v = num /\ Z.of_nat n = num /\ r = RNone /\ forall i, (i < n)%nat -> ~ In (m_pc (ref i m)) bps /\ ref_halt (ref i m) = None) \/
    (v = Z.of_nat n + 1 /\ v <= num /\ r = RSwBreakpoint /\ first_stop bps m 0 n r) \/
    (v = Z.of_nat n /\ v <= num /\ r <> RSwBreakpoint /\ first_stop bps m 0 n r).

  Lemma step_ok num m (s : top) r s' : Inv m s -> t_reason s <> RSwBreakpoint ->
    step exec evicted num s = Ok (r, s') ->
    (forall i, Z.of_nat i < t_insts s' - t_insts s -> Z.of_nat i < num -> gets_to (t_bps s) false m i -> clean (ref i m)) ->
    (num <= 0 /\ r = RErr EInvalidArgument /\ s' = s) \/
    exists n v, 0 < num /\ r = RVal v /\ Inv (ref n m) s' /\ t_bps s' = t_bps s /\
      step_result num m n (t_bps s) v (t_reason s') /\ t_insts s' = t_insts s + v.
  Proof.
    intros HI HR HS HC. pose proof (Inv_need _ _ HI HR) as Hn. unfold step in HS.
    destruct (Z.leb_spec num 0) as [|Hp]; [injection HS as <- <-; left; auto|]. right.
    rewrite (i_status _ _ HI) in HS. cbn [is_halted negb] in HS.
    set (s1 := set_halted false (set_status SingleStep s)) in *.
    change (t_need s1) with (t_need s) in HS. rewrite Hn in HS.
    assert (K1 : K m s1) by (apply (K_flags _ _ _ s); [apply (i_K _ _ HI)|reflexivity..]).
    rewrite (k_pc _ _ _ _ K1) in HS.
    destruct (step_loop _ _ _ _ _ _ _ _) as [[[c p] np] s2] eqn:E.
    assert (TI : t_insts s' = t_insts s2).
    { destruct (reason_eqb _ _); [destruct p; [|discriminate]|]; injection HS as <- <-; destruct (negb _); reflexivity. }
    destruct (step_loop_ok exec evicted code m0 (Z.to_nat num) num 0 m s1 None c p np s2 E K1 eq_refl Hn) as [j Hj]; [lia|lia| |].
    { intros i Hi Hc Q N'. apply HC; [rewrite TI; exact Hi|lia|]. split; [intros i' Hi'; right; now apply Q|right; exact N']. }
    change (t_bps s1) with (t_bps s) in *.
    destruct Hj as [(H & Ec & Le)|[(H & Ec & Le)|(H & Ec & Le)]].
    - destruct H as (Q & b1 & b2 & b3 & b4 & b5 & b6 & b7 & b8 & b9). rewrite b6 in HS. cbn [reason_eqb] in HS. subst p.
      change (t_bps s1) with (t_bps s) in *. change (t_insts s1) with (t_insts s) in *.
      cbn [set_pc set_pcv t_halted] in HS. rewrite b8 in HS. cbn [negb] in HS. injection HS as <- <-.
      exists j, c. split; [exact Hp|]. split; [reflexivity|].
      assert (RG : 0 <= m_pc (ref j m) < 2 ^ 32) by apply (k_range _ _ _ _ b3).
      split; [|split; [exact b4|split; [|cbn; lia]]].
      + constructor; cbn.
        * apply (K_flags _ _ _ (set_pcv (m_pc (ref j m)) s2)); try reflexivity; [exact b3|]. cbn. now rewrite Z.mod_small.
        * reflexivity.
        * rewrite b6, b7. tauto.
        * intros _. rewrite b4, Z.mod_small by exact RG. exact b1.
      + cbn [t_reason set_status set_pc set_pcv]. rewrite b6. right; left. split; [lia|]. split; [lia|]. split; [reflexivity|].
        split; [intros i Hi; apply Q; lia|]. split; [intros i Hi; apply Q; lia|]. left.
        split; [reflexivity|]. split; [exact b1|]. split; [lia|]. intros i Hi. now apply Q.
    - destruct H as (Q & b1 & b2 & b3 & b4 & b5 & b6 & b7 & b8 & b9 & b10).
      change (t_bps s1) with (t_bps s) in *. change (t_insts s1) with (t_insts s) in *.
      apply reason_eqb_neq in b9 as b9'. rewrite b9' in HS. cbn [set_pc set_pcv t_halted] in HS. rewrite b7 in HS. cbn [negb] in HS. injection HS as <- <-.
      exists (S j), c. split; [exact Hp|]. split; [reflexivity|].
      assert (RG : 0 <= m_pc (ref (S j) m) < 2 ^ 32) by apply (k_range _ _ _ _ b3).
      pose proof (k_pc _ _ _ _ b3) as EP. subst np.
      split; [|split; [exact b4|split; [|cbn; lia]]].
      + constructor; cbn [t_status t_need t_reason set_status set_pc set_pcv t_pc t_bps].
        * apply (K_flags _ _ _ s2); try reflexivity; [exact b3|]. cbn [t_pc set_status set_pc set_pcv]. rewrite EP. now rewrite Z.mod_small.
        * reflexivity.
        * rewrite b6. split; [discriminate|contradiction].
        * rewrite b6. discriminate.
      + cbn [t_reason set_status set_pc set_pcv]. right; right. split; [lia|]. split; [lia|]. split; [exact b9|].
        split; [intros i Hi; destruct (Nat.eq_dec i j) as [-> |]; [exact b1|apply Q; lia]|]. split; [intros i Hi; apply Q; lia|]. right.
        split; [lia|]. replace (S j - 1)%nat with j by lia. exact b8.
    - destruct H as (Q & b2 & b3 & b4 & b5 & b6 & b7 & b8 & b9).
      change (t_bps s1) with (t_bps s) in *. change (t_insts s1) with (t_insts s) in *. change (t_reason s1) with (t_reason s) in *.
      assert (b9' : reason_eqb (t_reason s2) RSwBreakpoint = false) by (apply reason_eqb_neq; congruence).
      rewrite b9' in HS. cbn [set_pc set_pcv t_halted] in HS. rewrite b7 in HS. cbn [negb] in HS. injection HS as <- <-.
      exists j, c. split; [exact Hp|]. split; [reflexivity|].
      assert (RG : 0 <= m_pc (ref j m) < 2 ^ 32) by apply (k_range _ _ _ _ b3).
      pose proof (k_pc _ _ _ _ b3) as EP. subst np.
      split; [|split; [exact b4|split; [|cbn; lia]]].
      + constructor; cbn [t_status t_need t_reason set_status set_pc set_pcv t_pc t_bps set_reason].
        * apply (K_flags _ _ _ s2); try reflexivity; [exact b3|]. cbn [t_pc set_status set_pc set_pcv set_reason]. rewrite EP. now rewrite Z.mod_small.
        * reflexivity.
        * rewrite b6. split; discriminate.
        * rewrite b6. discriminate.
      + left. split; [lia|]. split; [lia|]. split; [reflexivity|]. exact Q.
  Qed.

  (** ** Run *)
  Lemma run_ok fuel m (s : top) r s' : Inv m s ->
    run exec evicted fuel s = Some (Ok (r, s')) ->
    (forall i, Z.of_nat i < t_insts s' - t_insts s -> gets_to (t_bps s) (reason_eqb (t_reason s) RSwBreakpoint) m i -> clean (ref i m)) ->
    exists n, r = ROk /\ Inv (ref n m) s' /\ t_bps s' = t_bps s /\
      (t_reason s <> RSwBreakpoint -> first_stop (t_bps s) m 0 n (t_reason s')) /\
      (t_reason s = RSwBreakpoint -> (1 <= n)%nat /\
         first_stop (t_bps s) (ref 1 m) 0 (n - 1) (t_reason s')) /\
      t_insts s' = t_insts s + Z.of_nat n + extra (t_reason s').
  Proof.
    intros HI HS HC. assert (Need : t_need s = true <-> t_reason s = RSwBreakpoint) by apply (i_need _ _ HI). unfold run in HS. rewrite (i_status _ _ HI) in HS. cbn [is_running] in HS.
    set (s1 := if t_need s then step_past exec evicted (set_need false s) else s) in *.
    set (s2 := set_halted false (set_status Running s1)) in *.
    destruct (run_loop _ _ fuel None (t_pc s2) s2) as [[[p np] s3]|] eqn:E; [|discriminate].
    assert (TI : t_insts s' = t_insts s3).
    { destruct (reason_eqb _ _); [destruct p; [|discriminate]|]; injection HS as <- <-; reflexivity. }
    pose proof (run_loop_insts _ _ _ _ _ _ _ _ _ E) as TL. change (t_insts s2) with (t_insts s1) in TL.
    (* the program state when the loop starts *)
    assert (ST : exists d, K (ref d m) s2 /\ t_need s2 = false /\ t_bps s2 = t_bps s /\
      t_insts s2 = t_insts s + Z.of_nat d /\ d = (if t_need s then 1 else 0)%nat).
    { unfold s2, s1 in *. destruct (t_need s) eqn:En.
      - pose proof (i_at _ _ HI En) as Hin.
        rewrite step_past_insts in TL. cbn [t_insts set_need] in TL.
        assert (KN : K m (set_need false s)) by (apply (K_flags _ _ _ s); [apply (i_K _ _ HI)|reflexivity..]).
        destruct (step_past_ok exec evicted code m0 bytes0 m (set_need false s) KN) as (k1 & k2 & k3 & k4 & k5 & k6);
          [apply (HC 0%nat); [lia|rewrite (proj1 Need eq_refl); split; [intros; lia|left; auto]]|exact Hin|].
        exists 1%nat. split; [|split; [exact k4|split; [exact k2|split; [cbn; exact k5|reflexivity]]]].
        eapply K_flags; [exact k1|reflexivity..].
      - exists 0%nat. split; [|split; [exact En|split; [reflexivity|split; [cbn; lia|reflexivity]]]].
        apply (K_flags _ _ _ s); [apply (i_K _ _ HI)|reflexivity..]. }
    destruct ST as (d & K2 & N2 & B2 & T2 & Ed). change (t_insts s2) with (t_insts s1) in T2.
    rewrite (k_pc _ _ _ _ K2) in E.
    assert (RS : forall i, ref i (ref d m) = ref (i + d) m).
    { intros i. induction i as [|i IH]; [reflexivity|]. cbn [TopSpec.ref Nat.add]. now rewrite IH. }
    destruct (run_loop_ok exec evicted code m0 fuel (ref d m) s2 None p np s3 E K2 eq_refl N2) as [j Hj].
    { intros i Hi Q N'. rewrite RS in N' |- *. apply HC; [change (t_insts s2) with (t_insts s1) in Hi; lia|]. rewrite B2 in *.
      destruct (t_need s) eqn:En; subst d.
      - rewrite (proj1 Need eq_refl). split; [|right; exact N']. intros [|j'] Hj'; [left; auto|right]. replace (S j') with (j' + 1)%nat by lia. rewrite <- RS. apply Q. lia.
      - split; [|right; exact N']. intros j' Hj'. right. replace j' with (j' + 0)%nat by lia. rewrite <- RS. apply Q. lia. }
    assert (FS : forall n r', first_stop (t_bps s) (ref d m) 0 n r' ->
      (t_reason s <> RSwBreakpoint -> first_stop (t_bps s) m 0 (n + d) r') /\
      (t_reason s = RSwBreakpoint -> (1 <= n + d)%nat /\ first_stop (t_bps s) (ref 1 m) 0 (n + d - 1) r')).
    { intros n r' H. destruct (t_need s) eqn:En; subst d.
      - split; [intros X; now destruct X; apply Need|]. intros _. split; [lia|]. replace (n + 1 - 1)%nat with n by lia. exact H.
      - split; [intros _; rewrite Nat.add_0_r; exact H|]. intros X. apply Need in X. discriminate. }
    destruct Hj as [H|H].
    - destruct H as (Q & b1 & b2 & b3 & b4 & b5 & b6 & b7 & b8 & b9). rewrite b6 in HS. cbn [reason_eqb] in HS. subst p.
      rewrite B2 in *. change (t_insts s2) with (t_insts s1) in *. injection HS as <- <-. cbn [t_insts set_status set_pc set_pcv] in *.
      exists (j + d)%nat. split; [reflexivity|]. rewrite RS in b1, b3 |- *.
      assert (RG : 0 <= m_pc (ref (j + d) m) < 2 ^ 32) by apply (k_range _ _ _ _ b3).
      split; [|split; [exact b4|]].
      + constructor; cbn.
        * apply (K_flags _ _ _ (set_pcv (m_pc (ref (j + d) m)) s3)); try reflexivity; [exact b3|]. cbn. now rewrite Z.mod_small.
        * reflexivity.
        * rewrite b6, b7. tauto.
        * intros _. rewrite b4, Z.mod_small by exact RG. exact b1.
      + assert (F : first_stop (t_bps s) (ref d m) 0 j (t_reason s3)).
        { rewrite b6. split; [intros i Hi; apply Q; lia|]. split; [intros i Hi; apply Q; lia|]. left.
          split; [reflexivity|]. rewrite RS. split; [exact b1|]. split; [lia|]. intros i Hi. now apply Q. }
        destruct (FS _ _ F) as [F1 F2]. split; [exact F1|]. split; [exact F2|]. unfold extra. cbn [t_reason set_status set_pc set_pcv]. rewrite b6. cbn [reason_eqb]. lia.
    - destruct H as (Q & b1 & b2 & b3 & b4 & b5 & b6 & b7 & b8 & b9 & b10).
      rewrite B2 in *. change (t_insts s2) with (t_insts s1) in *.
      apply reason_eqb_neq in b9 as b9'. rewrite b9' in HS. injection HS as <- <-. cbn [t_insts set_status set_pc set_pcv] in *.
      exists (S j + d)%nat. split; [reflexivity|]. rewrite RS in b3.
      assert (RG : 0 <= m_pc (ref (S j + d) m) < 2 ^ 32) by apply (k_range _ _ _ _ b3).
      pose proof (k_pc _ _ _ _ b3) as EP. subst np.
      split; [|split; [exact b4|]].
      + constructor; cbn [t_status t_need t_reason set_status set_pc set_pcv t_pc t_bps].
        * apply (K_flags _ _ _ s3); try reflexivity; [exact b3|]. cbn [t_pc set_status set_pc set_pcv]. rewrite EP. now rewrite Z.mod_small.
        * reflexivity.
        * rewrite b6. split; [discriminate|contradiction].
        * rewrite b6. discriminate.
      + assert (F : first_stop (t_bps s) (ref d m) 0 (S j) (t_reason s3)).
        { split; [intros i Hi; destruct (Nat.eq_dec i j) as [-> |]; [exact b1|apply Q; lia]|]. split; [intros i Hi; apply Q; lia|]. right.
          split; [lia|]. replace (S j - 1)%nat with j by lia. exact b8. }
        destruct (FS _ _ F) as [F1 F2]. split; [exact F1|]. split; [exact F2|]. unfold extra. cbn [t_reason set_status set_pc set_pcv]. rewrite b9'. lia.
  Qed.

  (** ** The other calls *)
  Lemma set_bps_J P m (s : top) l : J code m0 P m s -> J code m0 P m (set_bps l s).
  Proof. intros H. apply (J_set _ _ _ _ s); [exact H|reflexivity..]. Qed.
  Lemma clear_K m (s : top) a : K m s -> al a -> word_in_code code a -> t_map s a <> None ->
    let s' := write_original a (set_bps (drop_bp a (t_bps s)) s) in
    K m s' /\ ctl (set_bps (drop_bp a (t_bps s)) s) s' /\ t_map s' = t_map s.
  Proof.
    intros HK Ha Hw Hm. destruct (t_map s a) as [w|] eqn:E; [|contradiction].
    destruct (write_original_ok exec evicted code m0 bytes0 _ _ (set_bps (drop_bp a (t_bps s)) s) a w (set_bps_J _ _ _ (drop_bp a (t_bps s)) (k_J _ _ _ _ HK)) Ha Hw E) as (J1 & C1 & M1).
    cbv zeta. set (s' := write_original _ _) in *. split; [|split; [exact C1|exact M1]].
    destruct C1 as (c1 & c2 & c3 & c4 & c5 & c6 & c7). cbn [t_pc t_status t_reason t_halted t_need t_bps t_insts set_bps] in *.
    assert (IN : forall x, In x (drop_bp a (t_bps s)) <-> In x (t_bps s) /\ x <> a).
    { intros x. unfold drop_bp. rewrite filter_In, negb_true_iff, Z.eqb_neq. tauto. }
    constructor.
    - eapply J_iff; [|exact J1]. intros x. unfold bset. rewrite c6. symmetry. apply IN.
    - rewrite c1. apply (k_pc _ _ _ _ HK).
    - apply (k_range _ _ _ _ HK).
    - rewrite c6. intros x Hx. apply IN in Hx as [Hx _]. now apply (k_bp _ _ _ _ HK).
    - rewrite c6, M1. intros x Hx. apply IN in Hx as [Hx _]. now apply (k_saved _ _ _ _ HK).
  Qed.
  Lemma clear_all_K m l : forall s : top, K m s ->
    (forall a, In a l -> al a /\ word_in_code code a /\ t_map s a <> None) ->
    let s' := fold_left (fun s a => write_original a (set_bps (drop_bp a (t_bps s)) s)) l s in
    K m s' /\ t_status s' = t_status s /\ t_reason s' = t_reason s /\ t_need s' = t_need s /\ t_insts s' = t_insts s /\
    t_pc s' = t_pc s /\ (forall a, In a (t_bps s') <-> In a (t_bps s) /\ ~ In a l).
  Proof.
    induction l as [|a l IH]; intros s HK Hl; cbn [fold_left].
    - split; [exact HK|]. repeat split; try tauto.
    - destruct (Hl a (or_introl eq_refl)) as (Ha & Hw & Hm).
      destruct (clear_K m s a HK Ha Hw Hm) as (K1 & C1 & M1). cbv zeta in K1, C1, M1.
      set (s1 := write_original a _) in *.
      destruct (IH s1 K1) as (K2 & q1 & q2 & q3 & q4 & q5 & q6).
      { intros b Hb. rewrite M1. apply Hl. now right. }
      destruct C1 as (c1 & c2 & c3 & c4 & c5 & c6 & c7). cbn [t_pc t_status t_reason t_halted t_need t_bps t_insts set_bps] in *.
      split; [exact K2|]. split; [congruence|]. split; [congruence|]. split; [congruence|]. split; [congruence|]. split; [congruence|].
      intros b. rewrite q6, c6. unfold drop_bp. rewrite filter_In, negb_true_iff, Z.eqb_neq. cbn. intuition congruence.
  Qed.

  Lemma set_K m (s : top) a : K m s -> bp_ok code m0 a -> ~ In a (t_bps s) ->
    let s' := write_breakpoint a (set_bps (a :: t_bps s) s) in
    K m s' /\ ctl (set_bps (a :: t_bps s) s) s'.
  Proof.
    intros HK Hb Hn. assert (Hb' := Hb). destruct Hb as (R & A & W & NE).
    destruct (write_breakpoint_ok exec evicted code m0 bytes0 _ _ (set_bps (a :: t_bps s) s) a (set_bps_J _ _ _ (a :: t_bps s) (k_J _ _ _ _ HK)) (conj R A) W Hn) as (J1 & C1 & M1 & M1').
    cbv zeta. set (s' := write_breakpoint _ _) in *. split; [|exact C1].
    destruct C1 as (c1 & c2 & c3 & c4 & c5 & c6 & c7). cbn [t_pc t_status t_reason t_halted t_need t_bps t_insts set_bps] in *.
    constructor.
    - eapply J_iff; [|exact J1]. intros x. unfold bset. rewrite c6. cbn. intuition.
    - rewrite c1. apply (k_pc _ _ _ _ HK).
    - apply (k_range _ _ _ _ HK).
    - rewrite c6. intros x [<- |Hx]; [exact Hb'|]. now apply (k_bp _ _ _ _ HK).
    - rewrite c6. intros x [<- |Hx]; [exact M1|]. apply M1'. cbn. now apply (k_saved _ _ _ _ HK).
  Qed.

  (** GetDisassembly decodes the program's own word and changes nothing visible. *)
  Lemma disasm_ok m (s : top) a : Inv m s -> al a -> word_in_code code a ->
    exists s', disassembly evicted a s = (RVal (load32 (m_mem m) a), s') /\ Inv m s' /\ ctl s s'.
  Proof.
    intros HI Ha Hw. unfold disassembly, guarded. rewrite (i_status _ _ HI). cbn [is_halted].
    pose proof (i_K _ _ HI) as HK.
    assert (FIN : forall s', K m s' -> ctl s s' -> Inv m s' /\ ctl s s').
    { intros s' K' C'. split; [|exact C']. destruct C' as (c1 & c2 & c3 & c4 & c5 & c6 & c7).
      constructor; [exact K'|rewrite c2; apply HI|rewrite c5, c3; apply HI|rewrite c5, c1, c6; apply HI]. }
    destruct (has_bp a s) eqn:E.
    - apply has_bp_iff in E. destruct (t_map s a) as [w|] eqn:Em; [|now destruct (k_saved _ _ _ _ HK a E)].
      destruct (write_original_ok exec evicted code m0 bytes0 _ _ s a w (k_J _ _ _ _ HK) Ha Hw Em) as (J1 & C1 & M1).
      set (s1 := write_original a s) in *. cbv zeta in *.
      destruct (fetch_ok evicted code m0 _ _ s1 a J1 Ha Hw) as (s2 & E2 & J2 & C2 & M2 & N2). rewrite E2.
      destruct (load_planted exec evicted code m0 _ _ s1 a J1 Ha Hw) as [_ L]. rewrite L by tauto.
      destruct (write_breakpoint_ok exec evicted code m0 bytes0 _ _ s2 a J2 Ha Hw) as (J4 & C4 & M4 & M4'); [tauto|]. cbv zeta in *.
      set (s4 := write_breakpoint a s2) in *. exists s4. split; [reflexivity|].
      assert (CC : ctl s s4) by (eapply ctl_trans; [exact C1|]; eapply ctl_trans; eassumption).
      apply FIN; [|exact CC]. destruct CC as (c1 & c2 & c3 & c4 & c5 & c6 & c7).
      constructor.
      + eapply J_iff; [|exact J4]. intros x. unfold bset. rewrite c6. destruct (Z.eq_dec x a) as [-> |]; tauto.
      + rewrite c1. apply (k_pc _ _ _ _ HK).
      + apply (k_range _ _ _ _ HK).
      + rewrite c6. apply (k_bp _ _ _ _ HK).
      + rewrite c6. intros x Hx. apply M4'. rewrite M2, M1. now apply (k_saved _ _ _ _ HK).
    - destruct (fetch_ok evicted code m0 _ _ s a (k_J _ _ _ _ HK) Ha Hw) as (s2 & E2 & J2 & C2 & M2 & N2). rewrite E2.
      destruct (load_planted exec evicted code m0 _ _ s a (k_J _ _ _ _ HK) Ha Hw) as [_ L]. 
      assert (NB : ~ In a (t_bps s)) by (intros X; apply has_bp_iff in X; congruence). rewrite L by exact NB.
      exists s2. split; [reflexivity|]. apply FIN; [|exact C2]. destruct C2 as (c1 & c2 & c3 & c4 & c5 & c6 & c7).
      constructor.
      + eapply J_iff; [|exact J2]. intros x. unfold bset. rewrite c6. tauto.
      + rewrite c1. apply (k_pc _ _ _ _ HK).
      + apply (k_range _ _ _ _ HK).
      + rewrite c6. apply (k_bp _ _ _ _ HK).
      + rewrite c6, M2. apply (k_saved _ _ _ _ HK).
  Qed.

  (** ** One call *)
  Lemma Inv_ext m s s' : Inv m s -> K m s' -> t_status s' = t_status s -> t_reason s' = t_reason s -> t_need s' = t_need s ->
    (t_need s = true -> In (t_pc s) (t_bps s) -> In (t_pc s') (t_bps s')) -> Inv m s'.
  Proof.
    intros HI HK E1 E2 E3 E4. constructor; [exact HK|rewrite E1; apply HI|rewrite E2, E3; apply HI|].
    rewrite E3. intros X. apply E4; [exact X|]. now apply (i_at _ _ HI).
  Qed.

  Lemma Inv_ext' m m' s s' : Inv m s -> K m' s' -> t_status s' = t_status s -> t_reason s' = t_reason s -> t_need s' = t_need s ->
    t_pc s' = t_pc s -> t_bps s' = t_bps s -> Inv m' s'.
  Proof.
    intros HI HK E1 E2 E3 E4 E5. constructor; [exact HK|rewrite E1; apply HI|rewrite E2, E3; apply HI|rewrite E3, E4, E5; apply HI].
  Qed.

  Lemma poke_mem_K m (s : top) a buf : K m s -> 0 <= a < 2 ^ 64 -> Z.of_nat (length buf) < 2 ^ 64 ->
    (forall x, a <= x < a + Z.of_nat (length buf) -> ~ code x) -> a <= max_address ->
    K (poke (CWriteMem a buf) m) (set_mem (store_bytes (t_mem s) a (firstn (Z.to_nat (clamp_len a (Z.of_nat (length buf)))) buf)) s).
  Proof.
    intros HK Ha Hl Hc Hm. destruct HK as [[A [M1 M2] PP CO MA CH] Ep R B S]. cbn [poke].
    assert (W := fun x => write_memory_at (t_mem s) a buf x ltac:(lia) Hl).
    assert (OUT : forall x, code x -> (a <=? x) && (x <? a + Z.of_nat (length buf)) && (x <=? max_address) = false).
    { intros x Cx. destruct (_ && _) eqn:E; [|reflexivity]. exfalso. apply (Hc x); [lia|exact Cx]. }
    constructor; cbn [m_pc t_pc t_bps t_map set_mem]; try assumption. constructor; cbn [m_arch t_arch t_mem m_mem t_map t_cache set_mem]; try assumption.
    - split.
      + intros x Hx. rewrite W, M1 by exact Hx. reflexivity.
      + intros b i Hb Hi. rewrite W, OUT; [now apply M2|]. destruct (PP b Hb) as [_ w]. now apply w.
    - intros x Cx. rewrite OUT by exact Cx. now apply CO.
    - intros b w Hb Hw Hcw. rewrite (CH b w Hb Hw Hcw). apply load32_ext. intros i Hi. rewrite W, OUT; [reflexivity|]. now apply Hw.
  Qed.

  Lemma call_ok c m (s : top) r s' : Inv m s -> allowed c s -> call_ c s = Some (Ok (r, s')) ->
    (forall i, Z.of_nat i < t_insts s' - t_insts s -> (forall num, c = CStep num -> Z.of_nat i < num) ->
       gets_to (t_bps s) (reason_eqb (t_reason s) RSwBreakpoint) m i -> clean (ref i m)) ->
    exists n, Inv (if goes c then ref n m else poke c m) s' /\ t_insts s + Z.of_nat n <= t_insts s' /\ (goes c = false -> n = 0%nat /\ t_insts s' = t_insts s).
  Proof.
    intros HI HA HD HC. pose proof (i_K _ _ HI) as HK. pose proof (i_status _ _ HI) as Hs.
    destruct c as [num|fuel| |r0|a|a| |a|name|name v|a n|a buf|a|file a| |]; cbn [do_call] in HD; cbn [goes].
    - (* Step *) injection HD as HD. destruct (step_ok num m s r s' HI HA HD) as [(_ & -> & ->)|(n & v & _ & -> & HI' & _ & HR & HT)].
      { intros i H1 H2 H3. apply HC; [exact H1|now intros num' [= <-]|]. rewrite (proj2 (reason_eqb_neq _ _) HA). exact H3. }
      + exists 0%nat. split; [exact HI|]. split; [lia|discriminate].
      + exists n. split; [exact HI'|]. split; [|discriminate].
        destruct HR as [(E & E1 & _)|[(E & _)|(E & _)]]; lia.
    - (* Run *) destruct (run_ok fuel m s r s' HI HD (fun i H1 H2 => HC i H1 ltac:(discriminate) H2)) as (n & -> & HI' & _ & _ & _ & HT).
      exists n. split; [exact HI'|]. split; [|discriminate]. assert (0 <= extra (t_reason s')) by (clear; unfold extra; destruct (reason_eqb _ _); lia). lia.
    - (* Halt *) injection HD as HD. unfold halt in HD. rewrite Hs in HD. injection HD as <- <-. exists 0%nat. split; [exact HI|]. split; [lia|auto].
    - (* HaltWith *) injection HD as <- <-. destruct HA as (H1 & H2 & H3). exists 0%nat. unfold request_halt.
      apply reason_eqb_neq in H2 as Q2. apply reason_eqb_neq in H3 as Q3. rewrite Q2, Q3. cbn [orb t_insts set_halted set_reason].
      split; [|split; [lia|auto]]. pose proof (Inv_need _ _ HI H1) as HN.
      constructor; cbn [t_status t_need t_reason set_halted set_reason t_pc t_bps].
      + eapply K_flags; [exact HK|reflexivity..].
      + exact Hs.
      + rewrite HN. split; [discriminate|contradiction].
      + rewrite HN. discriminate.
    - (* SetBp *) injection HD as HD. unfold set_breakpoint, guarded in HD. rewrite Hs in HD. cbn [is_halted] in HD.
      exists 0%nat. destruct (has_bp a s) eqn:E.
      + injection HD as <- <-. split; [exact HI|]. split; [lia|auto].
      + injection HD as <- <-. assert (NI : ~ In a (t_bps s)) by (intros X; apply has_bp_iff in X; congruence).
        destruct (set_K m s a HK HA NI) as (K1 & c1 & c2 & c3 & c4 & c5 & c6 & c7). cbv zeta in *.
        cbn [t_pc t_status t_reason t_halted t_need t_bps t_insts set_bps] in *.
        split; [|split; [lia|auto]]. apply (Inv_ext m s); try assumption. intros _ X. rewrite c1, c6. now right.
    - (* ClearBp *) injection HD as HD. unfold clear_breakpoint, guarded in HD. rewrite Hs in HD. cbn [is_halted] in HD.
      exists 0%nat. destruct (has_bp a s) eqn:E.
      + injection HD as <- <-. apply has_bp_iff in E. destruct (bp_al _ _ _ _ a HK E) as [Al Wc].
        destruct (clear_K m s a HK Al Wc (k_saved _ _ _ _ HK a E)) as (K1 & (c1 & c2 & c3 & c4 & c5 & c6 & c7) & _). cbv zeta in *.
        cbn [t_pc t_status t_reason t_halted t_need t_bps t_insts set_bps] in *.
        split; [|split; [lia|auto]]. apply (Inv_ext m s); try assumption. intros Hn X. rewrite c1, c6. unfold drop_bp.
        apply filter_In. split; [exact X|]. apply negb_true_iff, Z.eqb_neq. intros Y. apply HA. split; [now apply (i_need _ _ HI)|auto].
      + injection HD as <- <-. split; [exact HI|]. split; [lia|auto].
    - (* ClearAll *) injection HD as HD. unfold clear_all, guarded in HD. rewrite Hs in HD. cbn [is_halted] in HD. injection HD as <- <-.
      destruct (clear_all_K m (t_bps s) s HK) as (K1 & q1 & q2 & q3 & q4 & q5 & q6).
      { intros a Ha. destruct (bp_al _ _ _ _ a HK Ha). split; [assumption|]. split; [assumption|]. now apply (k_saved _ _ _ _ HK). }
      cbv zeta in *. exists 0%nat. split; [|split; [lia|auto]].
      apply (Inv_ext m s); try assumption. intros Hn. apply (i_need _ _ HI) in Hn. contradiction.
    - injection HD as <- <-. exists 0%nat. split; [exact HI|]. split; [lia|auto].
    - (* ReadReg *) injection HD as HD. exists 0%nat. assert (s' = s).
      { unfold read_register, guarded in HD. rewrite Hs in HD. cbn [is_halted] in HD.
        destruct (reg_id name); [destruct (size_ok _)|destruct (csr_id name)]; now injection HD as <- <-. }
      subst s'. split; [exact HI|]. split; [lia|auto].
    - (* WriteReg *) injection HD as HD. unfold write_register, guarded in HD. rewrite Hs in HD. cbn [is_halted] in HD. exists 0%nat. cbn [allowed] in HA.
      cbn [poke]. destruct (reg_id name) as [i|].
      + destruct (String.eqb_spec name pc_name) as [En|En].
        * destruct (HA En) as [H1 H2]. apply reason_eqb_neq in H1 as Q. rewrite Q in HD. cbn [andb] in HD.
          destruct (size_ok (reg_size i)) eqn:Ez; injection HD as <- <-; [|split; [exact HI|split; [lia|auto]]].
          split; [|cbn; split; [lia|auto]]. set (x := v mod 2 ^ (8 * reg_size i)).
          assert (PW : 0 < 2 ^ (8 * reg_size i)) by (apply Z.pow_pos_nonneg; unfold size_ok in Ez; lia).
          assert (RX : 0 <= x < 2 ^ 32).
          { assert (0 <= x) by (apply Z.mod_pos_bound; exact PW). assert (x <= v) by (apply Z.mod_le; lia). lia. }
          pose proof (Inv_need _ _ HI H1) as HN.
          constructor; cbn [t_status t_need t_reason set_pcv t_pc t_bps]; [|exact Hs|apply HI|rewrite HN; discriminate].
          destruct HK as [J0 Ep R B S]. constructor; cbn [m_pc t_pc t_bps t_map set_pcv]; try assumption; try reflexivity.
          destruct J0. constructor; assumption.
        * cbn [andb] in HD. destruct (size_ok (reg_size i)); injection HD as <- <-; [|split; [exact HI|split; [lia|auto]]].
          split; [|cbn; split; [lia|auto]].
          apply (Inv_ext' m _ s); try reflexivity; [exact HI|].
          destruct HK as [J0 Ep R B S]. constructor; cbn [m_pc t_pc t_bps t_map set_arch]; try assumption.
          destruct J0. constructor; try assumption. cbn. congruence.
      + destruct (csr_id name) as [j|]; injection HD as <- <-; [|split; [exact HI|split; [lia|auto]]].
        split; [|cbn; split; [lia|auto]].
        apply (Inv_ext' m _ s); try reflexivity; [exact HI|].
        destruct HK as [J0 Ep R B S]. constructor; cbn [m_pc t_pc t_bps t_map set_arch]; try assumption.
        destruct J0. constructor; try assumption. cbn. congruence.
    - (* ReadMem *) injection HD as HD. exists 0%nat. assert (s' = s).
      { unfold read_memory, guarded in HD. rewrite Hs in HD. cbn [is_halted] in HD.
        destruct (max_address <? a); now injection HD as <- <-. }
      subst s'. split; [exact HI|]. split; [lia|auto].
    - (* WriteMem *) injection HD as HD. unfold write_memory, guarded in HD. rewrite Hs in HD. cbn [is_halted] in HD. exists 0%nat.
      destruct HA as (Ha & Hl & Hc). destruct (Z.ltb_spec max_address a) as [Hm|Hm]; injection HD as <- <-.
      + split; [|split; [lia|auto]]. apply (Inv_ext' m _ s); try reflexivity; try exact HI.
        destruct HK as [J0 Ep R B S]. constructor; cbn [m_pc poke]; try assumption.
        assert (EQ : forall x, m_mem (poke (CWriteMem a buf) m) x = m_mem m x).
        { intros x. cbn [poke m_mem]. replace (_ && _) with false by lia. reflexivity. }
        destruct J0 as [A [M1 M2] PP CO MA CH]. constructor; try assumption.
        * split; [|exact M2]. intros x Hx. rewrite EQ. now apply M1.
        * intros x Hx. rewrite EQ. now apply CO.
      + split; [|cbn; split; [lia|auto]]. apply (Inv_ext' m _ s); try reflexivity; try exact HI.
        apply poke_mem_K; assumption.
    - (* Disasm *) injection HD as HD. destruct HA as (H1 & H2 & H3).
      destruct (disasm_ok m s a HI (conj H1 H2) H3) as (s1 & E1 & HI' & C1). rewrite E1 in HD. injection HD as <- <-.
      exists 0%nat. split; [exact HI'|]. destruct C1 as (_ & _ & _ & _ & _ & _ & ->). split; [lia|auto].
    - destruct HA.
    - injection HD as <- <-. exists 0%nat. split; [exact HI|]. split; [lia|auto].
    - injection HD as <- <-. exists 0%nat. split; [exact HI|]. split; [lia|auto].
  Qed.

  (** ** Histories *)
  Lemma fresh_Inv : 0 <= m_pc m0 < 2 ^ 32 -> Inv m0 (fresh (m_arch m0) (m_mem m0) (m_pc m0)).
  Proof.
    intros R. constructor; cbn; [|reflexivity|split; discriminate|discriminate].
    constructor; cbn; try (intros a []); try assumption; try reflexivity.
    constructor; cbn; try reflexivity; try discriminate; try (intros a []); try assumption.
    split; [reflexivity|intros a i []].
  Qed.

  Lemma step_insts num (s s' : top) r : step exec evicted num s = Ok (r, s') -> t_insts s <= t_insts s'.
  Proof.
    unfold step. destruct (num <=? 0); [intros X; injection X as <- <-; lia|].
    destruct (negb (is_halted _)); [intros X; injection X as <- <-; lia|].
    set (s1 := set_halted false _).
    assert (P : t_insts s <= t_insts (snd (if t_need s1 then (1, step_past exec evicted (set_need false s1)) else (0, s1)))).
    { destruct (t_need s1); cbn [snd]; [rewrite step_past_insts|]; cbn; lia. }
    destruct (if t_need s1 then _ else _) as [c s2]. cbn [snd] in P.
    destruct (step_loop _ _ _ _ _ _ _ _) as [[[c' p] np] s3] eqn:E. apply step_loop_insts in E.
    destruct (reason_eqb _ _); [destruct p; [|discriminate]|]; intros X; injection X as <- <-; destruct (negb _); cbn; lia.
  Qed.
  Lemma run_insts fuel (s s' : top) r : run exec evicted fuel s = Some (Ok (r, s')) -> t_insts s <= t_insts s'.
  Proof.
    unfold run. destruct (is_running _); [intros X; injection X as <- <-; lia|].
    set (s2 := set_halted false _).
    assert (P : t_insts s <= t_insts s2).
    { unfold s2. destruct (t_need s); cbn [t_insts set_halted set_status]; [rewrite step_past_insts; cbn|]; lia. }
    destruct (run_loop _ _ fuel None (t_pc s2) s2) as [[[p np] s3]|] eqn:E; [|discriminate]. apply run_loop_insts in E.
    destruct (reason_eqb _ _); [destruct p; [|discriminate]|]; intros X; injection X as <- <-; cbn; lia.
  Qed.

  Lemma load_chunks_keeps fuel : forall rest a (s : top), 
    let s' := snd (load_chunks fuel rest a s) in ctl s s' /\ t_arch s' = t_arch s /\ t_map s' = t_map s /\ t_cache s' = t_cache s.
  Proof.
    induction fuel as [|f IH]; intros rest a s; [repeat split|]. cbn [load_chunks].
    destruct (_ =? 0); [repeat split|]. destruct (write_memory _ _ s) as [r1 s1] eqn:E.
    assert (W : ctl s s1 /\ t_arch s1 = t_arch s /\ t_map s1 = t_map s /\ t_cache s1 = t_cache s).
    { unfold write_memory, guarded in E. destruct (is_halted _); [destruct (_ <? _)|]; injection E as <- <-; repeat split. }
    destruct r1; try exact W. destruct (v =? _); [|exact W]. destruct (_ =? Z.of_nat _); [|exact W].
    destruct (IH (skipn buffer_size rest) ((a + Z.of_nat (length (firstn buffer_size rest))) mod 2 ^ 64) s1) as (q1 & q2 & q3 & q4).
    destruct W as (w1 & w2 & w3 & w4).
    split; [eapply ctl_trans; eassumption|]. split; [congruence|]. split; congruence.
  Qed.

  Definition bps_of (c : call) (r : ret) (l : list Z) : list Z :=
    match c, r with
    | CSetBp a, ROk => a :: l
    | CClearBp a, ROk => drop_bp a l
    | CClearAll, ROk => []
    | _, _ => l
    end.

  Lemma fetch_ctl a (s : top) : ctl s (snd (fetch evicted a s)).
  Proof. unfold fetch. destruct (if evicted _ _ then _ else _); repeat split. Qed.
  Lemma original_ctl a (s : top) : ctl s (write_original a s).
  Proof. unfold write_original. destruct (t_map s a); repeat split. Qed.
  Lemma breakpoint_ctl a (s : top) : ctl s (write_breakpoint a s).
  Proof. unfold write_breakpoint. destruct (t_map s a); repeat split. Qed.
  Lemma fold_clear l : forall s : top,
    let s' := fold_left (fun s a => write_original a (set_bps (drop_bp a (t_bps s)) s)) l s in
    t_insts s' = t_insts s /\ t_bps s' = fold_left (fun l a => drop_bp a l) l (t_bps s).
  Proof.
    induction l as [|a l IH]; intros s; cbn [fold_left]; [auto|].
    destruct (original_ctl a (set_bps (drop_bp a (t_bps s)) s)) as (_ & _ & _ & _ & _ & B & T).
    destruct (IH (write_original a (set_bps (drop_bp a (t_bps s)) s))) as [q1 q2]. cbv zeta in *.
    rewrite q1, q2, B, T. auto.
  Qed.
  Lemma fold_drop l : forall k x, In x (fold_left (fun l a => drop_bp a l) l k) <-> In x k /\ ~ In x l.
  Proof.
    induction l as [|a l IH]; intros k x; cbn [fold_left In]; [tauto|].
    rewrite IH. unfold drop_bp. rewrite filter_In, negb_true_iff, Z.eqb_neq. intuition congruence.
  Qed.
  Lemma fold_drop_nil l : fold_left (fun l a => drop_bp a l) l l = [].
  Proof.
    assert (H : forall x, ~ In x (fold_left (fun l a => drop_bp a l) l l)) by (intros x X; apply fold_drop in X; tauto).
    destruct (fold_left _ l l) as [|y t]; [reflexivity|]. exfalso. apply (H y). now left.
  Qed.

  Lemma insts_other c (s s' : top) r : goes c = false -> call_ c s = Some (Ok (r, s')) -> t_insts s' = t_insts s.
  Proof.
    intros Hg HD. destruct c as [num|fuel| |r0|a|a| |a|name|name v|a n|a buf|a|file a| |]; try discriminate Hg; cbn [do_call] in HD;
      try (injection HD as <- <-; reflexivity).
    - injection HD as HD. unfold halt in HD. destruct (t_status s); now injection HD as <- <-.
    - injection HD as <- <-. apply request_insts.
    - injection HD as HD. unfold set_breakpoint, guarded in HD. destruct (is_halted _); [|now injection HD as <- <-].
      destruct (has_bp a s); injection HD as <- <-; [reflexivity|]. now rewrite breakpoint_insts.
    - injection HD as HD. unfold clear_breakpoint, guarded in HD. destruct (is_halted _); [|now injection HD as <- <-].
      destruct (has_bp a s); injection HD as <- <-; [|reflexivity]. now rewrite original_insts.
    - injection HD as HD. unfold clear_all, guarded in HD. destruct (is_halted _); injection HD as <- <-; [|reflexivity].
      apply (fold_clear (t_bps s) s).
    - injection HD as HD. unfold read_register, guarded in HD. destruct (is_halted _); [|now injection HD as <- <-].
      destruct (reg_id name); [destruct (size_ok _)|destruct (csr_id name)]; now injection HD as <- <-.
    - injection HD as HD. unfold write_register, guarded in HD. destruct (is_halted _); [|now injection HD as <- <-].
      destruct (reg_id name); [|destruct (csr_id name); now injection HD as <- <-].
      destruct (_ && _); destruct (size_ok _); injection HD as <- <-; try reflexivity; destruct (String.eqb _ _); reflexivity.
    - injection HD as HD. unfold read_memory, guarded in HD. destruct (is_halted _); [|now injection HD as <- <-].
      destruct (_ <? _); now injection HD as <- <-.
    - injection HD as HD. unfold write_memory, guarded in HD. destruct (is_halted _); [|now injection HD as <- <-].
      destruct (_ <? _); now injection HD as <- <-.
    - injection HD as HD. unfold disassembly, guarded in HD. destruct (is_halted _); [|now injection HD as <- <-].
      destruct (has_bp a s).
      + pose proof (fetch_insts evicted a (write_original a s)) as F. destruct (fetch _ _ _) as [w s1]. cbn [snd] in F.
        injection HD as <- <-. now rewrite breakpoint_insts, F, original_insts.
      + pose proof (fetch_insts evicted a s) as F. destruct (fetch _ _ _) as [w s1]. cbn [snd] in F. injection HD as <- <-. exact F.
    - injection HD as HD. unfold load_image in HD. destruct file as [l|]; [|now injection HD as <- <-].
      destruct (load_chunks_keeps (S (length l)) l a s) as ((_ & _ & _ & _ & _ & _ & T) & _). now rewrite HD in T.
  Qed.
  Lemma call_insts c (s s' : top) r : call_ c s = Some (Ok (r, s')) -> t_insts s <= t_insts s'.
  Proof.
    intros HD. destruct (goes c) eqn:Eg; [|rewrite (insts_other c s s' r Eg HD); lia].
    destruct c; try discriminate Eg; cbn [do_call] in HD.
    - injection HD as HD. now apply step_insts in HD.
    - now apply run_insts in HD.
  Qed.
  Lemma history_insts P s h s' : history P s h s' -> t_insts s <= t_insts s'.
  Proof. induction 1 as [|s c r s1 h s2 HP HD HH IH]; [lia|]. apply call_insts in HD. lia. Qed.

  Lemma history_ok s h s' : history allowed s h s' -> forall m, Inv m s ->
    (forall h1 h2 k m1, h = h1 ++ h2 -> follows m h1 k m1 -> Z.of_nat k < t_insts s' - t_insts s -> clean m1) ->
    exists k m', follows m h k m' /\ Inv m' s' /\ t_insts s + Z.of_nat k <= t_insts s'.
  Proof.
    induction 1 as [s|s c r s1 h s2 HP HD HH IH]; intros m HI HC.
    - exists 0%nat, m. split; [constructor|]. split; [exact HI|lia].
    - pose proof (history_insts _ _ _ _ HH) as M2.
      destruct (call_ok c m s r s1 HI HP HD) as (n & HI1 & T1 & T2).
      { intros i Hi _ _. destruct (goes c) eqn:Eg.
        - apply (HC [(c, r)] h i); [reflexivity| |lia]. replace i with (i + 0)%nat at 1 by lia. apply FGo; [exact Eg|constructor].
        - rewrite (insts_other c s s1 r Eg HD) in Hi. lia. }
      destruct (goes c) eqn:Eg.
      + destruct (IH _ HI1) as (k & m' & F & I' & T').
        { intros h1 h2 k m1 -> F Hk. apply (HC ((c, r) :: h1) h2 (n + k)%nat); [reflexivity| |lia]. now apply FGo. }
        exists (n + k)%nat, m'. split; [now apply FGo|]. split; [exact I'|lia].
      + destruct (T2 eq_refl) as [-> T3]. destruct (IH _ HI1) as (k & m' & F & I' & T').
        { intros h1 h2 k m1 -> F Hk. apply (HC ((c, r) :: h1) h2 k); [reflexivity| |lia]. now apply FPoke. }
        exists k, m'. split; [now apply FPoke|]. split; [exact I'|lia].
  Qed.

  (** The calls stay defined. *)
  Lemma call_defined c m (s : top) k : Inv m s -> allowed c s -> call_ c s <> Some (UB k) /\ call_ c s <> Some Crash.
  Proof.
    intros HI HA. destruct c; cbn [do_call]; try (split; discriminate).
    - destruct (step_defined exec evicted n s k (Inv_need _ _ HI HA)) as [A B]. split; intros X; injection X as X; contradiction.
    - apply run_defined.
  Qed.

  (** ** The set of breakpoints *)
  Lemma request_bps r (s : top) : t_bps (request_halt r s) = t_bps s.
  Proof. unfold request_halt. now destruct (_ || _). Qed.
  Lemma execute_bps w a (s : top) : t_bps (execute exec w a s) = t_bps s.
  Proof.
    unfold execute. cbn [t_bps count1]. destruct (w =? ebreak).
    - destruct (has_bp _ _); now rewrite ?request_bps.
    - destruct (f_halt _); now rewrite ?request_bps.
  Qed.
  Lemma step_past_bps (s : top) : t_bps (step_past exec evicted s) = t_bps s.
  Proof.
    unfold step_past. destruct (fetch_ctl (t_pc s) (write_original (t_pc s) s)) as (_ & _ & _ & _ & _ & F & _).
    destruct (fetch _ _ _) as [w s1]. cbn [snd] in F.
    destruct (breakpoint_ctl (t_pc s) (execute exec w (t_pc s) s1)) as (_ & _ & _ & _ & _ & -> & _).
    destruct (original_ctl (t_pc s) s) as (_ & _ & _ & _ & _ & O & _). now rewrite execute_bps, F, O.
  Qed.
  Lemma iteration_bps b np (s : top) : t_bps (snd (iteration exec evicted b np s)) = t_bps s.
  Proof.
    unfold iteration. destruct (fetch_ctl np s) as (_ & _ & _ & _ & _ & F & _). destruct (fetch _ np s) as [w s1]. cbn [snd] in F.
    assert (G := execute_bps w np s1). destruct (negb _); [cbn [snd]; congruence|].
    destruct (reason_eqb _ _); [|cbn [snd]; congruence].
    assert (H := step_past_bps (execute exec w np s1)).
    destruct b; cbn [snd t_bps set_need set_reason set_halted]; congruence.
  Qed.
  Lemma run_loop_bps fuel : forall pc np (s : top) p' np' s',
    run_loop exec evicted fuel pc np s = Some (p', np', s') -> t_bps s' = t_bps s.
  Proof.
    induction fuel as [|f IH]; intros pc np s p' np' s'; cbn [run_loop]; destruct (negb _); try discriminate;
      try (intros X; injection X as <- <- <-; reflexivity).
    pose proof (iteration_bps false np s) as G. destruct (iteration _ _ _ _ s) as [[go n1] s1]. cbn [snd] in G.
    destruct go; [|intros X; injection X as <- <- <-; exact G]. intros X. apply IH in X. congruence.
  Qed.
  Lemma step_loop_bps fuel : forall num count pc np (s : top) c' p' np' s',
    step_loop exec evicted fuel num count pc np s = (c', p', np', s') -> t_bps s' = t_bps s.
  Proof.
    induction fuel as [|f IH]; intros num count pc np s c' p' np' s'; cbn [step_loop]; destruct (_ && _);
      try (intros X; injection X as <- <- <- <-; reflexivity).
    pose proof (iteration_bps true np s) as G. destruct (iteration _ _ _ _ s) as [[go n1] s1]. cbn [snd] in G.
    destruct go; [|intros X; injection X as <- <- <- <-; exact G]. intros X. apply IH in X. congruence.
  Qed.
  Lemma call_bps c (s s' : top) r : call_ c s = Some (Ok (r, s')) -> t_bps s' = bps_of c r (t_bps s).
  Proof.
    intros HD. destruct c as [num|fuel| |r0|a|a| |a|name|name v|a n|a buf|a|file a| |]; cbn [do_call bps_of] in *;
      try (injection HD as <- <-; reflexivity).
    - injection HD as HD. unfold step in HD. destruct (num <=? 0); [now injection HD as <- <-|].
      destruct (negb (is_halted _)); [now injection HD as <- <-|].
      set (s1 := set_halted false _) in HD.
      assert (P : t_bps (snd (if t_need s1 then (1, step_past exec evicted (set_need false s1)) else (0, s1))) = t_bps s).
      { destruct (t_need s1); cbn [snd]; [rewrite step_past_bps|]; reflexivity. }
      destruct (if t_need s1 then _ else _) as [c s2]. cbn [snd] in P.
      destruct (step_loop _ _ _ _ _ _ _ _) as [[[c' p] np] s3] eqn:E. apply step_loop_bps in E.
      destruct (reason_eqb _ _); [destruct p; [|discriminate]|]; injection HD as <- <-; destruct (negb _); cbn; congruence.
    - unfold run in HD. destruct (is_running _); [now injection HD as <- <-|].
      set (s2 := set_halted false _) in HD.
      assert (P : t_bps s2 = t_bps s).
      { unfold s2. destruct (t_need s); cbn [t_bps set_halted set_status]; [rewrite step_past_bps|]; reflexivity. }
      destruct (run_loop _ _ fuel None (t_pc s2) s2) as [[[p np] s3]|] eqn:E; [|discriminate]. apply run_loop_bps in E.
      destruct (reason_eqb _ _); [destruct p; [|discriminate]|]; injection HD as <- <-; cbn; congruence.
    - injection HD as HD. unfold halt in HD. destruct (t_status s); now injection HD as <- <-.
    - injection HD as <- <-. apply request_bps.
    - injection HD as HD. unfold set_breakpoint, guarded in HD. destruct (is_halted _); [|now injection HD as <- <-].
      destruct (has_bp a s); injection HD as <- <-; [reflexivity|].
      now destruct (breakpoint_ctl a (set_bps (a :: t_bps s) s)) as (_ & _ & _ & _ & _ & -> & _).
    - injection HD as HD. unfold clear_breakpoint, guarded in HD. destruct (is_halted _); [|now injection HD as <- <-].
      destruct (has_bp a s); injection HD as <- <-; [|reflexivity].
      now destruct (original_ctl a (set_bps (drop_bp a (t_bps s)) s)) as (_ & _ & _ & _ & _ & -> & _).
    - injection HD as HD. unfold clear_all, guarded in HD. destruct (is_halted _); injection HD as <- <-; [|reflexivity].
      destruct (fold_clear (t_bps s) s) as [_ ->]. apply fold_drop_nil.
    - injection HD as HD. unfold read_register, guarded in HD. destruct (is_halted _); [|now injection HD as <- <-].
      destruct (reg_id name); [destruct (size_ok _)|destruct (csr_id name)]; now injection HD as <- <-.
    - injection HD as HD. unfold write_register, guarded in HD. destruct (is_halted _); [|now injection HD as <- <-].
      destruct (reg_id name); [|destruct (csr_id name); now injection HD as <- <-].
      destruct (_ && _); destruct (size_ok _); injection HD as <- <-; try reflexivity; destruct (String.eqb _ _); reflexivity.
    - injection HD as HD. unfold read_memory, guarded in HD. destruct (is_halted _); [|now injection HD as <- <-].
      destruct (_ <? _); now injection HD as <- <-.
    - injection HD as HD. unfold write_memory, guarded in HD. destruct (is_halted _); [|now injection HD as <- <-].
      destruct (_ <? _); now injection HD as <- <-.
    - injection HD as HD. unfold disassembly, guarded in HD. destruct (is_halted _); [|now injection HD as <- <-].
      destruct (has_bp a s).
      + destruct (fetch_ctl a (write_original a s)) as (_ & _ & _ & _ & _ & F & _). destruct (fetch _ _ _) as [w s1]. cbn [snd] in F.
        injection HD as <- <-. destruct (breakpoint_ctl a s1) as (_ & _ & _ & _ & _ & -> & _).
        destruct (original_ctl a s) as (_ & _ & _ & _ & _ & O & _). congruence.
      + destruct (fetch_ctl a s) as (_ & _ & _ & _ & _ & F & _). destruct (fetch _ _ _) as [w s1]. cbn [snd] in F. injection HD as <- <-. exact F.
    - injection HD as HD. unfold load_image in HD. destruct file as [l|]; [|now injection HD as <- <-].
      destruct (load_chunks_keeps (S (length l)) l a s) as ((_ & _ & _ & _ & _ & T & _) & _). now rewrite HD in T.
  Qed.
  Lemma history_bps P s h s' : history P s h s' -> t_bps s' = fold_left (fun l cr => bps_of (fst cr) (snd cr) l) h (t_bps s).
  Proof.
    induction 1 as [|s c r s1 h s2 HP HD HH IH]; [reflexivity|]. cbn [fold_left fst snd]. rewrite IH, (call_bps c s s1 r HD). reflexivity.
  Qed.
End P.
