(** * A whole traced run *)
From Coq Require Import ZArith List Bool String Lia.
From Verif Require Import CInt TopModel TopSpec TopProofs TopProofs2 TopProofs3 TopCor TraceModel TraceSpec TraceProofs.
From Coq Require Import ZifyBool ZifyNat.
Import ListNotations.
Open Scope Z_scope.

Lemma varint_length n : forall v k, (0 < k)%nat -> 0 <= v < 128 ^ Z.of_nat k -> (length (varint n v) <= k)%nat.
Proof.
  induction n as [|n IH]; intros v k Hk Hv; cbn [varint]; [cbn; lia|]. destruct (v <? 128) eqn:E; [cbn; lia|].
  destruct k as [|[|k]]; [lia|change (128 ^ Z.of_nat 1) with 128 in Hv; lia|]. cbn [Datatypes.length].
  enough (length (varint n (v / 128)) <= S k)%nat by lia. apply IH; [lia|].
  rewrite Nat2Z.inj_succ, Z.pow_succ_r in Hv by lia. split; [apply Z.div_pos; lia|]. apply Z.div_lt_upper_bound; lia.
Qed.
Lemma put_length v : 0 <= v < 2 ^ 32 -> (1 <= length (put_varint v) <= 5)%nat.
Proof.
  intros H. split; [apply put_some|]. apply varint_length; [lia|]. change (128 ^ Z.of_nat 5) with (2 ^ 35). lia.
Qed.
Lemma room_pos l : 24 * Z.of_nat (length l) <= room l.
Proof.
  induction l as [|e l IH]; [reflexivity|]. cbn [room fold_right Datatypes.length]. fold (room l). unfold text_length. destruct (te_disasm e); lia.
Qed.
Lemma room_ok l : Forall in32 l -> room l <= 2 ^ 31 - 1 -> Z.of_nat (length (put_data l)) <= room l.
Proof.
  intros HF. induction HF as [|e l [H1 H2] HF IH]; intros HR; [cbn; lia|].
  unfold put_data. cbn [flat_map room fold_right]. fold (room l) (put_data l). cbn [room fold_right] in HR. fold (room l) in HR.
  pose proof (room_pos l) as RP. rewrite <- app_comm_cons. cbn [Datatypes.length]. rewrite !app_length.
  pose proof (put_length _ H1) as L1. pose proof (put_length _ H2) as L2.
  assert (TL : 0 <= text_length e) by (unfold text_length; destruct (te_disasm e); lia).
  assert (E : Z.of_nat (length (put_entry e)) <= 18 + text_length e).
  { unfold put_entry. cbn [Datatypes.length]. rewrite app_length. cbn [Datatypes.length]. rewrite app_length.
    unfold text_length in *. destruct (te_disasm e) as [t|]; [|cbn [Datatypes.length]; lia].
    cbn [Datatypes.length]. rewrite app_length. pose proof (put_length (Z.of_nat (length t)) ltac:(lia)). lia. }
  pose proof (put_length (Z.of_nat (length (put_entry e))) ltac:(lia)). lia.
Qed.
Lemma put_data_least l : 6 * Z.of_nat (length l) <= Z.of_nat (length (put_data l)).
Proof.
  induction l as [|e l IH]; [reflexivity|]. unfold put_data. cbn [flat_map]. fold (put_data l). rewrite <- app_comm_cons.
  cbn [Datatypes.length]. rewrite !app_length. unfold put_entry at 2. cbn [Datatypes.length]. rewrite app_length. cbn [Datatypes.length].
  rewrite app_length. pose proof (put_some (te_address e)). pose proof (put_some (te_opcode e)).
  pose proof (put_some (Z.of_nat (length (put_entry e)))). lia.
Qed.

Section P.
  Context {C : Type}.
  Notation arch := (arch (C := C)).
  Notation top := (top (C := C)).
  Notation mach := (mach (C := C)).
  Variable exec : Z -> Z -> arch -> (Z -> Z) -> effect (C := C).
  Variable evicted : Z -> Z -> bool.
  Variable disasm : Z -> Z -> list Z.
  Variable code : Z -> Prop.
  Variable m0 : mach.
  Hypothesis bytes0 : bytes_ok (m_mem m0).
  Notation clean := (clean exec code).
  Notation ref := (ref exec).
  Notation first_stop := (first_stop exec).
  Notation K := (K code m0).
  Notation Inv := (Inv code m0).
  Notation entries_of := (entries_of exec disasm).
  Notation ebreak_entry := (ebreak_entry disasm).

  Notation lists := (trace_of exec disasm).
  Definition left (fl : flags) (w w' : world) (l : list tentry) : Prop :=
    Forall in32 l /\ exists b w1, open_trace fl w = (b, w1) /\
      w' = if b then World (put_node (fl_path fl) (File (serialize l)) (w_fs w1)) (w_said w1) else w1.

  Lemma ref_add i d m : ref i (ref d m) = ref (i + d) m.
  Proof. induction i as [|i IH]; [reflexivity|]. cbn [TopSpec.ref Nat.add]. now rewrite IH. Qed.
  Lemma entries_from b m d n : entries_of b (ref d m) 0 n = entries_of b m d n.
  Proof.
    unfold TraceSpec.entries_of. revert d. induction n as [|n IH]; intros d; [reflexivity|]. cbn [seq map]. f_equal.
    rewrite <- IH. rewrite <- seq_shift, !map_map. apply map_ext. intros i. now rewrite !ref_add, Nat.add_succ_r.
  Qed.
  Lemma run_traced_ok fuel fl w m (s : top) r s' w' : Inv m s ->
    run_traced exec evicted disasm fuel fl w s = Some (Ok (r, s'), w') ->
    (forall i, Z.of_nat i < t_insts s' - t_insts s -> clean (ref i m)) ->
    exists n, r = ROk /\ Inv (ref n m) s' /\ t_bps s' = t_bps s /\
      (t_reason s <> RSwBreakpoint -> first_stop (t_bps s) m 0 n (t_reason s')) /\
      (t_reason s = RSwBreakpoint -> (1 <= n)%nat /\
         first_stop (t_bps s) (ref 1 m) 0 (n - 1) (t_reason s')) /\
      left fl w w' (lists (fl_disasm fl) m (reason_eqb (t_reason s) RSwBreakpoint) n (t_reason s')).
  Proof.
    intros HI HS HC. unfold run_traced in HS. rewrite (i_status _ _ _ _ HI) in HS. cbn [is_running] in HS.
    set (s1 := if t_need s then step_past exec evicted (set_need false s) else s) in *.
    set (s2 := set_halted false (set_status Running s1)) in *. cbv zeta in HS.
    destruct (open_trace fl w) as [opened w1] eqn:EO.
    destruct (traced_loop _ _ _ fuel fl None (t_pc s2) s2) as [[l [[p np] s3]]|] eqn:E; [|discriminate].
    assert (TI : t_insts s' = t_insts s3).
    { destruct (reason_eqb _ _); [destruct p; [|discriminate]|]; injection HS as <- <- _; reflexivity. }
    pose proof (traced_loop_same exec evicted disasm fuel fl None (t_pc s2) s2) as EL. rewrite E in EL. cbn [option_map snd] in EL. symmetry in EL.
    pose proof (run_loop_insts _ _ _ _ _ _ _ _ _ EL) as TL. clear EL. change (t_insts s2) with (t_insts s1) in TL.
    assert (ST : exists d, K (ref d m) s2 /\ t_need s2 = false /\ t_bps s2 = t_bps s /\
      t_insts s2 = t_insts s + Z.of_nat d /\ d = (if t_need s then 1 else 0)%nat).
    { unfold s2, s1 in *. destruct (t_need s) eqn:En.
      - pose proof (i_at _ _ _ _ HI En) as Hin.
        rewrite step_past_insts in TL. cbn [t_insts set_need] in TL.
        assert (KN : K m (set_need false s)) by (apply (K_flags _ _ _ s); [apply (i_K _ _ _ _ HI)|reflexivity..]).
        destruct (step_past_ok exec evicted code m0 bytes0 m (set_need false s) KN) as (k1 & k2 & k3 & k4 & k5 & k6);
          [apply (HC 0%nat); lia|exact Hin|].
        exists 1%nat. split; [|split; [exact k4|split; [exact k2|split; [cbn; exact k5|reflexivity]]]].
        eapply K_flags; [exact k1|reflexivity..].
      - exists 0%nat. split; [|split; [exact En|split; [reflexivity|split; [cbn; lia|reflexivity]]]].
        apply (K_flags _ _ _ s); [apply (i_K _ _ _ _ HI)|reflexivity..]. }
    destruct ST as (d & K2 & N2 & B2 & T2 & Ed). change (t_insts s2) with (t_insts s1) in T2.
    rewrite (k_pc _ _ _ _ K2) in E.
    destruct (traced_loop_ok exec evicted disasm code m0 bytes0 fuel fl (ref d m) s2 None l p np s3 E K2 eq_refl N2) as [F32 [j Hj]].
    { intros i Hi. rewrite ref_add. apply HC. change (t_insts s2) with (t_insts s1) in Hi. lia. }
    assert (Need : t_need s = true <-> t_reason s = RSwBreakpoint) by apply (i_need _ _ _ _ HI).
    assert (Dd : d = (if reason_eqb (t_reason s) RSwBreakpoint then 1 else 0)%nat).
    { rewrite Ed. destruct (reason_eqb (t_reason s) RSwBreakpoint) eqn:Q.
      - apply reason_eqb_eq in Q. apply Need in Q. now rewrite Q.
      - apply reason_eqb_neq in Q. now rewrite (Inv_need _ _ _ _ HI Q). }
    assert (FS : forall n r', first_stop (t_bps s) (ref d m) 0 n r' ->
      (t_reason s <> RSwBreakpoint -> first_stop (t_bps s) m 0 (n + d) r') /\
      (t_reason s = RSwBreakpoint -> (1 <= n + d)%nat /\ first_stop (t_bps s) (ref 1 m) 0 (n + d - 1) r')).
    { intros n r' H. clear Dd. destruct (t_need s) eqn:En; subst d.
      - split; [intros X; now destruct X; apply Need|]. intros _. split; [lia|]. replace (n + 1 - 1)%nat with n by lia. exact H.
      - split; [intros _; rewrite Nat.add_0_r; exact H|]. intros X. apply Need in X. discriminate. }
    destruct Hj as [[H EL]|[H EL]].
    - destruct H as (Q & b1 & b2 & b3 & b4 & b5 & b6 & b7 & b8 & b9). rewrite b6 in HS. cbn [reason_eqb] in HS. subst p.
      rewrite B2 in *. change (t_insts s2) with (t_insts s1) in *. injection HS as <- <- <-. cbn [t_insts set_status set_pc set_pcv] in *.
      exists (j + d)%nat. split; [reflexivity|]. rewrite ref_add in b1, b3 |- *.
      assert (RG : 0 <= m_pc (ref (j + d) m) < 2 ^ 32) by apply (k_range _ _ _ _ b3).
      split; [|split; [exact b4|]].
      + constructor; cbn.
        * apply (K_flags _ _ _ (set_pcv (m_pc (ref (j + d) m)) s3)); try reflexivity; [exact b3|]. cbn. now rewrite Z.mod_small.
        * reflexivity.
        * rewrite b6, b7. tauto.
        * intros _. rewrite b4, Z.mod_small by exact RG. exact b1.
      + assert (F : first_stop (t_bps s) (ref d m) 0 j (t_reason s3)).
        { rewrite b6. split; [intros i Hi; apply Q; lia|]. split; [intros i Hi; apply Q; lia|]. left.
          split; [reflexivity|]. rewrite ref_add. split; [exact b1|]. split; [lia|]. intros i Hi. now apply Q. }
        destruct (FS _ _ F) as [F1 F2]. split; [exact F1|]. split; [exact F2|].
        assert (EX : l = lists (fl_disasm fl) m (reason_eqb (t_reason s) RSwBreakpoint) (j + d) (t_reason s3)).
        { unfold trace_of. cbv zeta. rewrite <- Dd, b6. cbn [reason_eqb]. rewrite EL, entries_from, ref_add. replace (j + d - d)%nat with j by lia. reflexivity. }
        unfold t_reason at 2. unfold set_status, set_pc, set_pcv. cbn [t_reason]. rewrite <- EX. split; [exact F32|]. exists opened, w1. split; [exact EO|reflexivity].
    - destruct H as (Q & b1 & b2 & b3 & b4 & b5 & b6 & b7 & b8 & b9 & b10).
      rewrite B2 in *. change (t_insts s2) with (t_insts s1) in *.
      apply reason_eqb_neq in b9 as b9'. rewrite b9' in HS. injection HS as <- <- <-. cbn [t_insts set_status set_pc set_pcv] in *.
      exists (S j + d)%nat. split; [reflexivity|]. rewrite ref_add in b3.
      assert (RG : 0 <= m_pc (ref (S j + d) m) < 2 ^ 32) by apply (k_range _ _ _ _ b3).
      pose proof (k_pc _ _ _ _ b3) as EP. subst np.
      split; [|split; [exact b4|]].
      + constructor; cbn [t_status t_need t_reason set_status set_pc set_pcv t_pc t_bps].
        * apply (K_flags _ _ _ s3); try reflexivity; [exact b3|]. cbn [t_pc set_status set_pc set_pcv]. rewrite EP. now rewrite Z.mod_small.
        * reflexivity.
        * rewrite b6. split; [discriminate|contradiction].
        * rewrite b6. discriminate.
      + assert (F : first_stop (t_bps s) (ref d m) 0 (S j) (t_reason s3)).
        { split; [intros i Hi; destruct (Nat.eq_dec i j) as [-> |]; [exact b1|apply Q; lia]|]. split; [intros i Hi; apply Q; lia|]. right.
          split; [lia|]. replace (S j - 1)%nat with j by lia. exact b8. }
        destruct (FS _ _ F) as [F1 F2]. split; [exact F1|]. split; [exact F2|].
        assert (EX : l = lists (fl_disasm fl) m (reason_eqb (t_reason s) RSwBreakpoint) (S j + d) (t_reason s3)).
        { unfold trace_of. cbv zeta. rewrite <- Dd, b9', app_nil_r. rewrite EL, entries_from. replace (S j + d - d)%nat with (S j) by lia. reflexivity. }
        unfold t_reason at 2. unfold set_status, set_pc, set_pcv. cbn [t_reason]. rewrite <- EX. split; [exact F32|]. exists opened, w1. split; [exact EO|reflexivity].
  Qed.

  (** What the world looks like afterwards. *)
  Lemma left_ok fl w w' l : left fl w w' l ->
    (fl_trace fl = true -> usable (w_fs w) (fl_path fl) ->
       exists b, w_fs w' (fl_path fl) = Some (File b) /\ w_said w' = w_said w ++ [SDump (fl_path fl)] /\
         (room l <= 2 ^ 31 - 1 -> read_trace b = Some l) /\ (2 ^ 31 <= 6 * Z.of_nat (length l) -> b = []) /\
         (read_trace b = Some l \/ b = []) /\ Z.of_nat (length b) <= 2 ^ 31 - 1) /\
    (forall q, w_fs w q <> None -> w_fs w' q = w_fs w q \/
       (q = fl_path fl /\ fl_trace fl = true /\ usable (w_fs w) (fl_path fl))) /\
    (fl_trace fl = false -> w' = w).
  Proof.
    intros (F32 & b & w1 & EO & EW). destruct (open_trace_ok _ _ _ _ EO) as (U & O1 & O2 & SD & OFF).
    split; [|split].
    - intros T HU. assert (b = true) by now apply U. subst b w'. cbn [w_fs w_said]. rewrite put_at. eexists. split; [reflexivity|].
      split; [now apply SD|]. destruct (read_serialize l F32) as [R1 R2].
      split; [intros H; apply R1; pose proof (room_ok l F32 H); unfold int_max; lia|]. split; [intros H; apply R2; pose proof (put_data_least l); unfold int_max; lia|].
      destruct (Z.leb_spec (Z.of_nat (length (put_data l))) int_max) as [H|H].
      + split; [left; now apply R1|]. unfold serialize. cbv zeta. replace (int_max <? _) with false by lia. exact H.
      + rewrite (R2 H). split; [now right|cbn [length]; lia].
    - intros q Hq. destruct b.
      + destruct (list_eq_dec Z.eq_dec q (fl_path fl)) as [-> |N]; [right; split; [reflexivity|now apply U]|].
        left. subst w'. cbn [w_fs]. rewrite put_else by exact N. now apply O1.
      + left. subst w'. now apply O2.
    - intros T. destruct b; [destruct (proj1 U eq_refl); congruence|]. now rewrite EW, OFF.
  Qed.
End P.
