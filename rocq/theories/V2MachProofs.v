(** * Proofs for the V2 machine *)
From Coq Require Import ZArith List Bool String Lia ZifyBool ZifyNat.
From Verif Require Import CInt VecModel VecSpec MemModel V2DecTypes V2Table V2DecModel V2DecSpec V2Model V2Spec V2DecProofs V2DecProofs2 V1ScalModel V1ScalSpec.
From Verif Require Import TopModel MachModel RvSpec MachProofs2 MachProofs5 MachProofs6 V2MachModel V2MachSpec.
From Verif Require V2Proofs VecProofs.
Import ListNotations.
Open Scope string_scope.
Open Scope list_scope.
Open Scope Z_scope.

Lemma le_word m a : le m a 4 = word_in m a.
Proof. unfold word_in. cbn [le]. rewrite <- !Z.add_assoc. cbn [Z.add Pos.add Pos.succ]. lia. Qed.

(** ** The manual's table against the kinds *)
Definition unnamed {A} (l : list (string * A)) (m : ment) : bool := match lookup (m_name m) l with Some _ => false | None => true end.
Lemma split_manual (Q : ment -> Prop) : Forall Q (base ++ mul_div) -> Forall Q (zicsr ++ zbb ++ single ++ vconfig ++ vmem ++ vint ++ vmul) -> forall m, In m manual -> Q m.
Proof.
  intros A B m H. rewrite Forall_forall in A, B. unfold manual in H. rewrite !in_app_iff in *.
  destruct H as [H|[H|[H|H]]]; [apply A|apply B|apply A|apply B]; rewrite ?in_app_iff; tauto.
Qed.
Lemma named_none {A} (l : list (string * A)) Q ms : forallb (unnamed l) ms = true -> Forall (named l Q) ms.
Proof.
  intros H. apply Forall_forall. intros m Hm a Ha. pose proof (good_of _ _ _ H Hm) as K. unfold unnamed in K. now rewrite Ha in K.
Qed.
Ltac rows2 := unfold base, mul_div;
  repeat first [apply Forall_cons|apply Forall_nil|apply Forall_app; split];
    (let P := fresh in let HP := fresh in intros P HP; cbn in HP; first [discriminate HP|injection HP as <-]).
Lemma alu2 m P : In m manual -> lookup (m_name m) op_specs = Some P ->
  exists f k, kind_of_sem (m_sem m) = KAlu f /\ fine f P /\ m_src m = [V2DecSpec.KX 15; k] /\ (k = V2DecSpec.KX 20 \/ is_imm k) /\
    m_dst m = [DKX 7] /\ m_child m = None /\ m_nop m = rd0 /\ mem_fn (m_sem m) = None.
Proof.
  intros Hm. revert P. apply (split_manual (named op_specs (fun m P => exists f k, kind_of_sem (m_sem m) = KAlu f /\ fine f P /\ m_src m = [V2DecSpec.KX 15; k] /\ (k = V2DecSpec.KX 20 \/ is_imm k) /\
    m_dst m = [DKX 7] /\ m_child m = None /\ m_nop m = rd0 /\ mem_fn (m_sem m) = None))); [|apply named_none; vm_compute; reflexivity|exact Hm].
  rows2; row.
Qed.
Lemma branch2 m P : In m manual -> lookup (m_name m) branch_specs = Some P ->
  exists c, kind_of_sem (m_sem m) = KBranch c /\ fine_branch c P /\ m_src m = [V2DecSpec.KX 15; V2DecSpec.KX 20; Bimm] /\ m_dst m = [DKPc] /\ m_nop m = [] /\
    mem_fn (m_sem m) = None.
Proof.
  intros Hm. revert P. apply (split_manual (named branch_specs (fun m P => exists c, kind_of_sem (m_sem m) = KBranch c /\ fine_branch c P /\
    m_src m = [V2DecSpec.KX 15; V2DecSpec.KX 20; Bimm] /\ m_dst m = [DKPc] /\ m_nop m = [] /\ mem_fn (m_sem m) = None))); [|apply named_none; vm_compute; reflexivity|exact Hm].
  rows2; (eexists; split; [reflexivity|]; split; [|auto]); intros x y; cbv beta.
  - exact (Z.eqb_eq x y).
  - change (negb (x =? y) = true <-> x <> y). rewrite negb_true_iff. apply Z.eqb_neq.
  - change ((s32 x <? s32 y) = true <-> (forall s t, signed x s -> signed y t -> s < t)). rewrite <- (on_s32 Z.lt). apply Z.ltb_lt.
  - change ((s32 y <=? s32 x) = true <-> (forall s t, signed x s -> signed y t -> t <= s)). rewrite <- (on_s32 (fun s t => t <= s)). apply Z.leb_le.
  - exact (Z.ltb_lt x y).
  - exact (Z.leb_le y x).
Qed.
Lemma jump2 m t : In m manual -> lookup (m_name m) jumps = Some t ->
  let '(k, s, o, n) := t in kind_of_sem (m_sem m) = k /\ m_src m = s /\ m_dst m = o /\ m_nop m = n /\ mem_fn (m_sem m) = None.
Proof.
  intros Hm. revert t. apply (split_manual (named jumps (fun m t => let '(k, s, o, n) := t in kind_of_sem (m_sem m) = k /\ m_src m = s /\ m_dst m = o /\ m_nop m = n /\
    mem_fn (m_sem m) = None))); [|apply named_none; vm_compute; reflexivity|exact Hm].
  rows2; auto.
Qed.
Definition v2loads : list (string * v2mem) := [("lb", Lb); ("lh", Lh); ("lw", Lw); ("lbu", Lbu); ("lhu", Lhu); ("flw", Lw)].
Definition v2stores : list (string * v2mem) := [("sb", Sb); ("sh", Sh); ("sw", Sw); ("fsw", Fsw)].
Lemma load2 m i : In m manual -> lookup (m_name m) v2loads = Some i ->
  mem_fn (m_sem m) = Some i /\ m_src m = [V2DecSpec.KX 15; Iimm] /\ m_child m = Some ([], [if String.eqb (m_name m) "flw" then DKF 7 else DKX 7]) /\ m_nop m = [].
Proof.
  intros Hm. revert i. 
  assert (E : manual = (base ++ zicsr ++ mul_div ++ zbb) ++ single ++ (vconfig ++ vmem ++ vint ++ vmul)) by (unfold manual; now rewrite !app_assoc).
  assert (A : Forall (named v2loads (fun m i => mem_fn (m_sem m) = Some i /\ m_src m = [V2DecSpec.KX 15; Iimm] /\
    m_child m = Some ([], [if String.eqb (m_name m) "flw" then DKF 7 else DKX 7]) /\ m_nop m = [])) manual).
  2: { rewrite Forall_forall in A. exact (A m Hm). }
  rewrite E. apply Forall_app. split; [|apply Forall_app; split; [|apply named_none; vm_compute; reflexivity]].
  - apply Forall_app. split; [|apply named_none; vm_compute; reflexivity].
    unfold base. repeat first [apply Forall_cons|apply Forall_nil]; (intros P HP; cbn in HP; first [discriminate HP|injection HP as <-]); auto.
  - unfold single. repeat first [apply Forall_cons|apply Forall_nil]; (intros P HP; cbn in HP; first [discriminate HP|injection HP as <-]); auto.
Qed.
Lemma store2 m i : In m manual -> lookup (m_name m) v2stores = Some i ->
  mem_fn (m_sem m) = Some i /\ m_src m = [V2DecSpec.KX 15; Simm; if String.eqb (m_name m) "fsw" then KF 20 else V2DecSpec.KX 20] /\ m_child m = None /\ m_nop m = [].
Proof.
  intros Hm. revert i. 
  assert (E : manual = (base ++ zicsr ++ mul_div ++ zbb) ++ single ++ (vconfig ++ vmem ++ vint ++ vmul)) by (unfold manual; now rewrite !app_assoc).
  assert (A : Forall (named v2stores (fun m i => mem_fn (m_sem m) = Some i /\ m_src m = [V2DecSpec.KX 15; Simm; if String.eqb (m_name m) "fsw" then KF 20 else V2DecSpec.KX 20] /\
    m_child m = None /\ m_nop m = [])) manual).
  2: { rewrite Forall_forall in A. exact (A m Hm). }
  rewrite E. apply Forall_app. split; [|apply Forall_app; split; [|apply named_none; vm_compute; reflexivity]].
  - apply Forall_app. split; [|apply named_none; vm_compute; reflexivity].
    unfold base. repeat first [apply Forall_cons|apply Forall_nil]; (intros P HP; cbn in HP; first [discriminate HP|injection HP as <-]); auto.
  - unfold single. repeat first [apply Forall_cons|apply Forall_nil]; (intros P HP; cbn in HP; first [discriminate HP|injection HP as <-]); auto.
Qed.

(** ** Vector loads and stores are words of two major opcodes *)
Lemma vmem_rows : forallb (fun e => implb (is_vmem (e2_sem e))
  (implies (rsig e) ([(0, 7, 7)], [(12, 3, 2)]) || implies (rsig e) ([(0, 7, 39)], [(12, 3, 2)]))) all2 = true.
Proof. vm_compute. reflexivity. Qed.
Lemma vmem_word d w c : decoder2_ok d -> decode2 d w = Some c -> is_vmem (a_sem c) = true -> ~ plain w.
Proof.
  intros Hd H V P. unfold decode2 in H. pose proof (Hd w) as K. destruct (d w) as [e|]; [|discriminate]. cbn [option_map] in H. injection H as <-.
  destruct K as [Hi Hm]. pose proof (good_of _ _ _ vmem_rows Hi) as G. cbv beta in G. change (a_sem (act_of e w)) with (e2_sem e) in V. rewrite V in G. cbn [implb] in G.
  pose proof (rsig_sound w e Hi Hm) as M. apply orb_true_iff in G.
  destruct G as [G|G]; apply (implies_sound w _ _ G) in M; destruct M as [M1 M2];
    pose proof (M1 _ _ _ (or_introl eq_refl)) as A; pose proof (M2 _ _ _ (or_introl eq_refl)) as B; apply B, P; [left|right]; exact A.
Qed.

Section V2.
  Context {C : Type}.
  Notation arch := (arch (C := C)).
  Variable d : decoder2.
  Variable trap : Z -> Z -> C -> C * Z.
  Variable other : act -> Z -> arch -> arch * Z.
  Variable vmem : act -> v2st C -> v2st C.
  Variable box : Z -> Z.
  Variable start len : Z.
  Variable ranges : list range.
  Notation step := (step2 d trap other vmem box start len ranges).
  Notation run := (run2 d trap other vmem box start len ranges).
  Notation execw w s := (match exec_mem2 (perform2 box) (trap2 trap) d (a_regs (v_arch s)) ranges (v_pc s) w s with
    | Some s' => s'
    | None => match decode2 d w with Some c => exec_act2 other vmem box c s | None => trap2 trap 2 (v_pc s) s end
    end).

  Lemma step_in s : itcm_ok start len -> inside start len (v_pc s) -> step s = execw (word_in (v_mem s) (v_pc s)) s.
  Proof.
    intros (H1 & H2 & H3) [H4 H5]. unfold step2. rewrite V2Proofs.itcm_exact by lia.
    replace ((start <=? v_pc s) && (v_pc s + 4 <=? start + len)) with true by lia. now rewrite le_word.
  Qed.
  Lemma step_out s : itcm_ok start len -> 0 <= v_pc s < 2 ^ 32 -> ~ inside start len (v_pc s) -> step s = trap2 trap 1 (v_pc s) s.
  Proof.
    intros (H1 & H2 & H3) Hp H4. unfold step2. rewrite V2Proofs.itcm_exact by lia. unfold inside in H4.
    now replace ((start <=? v_pc s) && (v_pc s + 4 <=? start + len)) with false by lia.
  Qed.
  Lemma step_illegal s : itcm_ok start len -> inside start len (v_pc s) -> decode2 d (word_in (v_mem s) (v_pc s)) = None -> step s = trap2 trap 2 (v_pc s) s.
  Proof. intros Hi Hp H. rewrite step_in by assumption. unfold exec_mem2. now rewrite H. Qed.

  Lemma decoded m w : decoder2_ok d -> proper2 m w -> exists c, decode2 d w = Some c /\ does m w c.
  Proof.
    intros Hd (Hi & Hp & Hh). destruct (manual_decodes d w m Hd Hi Hp) as [(c & A & B)|(_ & p & A & B)]; [eauto|]. now destruct (Hh p A).
  Qed.
  Lemma exec_proper2 m s : decoder2_ok d -> itcm_ok start len -> inside start len (v_pc s) -> proper2 m (word_in (v_mem s) (v_pc s)) -> mem_fn (m_sem m) = None ->
    exists c, does m (word_in (v_mem s) (v_pc s)) c /\ step s = exec_act2 other vmem box c s.
  Proof.
    intros Hd Hi Hn Hp Hm. destruct (decoded m _ Hd Hp) as (c & Hc & Hdo). exists c. split; [exact Hdo|]. rewrite step_in by assumption.
    assert (E : mem_fn (a_sem c) = None). { destruct Hdo as [(-> & _)|(-> & _)]; [exact Hm|reflexivity]. }
    unfold exec_mem2. rewrite Hc, E. reflexivity.
  Qed.
  Lemma set2_writes w r v (x : arch) (Q : Z -> Prop) : dest_is (DKX 7) w r -> Q (u32 v) -> writes (rd w) Q x (set2 box r v x) /\ a_csr (set2 box r v x) = a_csr x.
  Proof.
    intros Hr HQ. cbn [dest_is] in Hr. fold (rd w) in Hr. pose proof (rd_range w). split; [split|].
    - intros i Hi N. subst r. destruct (rd w =? 0) eqn:E; cbn [set2 a_regs]; unfold upd.
      + now replace (i =? -1) with false by lia.
      + now replace (i =? rd w) with false by lia.
    - intros N. subst r. replace (rd w =? 0) with false by lia. cbn [set2 a_regs]. unfold upd. rewrite Z.eqb_refl.
      split; [apply u32_range|exact HQ].
    - subst r. now destruct (rd w =? 0).
  Qed.
  Lemma same2_writes w (x : arch) (Q : Z -> Prop) : rd w = 0 -> writes (rd w) Q x x.
  Proof. intros H. split; [intros; reflexivity|]. intros N. now destruct N. Qed.

  Theorem v2_op m s P x y : let w := word_in (v_mem s) (v_pc s) in
    decoder2_ok d -> itcm_ok start len -> inside start len (v_pc s) -> proper2 m w -> lookup (m_name m) op_specs = Some P -> values m w (a_regs (v_arch s)) [x; y] ->
    let t := step s in
    v_mem t = v_mem s /\ v_pc t = (v_pc s + 4) mod 2 ^ 32 /\ a_csr (v_arch t) = a_csr (v_arch s) /\
    writes (rd w) (P (x mod 2 ^ 32) (y mod 2 ^ 32)) (v_arch s) (v_arch t).
  Proof.
    intros w Hd Hi Hn Hp HP HV t. destruct (alu2 m P (proj1 Hp) HP) as (g & k & Ek & Hf & Es & Hk & Ed & Ec & En & Em).
    destruct (exec_proper2 m s Hd Hi Hn Hp Em) as (c & Hdo & E). fold w in Hdo. unfold t. rewrite E. clear t E.
    destruct (nop_act m w c Hdo) as [(S1 & S2 & S3 & S4)|(S1 & l & S2 & S3)]; [rewrite Ek; discriminate| |].
    - unfold values in HV. rewrite Es in *. rewrite Ed in S3. unfold list_is in *. inversion S2 as [|? p ? r1 Hp1 O1 E1 E2]; subst. inversion O1 as [|? q ? r2 Hq O2 E1 E3]; subst. inversion O2; subst.
      inversion S3 as [|? r ? r3 Hr O3 E1 E4]; subst. inversion O3; subst.
      inversion HV as [|? ? ? ? V1 V2]; subst. inversion V2 as [|? ? ? ? V3 _]; subst.
      unfold exec_act2. cbv zeta. rewrite kind_sem, S1, Ek, <- E2, <- E4. change value2 with value1.
      rewrite (value_ok (V2DecSpec.KX 15) w (a_regs (v_arch s)) x p), (value_ok k w (a_regs (v_arch s)) y q) by tauto.
      cbn [next2 v_mem v_pc v_arch]. split; [reflexivity|]. split; [reflexivity|].
      destruct (set2_writes w r (g (u32 x) (u32 y)) (v_arch s) (P (x mod 2 ^ 32) (y mod 2 ^ 32)) Hr) as [A B]; [apply Hf; apply u32_range|]. split; assumption.
    - rewrite En in S2. destruct S2 as [<-|[]]. specialize (S3 7 5 0 (or_introl eq_refl)).
      unfold exec_act2. cbv zeta. rewrite S1. cbn [next2 v_mem v_pc v_arch]. split; [reflexivity|]. split; [reflexivity|]. split; [reflexivity|].
      apply same2_writes. exact S3.
  Qed.
  Theorem v2_branch m s P x y i : let w := word_in (v_mem s) (v_pc s) in
    decoder2_ok d -> itcm_ok start len -> inside start len (v_pc s) -> proper2 m w -> lookup (m_name m) branch_specs = Some P -> values m w (a_regs (v_arch s)) [x; y; i] ->
    let t := step s in
    v_mem t = v_mem s /\ v_arch t = v_arch s /\
    (P (x mod 2 ^ 32) (y mod 2 ^ 32) -> v_pc t = (v_pc s + i) mod 2 ^ 32) /\ (~ P (x mod 2 ^ 32) (y mod 2 ^ 32) -> v_pc t = (v_pc s + 4) mod 2 ^ 32).
  Proof.
    intros w Hd Hi Hn Hp HP HV t. destruct (branch2 m P (proj1 Hp) HP) as (g & Ek & Hf & Es & Ed & En & Em).
    destruct (exec_proper2 m s Hd Hi Hn Hp Em) as (c & Hdo & E). fold w in Hdo. unfold t. rewrite E. clear t E.
    destruct (nop_act m w c Hdo) as [(S1 & S2 & S3 & S4)|(S1 & l & S2 & S3)]; [rewrite Ek; discriminate| |rewrite En in S2; destruct S2].
    unfold values in HV. rewrite Es in *. rewrite Ed in S3. unfold list_is in *.
    inversion S2 as [|? p ? r1 Hp1 O1 E1 E2]; subst. inversion O1 as [|? q ? r2 Hq O2 E1 E3]; subst. inversion O2 as [|? o ? r3 Ho O3 E1 E5]; subst. inversion O3; subst.
    inversion S3 as [|? r ? r4 Hr O4 E1 E4]; subst. inversion O4; subst.
    inversion HV as [|? ? ? ? V1 V2]; subst. inversion V2 as [|? ? ? ? V3 V4]; subst. inversion V4 as [|? ? ? ? V5 _]; subst.
    unfold exec_act2. cbv zeta. rewrite kind_sem, S1, Ek, <- E2, <- E4. change value2 with value1.
    rewrite (value_ok (V2DecSpec.KX 15) w (a_regs (v_arch s)) x p), (value_ok (V2DecSpec.KX 20) w (a_regs (v_arch s)) y q), (value_ok Bimm w (a_regs (v_arch s)) i o) by (unfold is_imm, imms; cbn [In]; tauto).
    cbn [v_mem v_pc v_arch]. split; [reflexivity|]. split; [reflexivity|].
    change (x mod 2 ^ 32) with (u32 x). change (y mod 2 ^ 32) with (u32 y). specialize (Hf (u32 x) (u32 y)). split; intros H.
    - apply Hf in H. rewrite H. unfold u32. rewrite Zplus_mod_idemp_r. reflexivity.
    - destruct (g (u32 x) (u32 y)); [|reflexivity]. destruct H. now apply Hf.
  Qed.
  Lemma set2_csr r v (x : arch) : a_csr (set2 box r v x) = a_csr x.
  Proof. now destruct r. Qed.
  Lemma set2_wr w r v (x : arch) (Q : Z -> Prop) : dest_is (DKX 7) w r -> Q (u32 v) -> writes (rd w) Q x (set2 box r v x).
  Proof. intros A B. exact (proj1 (set2_writes w r v x Q A B)). Qed.
  Theorem v2_jump m s vs : let w := word_in (v_mem s) (v_pc s) in let a := v_pc s in
    decoder2_ok d -> itcm_ok start len -> inside start len a -> proper2 m w -> values m w (a_regs (v_arch s)) vs ->
    forall v pc, In (m_name m, v, pc) (match vs with
      | [i] => [("jal", a + 4, a + i); ("lui", i, a + 4); ("auipc", a + i, a + 4)]
      | [x; i] => [("jalr", a + 4, (x + i) - (x + i) mod 2)]
      | _ => [] end) ->
    let t := step s in
    v_mem t = v_mem s /\ a_csr (v_arch t) = a_csr (v_arch s) /\ v_pc t = pc mod 2 ^ 32 /\ writes (rd w) (fun r => RvSpec.low r v) (v_arch s) (v_arch t).
  Proof.
    intros w a Hd Hi Hin0 Hp HV v pc Hin f. subst a.
    assert (Hn : exists k ks ds nl, lookup (m_name m) jumps = Some (k, ks, ds, nl)).
    { destruct vs as [|v1 [|v2 [|v3 vs]]]; cbn [In] in Hin; try (now destruct Hin).
      - destruct Hin as [H|[H|[H|[]]]]; apply (f_equal (fun t => fst (fst t))) in H; cbn [fst] in H; rewrite <- H; cbn; eauto.
      - destruct Hin as [H|[]]; apply (f_equal (fun t => fst (fst t))) in H; cbn [fst] in H; rewrite <- H; cbn; eauto. }
    destruct Hn as (k & ks & ds & nl & Hn). destruct (jump2 m _ (proj1 Hp) Hn) as (Ek & Es & Ed & En & Em).
    assert (Hk : kind_of_sem (m_sem m) <> KSys).
    { rewrite Ek. clear - Hn. unfold jumps in Hn. cbn [lookup] in Hn.
      repeat (match type of Hn with (if ?b then _ else _) = _ => destruct b end; [injection Hn as <- <- <- <-; discriminate|]). discriminate. }
    destruct (exec_proper2 m s Hd Hi Hin0 Hp Em) as (c & Hdo & E). fold w in Hdo. unfold f. rewrite E. clear f E.
    destruct (nop_act m w c Hdo Hk) as [(S1 & S2 & S3 & S4)|(S1 & l & S2 & S3)].
    - unfold values in HV. rewrite Es in *. rewrite Ed in S3. unfold list_is in *.
      assert (C1 : kind_of_sem (a_sem c) = k) by now rewrite S1.
      destruct vs as [|v1 [|v2 [|v3 vs]]]; cbn [In] in Hin; try (now destruct Hin).
      + destruct Hin as [H|[H|[H|[]]]]; injection H as Hm <- <-; rewrite <- Hm in Hn; cbn in Hn; injection Hn as <- <- <- <-;
        inversion S2 as [|? p ? r1 Hp1 O1 E1 E2]; subst; inversion O1; subst; inversion HV as [|? ? ? ? V1 V2]; subst.
        * inversion S3 as [|? r ? r4 Hr O4 E1 E4]; subst. inversion O4 as [|? r' ? r5 Hr' O5 E1 E5]; subst. inversion O5; subst.
          unfold exec_act2. cbv zeta. rewrite kind_sem, C1, <- E2, <- E4. change value2 with value1. rewrite (value_ok Jimm w (a_regs (v_arch s)) v1 p) by (unfold is_imm, imms; cbn [In]; tauto).
          cbn [v_mem v_pc v_arch]. split; [reflexivity|]. split; [apply set2_csr|]. split; [unfold u32; now rewrite Zplus_mod_idemp_r|].
          apply set2_wr; [exact Hr'|apply u32_low].
        * inversion S3 as [|? r ? r4 Hr O4 E1 E4]; subst. inversion O4; subst.
          unfold exec_act2. cbv zeta. rewrite kind_sem, C1, <- E2, <- E4. change value2 with value1. rewrite (value_ok Uimm w (a_regs (v_arch s)) v1 p) by (unfold is_imm, imms; cbn [In]; tauto).
          cbn [next2 v_mem v_pc v_arch]. split; [reflexivity|]. split; [apply set2_csr|]. split; [reflexivity|].
          apply set2_wr; [exact Hr|]. unfold RvSpec.low, u32. rewrite Z.mod_mod by lia. apply u32_low.
        * inversion S3 as [|? r ? r4 Hr O4 E1 E4]; subst. inversion O4; subst.
          unfold exec_act2. cbv zeta. rewrite kind_sem, C1, <- E2, <- E4. change value2 with value1. rewrite (value_ok Uimm w (a_regs (v_arch s)) v1 p) by (unfold is_imm, imms; cbn [In]; tauto).
          cbn [next2 v_mem v_pc v_arch]. split; [reflexivity|]. split; [apply set2_csr|]. split; [reflexivity|].
          apply set2_wr; [exact Hr|]. replace (u32 (v_pc s + u32 v1)) with (u32 (v_pc s + v1)) by (unfold u32; now rewrite Zplus_mod_idemp_r). apply u32_low.
      + destruct Hin as [H|[]]; injection H as Hm <- <-; rewrite <- Hm in Hn; cbn in Hn; injection Hn as <- <- <- <-.
        inversion S2 as [|? p ? r1 Hp1 O1 E1 E2]; subst; inversion O1 as [|? q ? r2 Hq O2 E1 E3]; subst; inversion O2; subst.
        inversion HV as [|? ? ? ? V1 V2]; subst. inversion V2 as [|? ? ? ? V3 _]; subst.
        inversion S3 as [|? r ? r4 Hr O4 E1 E4]; subst. inversion O4 as [|? r' ? r5 Hr' O5 E1 E5]; subst. inversion O5; subst.
        unfold exec_act2. cbv zeta. rewrite kind_sem, C1, <- E2, <- E4. change value2 with value1.
        rewrite (value_ok (V2DecSpec.KX 15) w (a_regs (v_arch s)) v1 p), (value_ok Iimm w (a_regs (v_arch s)) v2 q) by (unfold is_imm, imms; cbn [In]; tauto).
        cbn [v_mem v_pc v_arch]. split; [reflexivity|]. split; [apply set2_csr|]. split.
        * replace (u32 (u32 v1 + u32 v2)) with (u32 (v1 + v2)) by (unfold u32; now rewrite Zplus_mod).
          generalize (v1 + v2) as t. intros t. clear. change (2 ^ 32 - 2) with (Z.lnot 1 mod 2 ^ 32).
          unfold u32. apply Z.bits_inj'. intros i Hi. rewrite Z.land_spec.
          replace (t - t mod 2) with (2 * (t / 2)) by (pose proof (Z_div_mod_eq_full t 2); lia).
          destruct (Z.lt_ge_cases i 32) as [L|L].
          { rewrite !Z.mod_pow2_bits_low by lia. rewrite Z.lnot_spec by lia. rewrite <- (Z.shiftl_mul_pow2 (t / 2) 1) || rewrite (Z.mul_comm 2).
            change 2 with (2 ^ 1). rewrite <- Z.shiftl_mul_pow2, <- Z.shiftr_div_pow2 by lia. rewrite Z.shiftl_spec by lia.
            destruct (Z.eq_dec i 0) as [->|N].
            - cbn. now rewrite andb_false_r.
            - rewrite Z.shiftr_spec by lia. replace (i - 1 + 1) with i by lia. replace (Z.testbit 1 i) with false; [apply andb_true_r|].
              symmetry. rewrite <- (Z.mod_small 1 (2 ^ 1)) by lia. apply Z.mod_pow2_bits_high. lia. }
          { rewrite !Z.mod_pow2_bits_high by lia. reflexivity. }
        * apply set2_wr; [exact Hr'|apply u32_low].
    - (* nop *)
      rewrite En in S2. assert (Hl : l = [(7, 5, 0)] /\ In (m_name m) ["lui"; "auipc"]).
      { clear - Hn S2. unfold jumps in Hn. cbn [lookup] in Hn.
        repeat (match type of Hn with (if String.eqb ?x ?y then _ else _) = _ => destruct (String.eqb_spec x y) as [E|_] end;
          [injection Hn as <- <- <- <-; unfold rd0 in S2; cbn [In] in S2; first [destruct S2; fail|destruct S2 as [<-|[]]; rewrite E; cbn [In]; auto]|]).
        discriminate. }
      destruct Hl as [-> Hnm]. specialize (S3 7 5 0 (or_introl eq_refl)).
      unfold exec_act2. cbv zeta. rewrite S1. cbn [next2 v_mem v_pc v_arch]. split; [reflexivity|]. split; [reflexivity|].
      split; [|now apply same2_writes].
      destruct vs as [|v1 [|v2 [|v3 vs]]]; cbn [In] in Hin; try (now destruct Hin).
      + destruct Hin as [H|[H|[H|[]]]]; injection H as Hm <- <-; try reflexivity. rewrite <- Hm in Hnm. cbn [In] in Hnm. destruct Hnm as [H|[H|[]]]; discriminate.
      + destruct Hin as [H|[]]; injection H as Hm <- <-. rewrite <- Hm in Hnm. cbn [In] in Hnm. destruct Hnm as [H|[H|[]]]; discriminate.
  Qed.
  Lemma trap2_traps code s : traps trap code s (trap2 trap code (v_pc s) s).
  Proof. unfold trap2, traps. destruct (trap code (v_pc s) (a_csr (v_arch s))) as [c p]. cbn [v_mem v_pc v_arch a_regs a_csr]. split; [reflexivity|]. split; [reflexivity|]. exists p. split; reflexivity. Qed.
  Lemma exec_memory m i s k1 k2 ks : let w := word_in (v_mem s) (v_pc s) in
    decoder2_ok d -> itcm_ok start len -> inside start len (v_pc s) -> proper2 m w ->
    mem_fn (m_sem m) = Some i -> m_nop m = [] -> m_src m = k1 :: k2 :: ks ->
    exists b o r t, operand_is k1 w b /\ operand_is k2 w o /\ list_is operand_is w ks r /\
      match m_child m with None => t = [] | Some (_, kt) => list_is dest_is w kt t end /\
      step s = v2_exec (fun j => perform2 box j r t) (trap2 trap) i ranges (v_pc s) (value2 (a_regs (v_arch s)) b) (value2 (a_regs (v_arch s)) o) s.
  Proof.
    intros w Hd Hi Hn Hp Hm Hnop Hs. destruct (decoded m w Hd Hp) as (c & Hc & Hdo). rewrite step_in by assumption. fold w. unfold exec_mem2. rewrite Hc.
    destruct Hdo as [(S1 & S2 & S3 & S4)|(_ & _ & l & Hl & _)]; [|rewrite Hnop in Hl; destruct Hl]. rewrite S1, Hm. rewrite Hs in S2. unfold list_is in *.
    inversion S2 as [|? b ? r1 Hb O1 E1 E2]; subst. inversion O1 as [|? o ? r2 Ho O2 E1 E3]; subst.
    exists b, o, r2, (match a_child c with Some (_, t) => t | None => [] end).
    split; [exact Hb|]. split; [exact Ho|]. split; [exact O2|]. split; [|reflexivity].
    destruct (m_child m) as [[? ?]|], (a_child c) as [[? ?]|]; [exact (proj2 S4)|destruct S4|destruct S4|reflexivity].
  Qed.
  (** The access check, then the access or the fault. *)
  Lemma access i s (act : v2mem -> Z -> v2st C -> v2st C) b o :
    let a := (b + o) mod 2 ^ 32 in V2Spec.low ranges -> a + check_size i < 2 ^ 32 ->
    (contained ranges a (check_size i) -> v2_exec act (trap2 trap) i ranges (v_pc s) b o s = act i a s) /\
    (~ contained ranges a (check_size i) -> v2_exec act (trap2 trap) i ranges (v_pc s) b o s = trap2 trap (fault_code i) (v_pc s) s).
  Proof.
    intros a Hl Hb. unfold v2_exec. cbv zeta. rewrite V2Proofs.addr_eq. fold a.
    assert (Ha : 0 <= a) by (apply Z.mod_pos_bound; lia). pose proof (V2Proofs.check_size_pos i) as Hc.
    pose proof (V2Proofs.lsu_exact ranges a (check_size i) Hl Ha ltac:(lia) Hb) as [H1 H2]. split; intro H.
    - now rewrite (H2 H).
    - destruct (lsu_valid ranges a (check_size i)) eqn:E; [destruct (H (H1 eq_refl))|]. reflexivity.
  Qed.
  Theorem v2_load m s T x i : let w := word_in (v_mem s) (v_pc s) in let at_ := (x + i) mod 2 ^ 32 in
    decoder2_ok d -> itcm_ok start len -> inside start len (v_pc s) -> proper2 m w -> lookup (m_name m) load_specs = Some T -> values m w (a_regs (v_arch s)) [x; i] ->
    (forall b, 0 <= v_mem s b < 256) -> V2Spec.low ranges -> at_ + bits T / 8 < 2 ^ 32 ->
    let t := step s in
    (contained ranges at_ (bits T / 8) -> v_mem t = v_mem s /\ goes_on s t /\ writes (rd w) (reads T (v_mem s) at_) (v_arch s) (v_arch t)) /\
    (~ contained ranges at_ (bits T / 8) -> traps trap 5 s t).
  Proof.
    intros w A Hd Hi Hn Hp HP HV Hm Hl Hb t.
    assert (HT : exists j, lookup (m_name m) v2loads = Some j /\ ty_of j = T /\ check_size j = bits T / 8 /\ fault_code j = 5 /\ is_st j = false /\ In T [I8; I16; I32; U8; U16] /\ String.eqb (m_name m) "flw" = false).
    { clear - HP. unfold load_specs in HP. cbn [lookup] in HP.
      repeat (match type of HP with (if String.eqb ?x ?y then _ else _) = _ => destruct (String.eqb_spec x y) as [E|_] end;
        [injection HP as <-; rewrite E; cbn; eexists; split; [reflexivity|]; cbn; tauto|]). discriminate. }
    destruct HT as (j & Hj & ET & Ec & Ef & Est & HT & Hf). destruct (load2 m j (proj1 Hp) Hj) as (E1 & E2 & E3 & E4). rewrite Hf in E3.
    destruct (exec_memory m j s _ _ _ Hd Hi Hn Hp E1 E4 E2) as (b & o & r & tt & Ob & Oo & Or & Ot & E). fold w in Ob, Oo, Or, Ot. rewrite E3 in Ot.
    unfold values in HV. rewrite E2 in HV. inversion HV as [|? ? ? ? V1 V2]; subst. inversion V2 as [|? ? ? ? V3 _]; subst.
    unfold list_is in Ot. inversion Ot as [|? dd ? ? Hdd Ot']; subst. inversion Ot'; subst.
    change value2 with value1 in E.
    rewrite (value_ok (V2DecSpec.KX 15) w (a_regs (v_arch s)) x b), (value_ok Iimm w (a_regs (v_arch s)) i o) in E by (first [assumption|unfold is_imm, imms; cbn [In]; tauto]).
    destruct (access j s (fun j => perform2 box j r [dd]) x i Hl) as [A1 A2]; [rewrite Ec; exact Hb|]. fold A in A1, A2. rewrite Ec, <- E in A1, A2. rewrite Ef in A2.
    split; intros H.
    - unfold t. rewrite (A1 H). unfold perform2. rewrite Est. unfold goes_on. cbn [next2 v_mem v_pc v_arch]. split; [reflexivity|]. split; [split; [reflexivity|apply set2_csr]|].
      apply set2_wr; [exact Hdd|]. now apply mem_get_reads.
    - unfold t. rewrite (A2 H). apply trap2_traps.
  Qed.
  Lemma put_writes T a y m : In T [U8; U16; U32] -> writes_mem T a y m (mem_put T m a (wrap T y)).
  Proof.
    intros HT. unfold writes_mem, mem_put. assert (B : bits T / 8 = sizeof T) by (cbn [In] in HT; destruct HT as [<-|[<-|[<-|[]]]]; reflexivity). rewrite B.
    assert (M : wrap T y = y mod 256 ^ sizeof T) by (cbn [In] in HT; destruct HT as [<-|[<-|[<-|[]]]]; reflexivity). rewrite M.
    assert (P : 0 < sizeof T) by (cbn [In] in HT; destruct HT as [<-|[<-|[<-|[]]]]; reflexivity). clear - P. split.
    - intros j Hj. replace ((a <=? a + j) && (a + j <? a + sizeof T)) with true by lia. replace (a + j - a) with j by lia.
      rewrite (Z.mod_eq y (256 ^ sizeof T)) by (apply Z.pow_nonzero; lia).
      replace (256 ^ sizeof T) with (256 ^ (sizeof T - j - 1) * 256 * 256 ^ j) at 1.
      2: { transitivity (256 ^ ((sizeof T - j - 1) + 1 + j)); [|f_equal; lia]. rewrite !Z.pow_add_r by lia. reflexivity. }
      set (k := y / _). replace (y - 256 ^ (sizeof T - j - 1) * 256 * 256 ^ j * k) with (y + (- (256 ^ (sizeof T - j - 1) * k) * 256) * 256 ^ j) by ring.
      rewrite Z.div_add by (apply Z.pow_nonzero; lia). apply Z_mod_plus_full.
    - intros b Hb. now replace ((a <=? b) && (b <? a + sizeof T)) with false by lia.
  Qed.
  Theorem v2_store m s T x i y : let w := word_in (v_mem s) (v_pc s) in let at_ := (x + i) mod 2 ^ 32 in
    decoder2_ok d -> itcm_ok start len -> inside start len (v_pc s) -> proper2 m w -> lookup (m_name m) store_specs = Some T -> values m w (a_regs (v_arch s)) [x; i; y] ->
    V2Spec.low ranges -> at_ + bits T / 8 < 2 ^ 32 ->
    let t := step s in
    (contained ranges at_ (bits T / 8) -> v_arch t = v_arch s /\ goes_on s t /\ writes_mem T at_ y (v_mem s) (v_mem t)) /\
    (~ contained ranges at_ (bits T / 8) -> traps trap 7 s t).
  Proof.
    intros w A Hd Hi Hn Hp HP HV Hl Hb t.
    assert (HT : exists j, lookup (m_name m) v2stores = Some j /\ ty_of j = T /\ check_size j = bits T / 8 /\ fault_code j = 7 /\ is_st j = true /\ In T [U8; U16; U32] /\ String.eqb (m_name m) "fsw" = false).
    { clear - HP. unfold store_specs in HP. cbn [lookup] in HP.
      repeat (match type of HP with (if String.eqb ?x ?y then _ else _) = _ => destruct (String.eqb_spec x y) as [E|_] end;
        [injection HP as <-; rewrite E; cbn; eexists; split; [reflexivity|]; cbn; tauto|]). discriminate. }
    destruct HT as (j & Hj & ET & Ec & Ef & Est & HT & Hf). destruct (store2 m j (proj1 Hp) Hj) as (E1 & E2 & E3 & E4). rewrite Hf in E2.
    destruct (exec_memory m j s _ _ _ Hd Hi Hn Hp E1 E4 E2) as (b & o & r & tt & Ob & Oo & Or & Ot & E). fold w in Ob, Oo, Or, Ot. rewrite E3 in Ot.
    unfold values in HV. rewrite E2 in HV. inversion HV as [|? ? ? ? V1 V2]; subst. inversion V2 as [|? ? ? ? V3 V4]; subst. inversion V4 as [|? ? ? ? V5 _]; subst.
    unfold list_is in Or. inversion Or as [|? p ? ? Hpp Or']; subst. inversion Or'; subst.
    change value2 with value1 in E.
    rewrite (value_ok (V2DecSpec.KX 15) w (a_regs (v_arch s)) x b), (value_ok Simm w (a_regs (v_arch s)) i o) in E by (first [assumption|unfold is_imm, imms; cbn [In]; tauto]).
    destruct (access j s (fun j => perform2 box j [p] []) x i Hl) as [A1 A2]; [rewrite Ec; exact Hb|]. fold A in A1, A2. rewrite Ec, <- E in A1, A2. rewrite Ef in A2.
    assert (Vp : val2 (v_arch s) p = y).
    { rewrite <- (value_ok (V2DecSpec.KX 20) w (a_regs (v_arch s)) y p) by tauto. cbn [operand_is] in Hpp. rewrite Hpp. now destruct (_ =? 0). }
    split; intros H.
    - unfold t. rewrite (A1 H). unfold perform2. rewrite Est. unfold goes_on. cbn [next2 v_mem v_pc v_arch]. split; [reflexivity|]. split; [split; reflexivity|].
      rewrite Vp. now apply put_writes.
    - unfold t. rewrite (A2 H). apply trap2_traps.
  Qed.
  (** flw and fsw; fsw checks eight bytes. *)
  Theorem v2_flw m s i : let w := word_in (v_mem s) (v_pc s) in let at_ := (reg_at (a_regs (v_arch s)) w 15 + i) mod 2 ^ 32 in
    decoder2_ok d -> itcm_ok start len -> inside start len (v_pc s) -> proper2 m w -> m_name m = "flw" -> operand_is Iimm w (PImm i) ->
    (forall b, 0 <= v_mem s b < 256) -> V2Spec.low ranges -> at_ + 4 < 2 ^ 32 ->
    let t := step s in
    (contained ranges at_ 4 -> v_mem t = v_mem s /\ goes_on s t /\
      (forall r, r <> 64 + rd w -> a_regs (v_arch t) r = a_regs (v_arch s) r) /\
      exists v, reads I32 (v_mem s) at_ v /\ 0 <= v < 2 ^ 32 /\ a_regs (v_arch t) (64 + rd w) = box v) /\
    (~ contained ranges at_ 4 -> traps trap 5 s t).
  Proof.
    intros w A Hd Hi Hn Hp HP HV Hm Hl Hb t.
    destruct (load2 m Lw (proj1 Hp)) as (E1 & E2 & E3 & E4); [now rewrite HP|]. rewrite HP in E3. cbn [String.eqb] in E3.
    destruct (exec_memory m Lw s _ _ _ Hd Hi Hn Hp E1 E4 E2) as (b & o & r & tt & Ob & Oo & Or & Ot & E). fold w in Ob, Oo, Or, Ot. rewrite E3 in Ot.
    unfold list_is in Ot. inversion Ot as [|? dd ? ? Hdd Ot']; subst. inversion Ot'; subst.
    change value2 with value1 in E.
    rewrite (value_ok (V2DecSpec.KX 15) w (a_regs (v_arch s)) (reg_at (a_regs (v_arch s)) w 15) b), (value_ok Iimm w (a_regs (v_arch s)) i o) in E
      by (first [assumption|reflexivity|unfold is_imm, imms; cbn [In]; tauto]).
    destruct (access Lw s (fun j => perform2 box j r [dd]) (reg_at (a_regs (v_arch s)) w 15) i Hl Hb) as [A1 A2]. fold A in A1, A2. cbn [check_size fault_code] in A1, A2. rewrite <- E in A1, A2.
    split; intros H.
    - unfold t. rewrite (A1 H). cbn [dest_is] in Hdd. fold (rd w) in Hdd. rewrite Hdd. unfold perform2, goes_on. cbn [is_st next2 v_mem v_pc v_arch set2 a_regs a_csr ty_of]. unfold upd.
      split; [reflexivity|]. split; [split; reflexivity|]. split.
      + intros q Hq. now replace (q =? 64 + rd w) with false by lia.
      + rewrite Z.eqb_refl. exists (u32 (mem_get I32 (v_mem s) A)). split; [apply mem_get_reads; [cbn [In]; tauto|exact Hm]|]. split; [apply u32_range|reflexivity].
    - unfold t. rewrite (A2 H). apply trap2_traps.
  Qed.
  Theorem v2_fsw m s i : let w := word_in (v_mem s) (v_pc s) in let at_ := (reg_at (a_regs (v_arch s)) w 15 + i) mod 2 ^ 32 in
    decoder2_ok d -> itcm_ok start len -> inside start len (v_pc s) -> proper2 m w -> m_name m = "fsw" -> operand_is Simm w (PImm i) ->
    V2Spec.low ranges -> at_ + 8 < 2 ^ 32 ->
    let t := step s in
    (contained ranges at_ 8 -> v_arch t = v_arch s /\ goes_on s t /\ writes_mem U32 at_ (a_regs (v_arch s) (64 + V2DecSpec.at_ w 20 5)) (v_mem s) (v_mem t)) /\
    (~ contained ranges at_ 8 -> traps trap 7 s t).
  Proof.
    intros w A Hd Hi Hn Hp HP HV Hl Hb t.
    destruct (store2 m Fsw (proj1 Hp)) as (E1 & E2 & E3 & E4); [now rewrite HP|]. rewrite HP in E2. cbn [String.eqb] in E2.
    destruct (exec_memory m Fsw s _ _ _ Hd Hi Hn Hp E1 E4 E2) as (b & o & r & tt & Ob & Oo & Or & Ot & E). fold w in Ob, Oo, Or, Ot. rewrite E3 in Ot.
    unfold list_is in Or. inversion Or as [|? p ? ? Hpp Or']; subst. inversion Or'; subst.
    change value2 with value1 in E.
    rewrite (value_ok (V2DecSpec.KX 15) w (a_regs (v_arch s)) (reg_at (a_regs (v_arch s)) w 15) b), (value_ok Simm w (a_regs (v_arch s)) i o) in E
      by (first [assumption|reflexivity|unfold is_imm, imms; cbn [In]; tauto]).
    destruct (access Fsw s (fun j => perform2 box j [p] []) (reg_at (a_regs (v_arch s)) w 15) i Hl Hb) as [A1 A2]. fold A in A1, A2. cbn [check_size fault_code] in A1, A2. rewrite <- E in A1, A2.
    split; intros H.
    - unfold t. rewrite (A1 H). cbn [operand_is] in Hpp. rewrite Hpp. unfold perform2, goes_on. cbn [is_st next2 v_mem v_pc v_arch ty_of val2].
      split; [reflexivity|]. split; [split; reflexivity|]. apply put_writes. cbn [In]. tauto.
    - unfold t. rewrite (A2 H). apply trap2_traps.
  Qed.
End V2.
