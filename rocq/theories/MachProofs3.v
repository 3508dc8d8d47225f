(** * Proofs for the V1 machine: the strip-mined kernel *)
From Coq Require Import ZArith List Bool String Lia ZifyBool ZifyNat.
From Verif Require Import CInt VecModel VecSpec VecProofs VecEl ConvModel ConvSpec MemModel MemSpec MemProofs LogModel.
From Verif Require Import DecodeTypes DecodeTable DecodeModel DecodeSpec DecodeProofs DecodeProofs2 DecodeProofs3 DecodeProofs4 PropDecode.
From Verif Require Import V2DecModel V1ScalModel TopModel TopSpec CliSpec MachModel MachSpec MachProofs MachProofs2.
Import ListNotations.
Open Scope string_scope.
Open Scope Z_scope.

(** ** Arrays *)
Lemma eaddr_unit T o e : VecProofs.small T -> mo_stride o = false -> base_of o + 32 * regs_of o <= 2 ^ 32 -> 0 <= base_of o ->
  0 <= e < regs_of o * nlanes T -> eaddr T o false e = base_of o + e * lanebytes T.
Proof.
  intros HT Hs Hb H0 He. unfold eaddr, MemSpec.piece, stride_of. rewrite Hs.
  assert (L : nlanes T * lanebytes T = 32 /\ 0 < nlanes T).
  { clear - HT. unfold VecProofs.small in HT. cbn [In] in HT. repeat destruct HT as [<-|HT]; [..|destruct HT]; split; reflexivity. }
  destruct L as [L P]. pose proof (Z_div_mod_eq_full e (nlanes T)) as D. pose proof (Z.mod_pos_bound e (nlanes T) P) as R.
  set (q := e / nlanes T) in *. set (r := e mod nlanes T) in *. clearbody q r.
  assert (0 <= q < regs_of o) by nia.
  rewrite Z.mod_small by lia. rewrite D. nia.
Qed.
Lemma stored_unit T o rf m m' B : VecProofs.small T -> stored T o false rf m m' -> 0 <= nsel T o ->
  (forall e, 0 <= e < nsel T o -> eaddr T o false e = B + e * lanebytes T) ->
  (forall A, ~ (B <= A < B + nsel T o * lanebytes T) -> m' A = m A) /\
  (forall i t, 0 <= i < nsel T o -> 0 <= t < lanebytes T ->
     m' (B + i * lanebytes T + t) = rf (g_base (mo_v o) + i / nlanes T) (i mod nlanes T * lanebytes T + t)).
Proof.
  intros HT HS Hn HE. assert (P : 0 < lanebytes T) by (rewrite lanebytes_sizeof; apply sizeof_pos). split.
  - intros A HA. destruct (HS A) as [(e & He & HC & _)|[_ H]]; [|exact H]. exfalso. apply HA.
    unfold covers in HC. rewrite HE in HC by exact He. nia.
  - intros i t Hi Ht. destruct (HS (B + i * lanebytes T + t)) as [(e & He & HC & _ & ->)|[H _]].
    + unfold covers in HC. rewrite HE in HC by exact He. assert (e = i) by nia. subst e.
      unfold ebyte. rewrite HE by exact He. f_equal. lia.
    + exfalso. apply (H i Hi). unfold covers. rewrite HE by exact Hi. lia.
Qed.
Lemma uval_ext n b b' off off' : (forall j, 0 <= j < Z.of_nat n -> b (off + j) = b' (off' + j)) -> uval n b off = uval n b' off'.
Proof.
  intros H. unfold uval. apply f_equal. apply map_ext_in. intros j Hj. apply in_seq in Hj. rewrite H by lia. reflexivity.
Qed.
Lemma elem_ext T m m' a a' i i' : (forall t, 0 <= t < lanebytes T -> m (a + i * lanebytes T + t) = m' (a' + i' * lanebytes T + t)) ->
  elem T m a i = elem T m' a' i'.
Proof. intros H. unfold elem. apply f_equal. apply uval_ext. intros j Hj. apply H. assert (0 < lanebytes T) by (rewrite lanebytes_sizeof; apply sizeof_pos). lia. Qed.
Lemma trunc_trunc T T' x : bits T = bits T' -> trunc T (trunc T' x) = trunc T x.
Proof.
  intros H. unfold trunc. rewrite H. set (M := 2 ^ bits T'). assert (0 < M) by (apply Z.pow_pos_nonneg; [lia|clear; now destruct T']).
  assert (E : (if is_signed T' && (2 ^ (bits T' - 1) <=? x mod M) then x mod M - M else x mod M) mod M = x mod M).
  { destruct (_ && _).
    - rewrite <- (Z_mod_plus_full (x mod M - M) 1 M). rewrite Z.mul_1_l, Z.sub_add, Z.mod_mod by lia. reflexivity.
    - apply Z.mod_mod. lia. }
  rewrite E. reflexivity.
Qed.
Lemma lane_cast T T' b j : bits T = bits T' -> lane T b j = trunc T (lane T' b j).
Proof. intros H. unfold lane. rewrite trunc_trunc by exact H. now rewrite H. Qed.
Lemma elem_cast T T' m a i : bits T = bits T' -> elem T m a i = trunc T (elem T' m a i).
Proof. intros H. unfold elem, lanebytes. rewrite trunc_trunc by exact H. now rewrite H. Qed.
Lemma load32_uval m a : load32 m a = uval 4 m a.
Proof.
  unfold load32, uval. cbn [seq map fold_right Z.of_nat Pos.of_succ_nat Pos.succ]. rewrite Z.add_0_r.
  change (8 * 0) with 0. change (8 * 1) with 8. change (8 * 2) with 16. change (8 * 3) with 24. rewrite Z.pow_0_r. ring.
Qed.

(** ** Rows of the concrete words *)
Definition lane_ty (k : Z) : ity := if k =? 0 then I8 else if k =? 1 then I16 else I32.
Lemma lane_ty_facts k : 0 <= k <= 2 ->
  VecProofs.small (lane_ty k) /\ lanebytes (lane_ty k) = 2 ^ k /\ bits (lane_ty k) = 8 * 2 ^ k /\ nlanes (lane_ty k) * 2 ^ k = 32 /\ 1 <= 2 ^ k <= 4.
Proof.
  intros H. assert (E : k = 0 \/ k = 1 \/ k = 2) by lia. unfold VecProofs.small.
  destruct E as [->|[->| ->]]; repeat split; try reflexivity; try (vm_compute; congruence); cbn; auto 10.
Qed.
Lemma in_inst d w e : decoder_ok d -> filter (matches w) (table GInst) = [e] -> parse d w = Some e.
Proof. intros Hd. exact (only_in_group d w [] GInst _ e Hd eq_refl eq_refl). Qed.
Lemma in_memory d w e : decoder_ok d -> forallb (fun g' => forallb (fun x => negb (matches w x)) (table g')) [GInst; GArith; GConv] = true ->
  filter (matches w) (table GMemory) = [e] -> parse d w = Some e.
Proof. intros Hd. exact (only_in_group d w [GInst; GArith; GConv] GMemory _ e Hd eq_refl). Qed.
Lemma getvl_row d k : decoder_ok d -> 0 <= k <= 2 -> exists e, let w := 0x180606f7 + k * 2 ^ 25 in
  parse d w = Some e /\ e_sem e = SmGetVl (lane_ty k) true true false /\
  map (src_op e w) (e_src e) = [OReg 12] /\ map (dst_op e w) (e_dst e) = [OReg 13].
Proof.
  intros Hd H. assert (E : k = 0 \/ k = 1 \/ k = 2) by lia.
  destruct E as [->|[->| ->]]; eexists; cbv zeta; (split; [apply (in_inst d _ _ Hd); vm_compute; reflexivity|vm_compute; auto]).
Qed.
Definition ldst (st : bool) (k : Z) : DecodeTypes.sem := if st then SmSt (lane_ty k) true false true else SmLd (lane_ty k) true false true (lane_ty k) true.
Lemma ldst_row d st k w v x : decoder_ok d -> 0 <= k <= 2 ->
  In (st, w, v, x) [(false, 0x14d5003f, 0, 10); (false, 0x14d5813f, 4, 11); (true, 0x34d7023f, 8, 14)] ->
  exists e, let w := w + k * 2 ^ 12 in
  parse d w = Some e /\ meaning (e_name e) = Some (ldst st k) /\ has_xs2 (e_name e) = true /\ has_post (e_name e) = true /\
  w_m w = true /\ f_vd w = v /\ f_xs1 w = x /\ f_xs2 w = 13 /\ f_vs1 w <> 0.
Proof.
  intros Hd H Hi. assert (E : k = 0 \/ k = 1 \/ k = 2) by lia. cbn [In] in Hi. destruct Hi as [Hi|[Hi|[Hi|[]]]]; injection Hi as <- <- <- <-;
  (destruct E as [->|[->| ->]]; eexists; cbv zeta; (split; [apply (in_memory d _ _ Hd); vm_compute; reflexivity|vm_compute; repeat split; congruence])).
Qed.
Definition mpause_act : act := Act [Fn "coralnpu::CoralNPUIMpause" []] [] [] None.
Definition sub_act : act := Act [Fn "RV32::RiscVISub" []] [PX 12; PX 13] [DX 12] None.
Definition bne_act : act := Act [Fn "RV32::RiscVIBne" []] [PX 12; PZero; PImm (-24)] [DNextPc] None.
Lemma scalar_row d w a : decoder_ok d -> In (w, a) [(0x40d60633, sub_act); (0xfe0614e3, bne_act); (0x08000073, mpause_act)] ->
  exists e, parse d w = Some e /\ (exists q, e_sem e = SmScalar q) /\ act1 e w = a.
Proof.
  intros Hd Hi. cbn [In] in Hi. destruct Hi as [Hi|[Hi|[Hi|[]]]]; injection Hi as <- <-; eexists;
    (split; [apply (in_inst d _ _ Hd); vm_compute; reflexivity|split; [eexists; vm_compute; reflexivity|vm_compute; reflexivity]]).
Qed.

Section Steps.
  Context {S : Type}.
  Notation arch := (arch (C := core S)).
  Variable d : decoder.
  Variable zbb : Z -> option act.
  Variable sys : act -> Z -> arch -> (Z -> Z) -> arch * (Z -> Z) * Z * option Z.
  Variable junk : Z -> Z -> vbytes.
  Variable ljunk : Z -> Z.
  Notation exec := (exec1 d zbb sys junk ljunk).
  Hypothesis Hd : decoder_ok d.

  (** What every step of the loop does not change. *)
  Definition vsame (s s' : arch) (P : Z -> Prop) : Prop := forall r j, 0 <= r -> ~ P r -> 0 <= j < 32 -> vbyte s' r j = vbyte s r j.
  Definition xsame (s s' : arch) (x : Z) : Prop := forall i, i < 64 -> i <> x -> a_regs s' i = a_regs s i.

  Lemma step_getvl k a s m : 0 <= k <= 2 ->
    let f := exec (0x180606f7 + k * 2 ^ 25) a s m in
    f_mem f = m /\ f_pc f = next a /\ f_halt f = None /\ keeps s (f_arch f) /\ xsame s (f_arch f) 13 /\
    a_regs (f_arch f) 13 = Z.min (4 * nlanes (lane_ty k)) (a_regs s 12 mod 2 ^ 32) /\ vsame s (f_arch f) (fun _ => False).
  Proof.
    intros Hk f. destruct (getvl_row d k Hd Hk) as (e & Hp & Es & E1 & E2). destruct (lane_ty_facts k Hk) as (HT & _).
    unfold f. rewrite (exec_vec d zbb sys junk ljunk _ e a s m Hp) by (rewrite Es; intros []).
    unfold exec_vector, vec_step. replace (mem_row e _ (to_w s m)) with (@None (outcome (ity * mop * bool))) by (unfold mem_row; now rewrite Es).
    unfold exec_row. rewrite Es, E1, E2. cbn [nth rd_scalar bind option_map to_xdst w_traps to_w f_mem f_pc f_halt f_arch w_mem w_x w_v w_acc w_dw].
    change (12 =? 0) with false. cbv iota.
    pose proof (proj1 (getvl_ok (lane_ty k) true (Some (a_regs s 12)) None HT)) as G. cbv zeta iota in G.
    split; [reflexivity|]. split; [reflexivity|]. split; [reflexivity|]. split; [apply of_w_core; split; reflexivity|].
    split; [|split].
    - intros i Hi N. etransitivity; [apply of_w_x; exact Hi|]. cbn [w_x]. unfold upd. now replace (i =? 13) with false by lia.
    - etransitivity; [apply of_w_x; lia|]. cbn [w_x]. unfold upd. rewrite Z.eqb_refl. rewrite G. pose proof (Z.mod_pos_bound (a_regs s 12) (2 ^ 32)). lia.
    - intros r j Hr _ Hj. etransitivity; [apply of_w_v; [exact Hr|exact Hj|]|reflexivity]. intros i Hi. exact (to_w_wf s m r i Hi).
  Qed.

  Lemma step_scalar w c a s m : In (w, c) [(0x40d60633, sub_act); (0xfe0614e3, bne_act); (0x08000073, mpause_act)] ->
    exec w a s m = exec_scalar sys ljunk c a s m.
  Proof.
    intros Hi. destruct (scalar_row d w c Hd Hi) as (e & Hp & (q & Es) & Ea). unfold exec1. rewrite Hp, Es, Ea. reflexivity.
  Qed.
  Lemma step_sub a s m :
    let f := exec 0x40d60633 a s m in
    f_mem f = m /\ f_pc f = next a /\ f_halt f = None /\ keeps s (f_arch f) /\ xsame s (f_arch f) 12 /\
    a_regs (f_arch f) 12 = (a_regs s 12 mod 2 ^ 32 - a_regs s 13 mod 2 ^ 32) mod 2 ^ 32 /\ vsame s (f_arch f) (fun _ => False).
  Proof.
    intros f. unfold f. rewrite (step_scalar _ sub_act) by (left; reflexivity).
    change (exec_scalar sys ljunk sub_act a s m) with (normal (set_dst (DX 12) (u32 (a_regs s 12) - u32 (a_regs s 13)) s) m a).
    split; [reflexivity|]. split; [reflexivity|]. split; [reflexivity|]. split; [repeat split|].
    split; [|split].
    - intros i Hi N. cbn [normal f_arch with_core set_dst a_regs]. unfold upd. now replace (i =? 12) with false by lia.
    - reflexivity.
    - intros r j Hr _ Hj. unfold vbyte. cbn [normal f_arch with_core set_dst a_regs]. unfold upd. now replace (64 + r =? 12) with false by lia.
  Qed.
  Lemma step_bne a s m :
    let f := exec 0xfe0614e3 a s m in
    f_mem f = m /\ f_pc f = (if a_regs s 12 mod 2 ^ 32 =? 0 then next a else (a + (2 ^ 32 - 24)) mod 2 ^ 32) /\ f_halt f = None /\
    keeps s (f_arch f) /\ a_regs (f_arch f) = a_regs s.
  Proof.
    intros f. unfold f. rewrite (step_scalar _ bne_act) by (right; left; reflexivity).
    change (exec_scalar sys ljunk bne_act a s m) with
      (Eff (with_core tock s) m (if negb (u32 (a_regs s 12) =? 0) then u32 (a + (2 ^ 32 - 24)) else next a) None).
    split; [reflexivity|]. split; [|repeat split]. cbn [f_pc]. unfold u32. now destruct (_ =? 0).
  Qed.
  Lemma step_mpause a s m :
    let f := exec 0x08000073 a s m in
    f_mem f = m /\ f_pc f = next a /\ f_halt f = Some RUserRequest /\ keeps s (f_arch f) /\ a_regs (f_arch f) = a_regs s.
  Proof.
    intros f. unfold f. rewrite (step_scalar _ mpause_act) by (right; right; left; reflexivity). repeat split.
  Qed.

  (** The operands of the loads and stores. *)
  Definition ops (s : arch) (x v : Z) : mop := MO true false true false (a_regs s x) (Some (a_regs s 13)) (VG v 4) (Some x) true.
  Lemma ops_facts k s x v B vl : 0 <= k <= 2 -> a_regs s x mod 2 ^ 31 = B -> a_regs s 13 = vl -> 0 <= vl <= 4 * nlanes (lane_ty k) ->
    B + vl * 2 ^ k <= top_address ->
    let o := ops s x v in
    nsel (lane_ty k) o = vl /\ ~ over (lane_ty k) o false /\ 0 <= B /\
    (forall e, 0 <= e < vl -> eaddr (lane_ty k) o false e = B + e * 2 ^ k) /\
    (forall y y', post_spec (lane_ty k) o false y y' -> (forall i, i <> x -> y' i = y i) /\ y' x = B + vl * 2 ^ k).
  Proof.
    intros Hk HB Hv Hl Ht o. destruct (lane_ty_facts k Hk) as (HT & Lb & Bi & Nl & Pk). unfold top_address in Ht.
    assert (B0 : 0 <= B) by (rewrite <- HB; apply Z.mod_pos_bound; lia).
    assert (N4 : 0 <= 4 * nlanes (lane_ty k) <= 128) by nia.
    assert (Bo : base_of o = B) by exact HB.
    assert (Vl : xs2_u o = vl). { cbv [o ops xs2_u mo_xs2]. rewrite Hv. apply Z.mod_small. lia. }
    assert (Ns : nsel (lane_ty k) o = vl).
    { unfold nsel. rewrite Vl. cbv [o ops regs_of mo_strip mo_len]. lia. }
    assert (Ea : forall e, 0 <= e < 4 * nlanes (lane_ty k) -> eaddr (lane_ty k) o false e = B + e * 2 ^ k).
    { intros e He. rewrite <- Lb, <- Bo. apply eaddr_unit; [exact HT|reflexivity| | |exact He]; rewrite Bo; [|exact B0].
      cbv [o ops regs_of mo_strip]. assert (0 <= vl * 2 ^ k) by nia. lia. }
    split; [exact Ns|]. split.
    { intros (e & He & H). rewrite Ns in He. rewrite Ea in H by lia. unfold top_address in H. nia. }
    split; [exact B0|]. split; [intros e He; apply Ea; lia|].
    intros y y' HP. unfold post_spec in HP. cbv [o ops mo_post] in HP. fold (ops s x v) in HP. fold o in HP. destruct HP as [P1 P2]. split; [exact P1|].
    rewrite P2, Ns, Bo. destruct (vl =? 0) eqn:E; [apply Z.eqb_eq in E; rewrite E; lia|].
    assert (I : increment (lane_ty k) o false = vl * 2 ^ k) by (cbv [increment o ops mo_len mo_stride]; fold (ops s x v); fold o; rewrite Ns, Lb; reflexivity).
    rewrite I. apply Z.mod_small. assert (0 <= vl * 2 ^ k) by nia. lia.
  Qed.
  Lemma step_load k w v x B vl a s m : 0 <= k <= 2 -> In (w, v, x) [(0x14d5003f, 0, 10); (0x14d5813f, 4, 11)] ->
    a_regs s 0 = 0 -> a_regs s x mod 2 ^ 31 = B -> a_regs s 13 = vl -> 0 <= vl <= 4 * nlanes (lane_ty k) -> B + vl * 2 ^ k <= top_address ->
    let f := exec (w + k * 2 ^ 12) a s m in
    f_mem f = m /\ f_pc f = next a /\ f_halt f = None /\ keeps s (f_arch f) /\ xsame s (f_arch f) x /\
    a_regs (f_arch f) x = B + vl * 2 ^ k /\ vsame s (f_arch f) (fun r => v <= r < v + 4) /\
    forall g j, 0 <= g < 4 -> 0 <= j < nlanes (lane_ty k) ->
      lane (lane_ty k) (vbyte (f_arch f) (v + g)) j =
      let i := g * nlanes (lane_ty k) + j in if i <? vl then elem (lane_ty k) m B i else 0.
  Proof.
    intros Hk Hi H0 HB Hv Hl Ht f. destruct (lane_ty_facts k Hk) as (HT & Lb & Bi & Nl & Pk).
    assert (Hi' : In (false, w, v, x) [(false, 0x14d5003f, 0, 10); (false, 0x14d5813f, 4, 11); (true, 0x34d7023f, 8, 14)]).
    { cbn [In] in Hi |- *. destruct Hi as [Hi|[Hi|[]]]; injection Hi as <- <- <-; auto. }
    assert (Hx : x <> 0 /\ x < 64). { cbn [In] in Hi. destruct Hi as [Hi|[Hi|[]]]; injection Hi as <- <- <-; lia. }
    destruct (ldst_row d false k w v x Hd Hk Hi') as (e & Hp & Hm & X2 & Po & Wm & Vd & X1 & Xs & V1).
    destruct (mach_load d zbb sys junk ljunk _ e a s m _ _ _ _ _ _ Hd Hp Hm H0) as (F1 & F2 & F3 & (y & F4 & F5) & _ & F6).
    assert (EO : operands (w + k * 2 ^ 12) (e_name e) s true false false = ops s x v).
    { unfold operands. rewrite X2, Po, Wm, Vd, X1, Xs. replace (f_vs1 (w + k * 2 ^ 12) =? 0) with false by lia. replace (x =? 0) with false by lia. reflexivity. }
    rewrite EO in *. rewrite Wm, Vd in F6. destruct (ops_facts k s x v B vl Hk HB Hv Hl Ht) as (O1 & O2 & O3 & O4 & O5).
    destruct (F6 O2) as (F7 & F8 & F9). destruct (O5 _ _ F4) as [P1 P2]. fold f in F1, F2, F3, F5, F7, F8, F9.
    split; [exact F1|]. split; [exact F2|]. split; [exact F7|]. split; [exact F3|].
    split; [|split; [|split]].
    - intros i Hi2 N. rewrite F5 by exact Hi2. now apply P1.
    - rewrite F5 by lia. exact P2.
    - intros r j Hr N Hj. now apply F9.
    - intros g j Hg Hj. assert (0 <= g * nlanes (lane_ty k)) by (apply Z.mul_nonneg_nonneg; lia). rewrite F8 by assumption. cbv zeta. rewrite O1. destruct (_ <? vl) eqn:E; [|reflexivity].
      unfold elem. rewrite O4 by lia. rewrite Lb. reflexivity.
  Qed.
  Lemma step_store k B vl a s m : 0 <= k <= 2 ->
    a_regs s 0 = 0 -> a_regs s 14 mod 2 ^ 31 = B -> a_regs s 13 = vl -> 0 <= vl <= 4 * nlanes (lane_ty k) -> B + vl * 2 ^ k <= top_address ->
    let f := exec (0x34d7023f + k * 2 ^ 12) a s m in
    f_pc f = next a /\ f_halt f = None /\ keeps s (f_arch f) /\ xsame s (f_arch f) 14 /\
    a_regs (f_arch f) 14 = B + vl * 2 ^ k /\ vsame s (f_arch f) (fun _ => False) /\
    (forall A, ~ (B <= A < B + vl * 2 ^ k) -> f_mem f A = m A) /\
    forall g j t, 0 <= g < 4 -> 0 <= j < nlanes (lane_ty k) -> g * nlanes (lane_ty k) + j < vl -> 0 <= t < 2 ^ k ->
      f_mem f (B + (g * nlanes (lane_ty k) + j) * 2 ^ k + t) = vbyte s (8 + g) (j * 2 ^ k + t).
  Proof.
    intros Hk H0 HB Hv Hl Ht f. destruct (lane_ty_facts k Hk) as (HT & Lb & Bi & Nl & Pk).
    destruct (ldst_row d true k 0x34d7023f 8 14 Hd Hk) as (e & Hp & Hm & X2 & Po & Wm & Vd & X1 & Xs & V1); [right; right; left; reflexivity|].
    destruct (mach_store d zbb sys junk ljunk _ e a s m (lane_ty k) true false true false Hd Hp Hm (fun h => match Bool.diff_false_true h with end) H0)
      as (F2 & F3 & (y & F4 & F5) & F9 & _ & F6).
    assert (EO : operands (0x34d7023f + k * 2 ^ 12) (e_name e) s true false false = ops s 14 8).
    { unfold operands. rewrite X2, Po, Wm, Vd, X1, Xs. replace (f_vs1 (0x34d7023f + k * 2 ^ 12) =? 0) with false by lia. reflexivity. }
    rewrite EO in *. destruct (ops_facts k s 14 8 B vl Hk HB Hv Hl Ht) as (O1 & O2 & O3 & O4 & O5).
    destruct (F6 O2) as (F7 & F8). destruct (O5 _ _ F4) as [P1 P2]. fold f in F2, F3, F5, F7, F8, F9.
    destruct (stored_unit _ _ _ _ _ B HT F8) as [Q1 Q2]; [rewrite O1; lia|intros i Hi; rewrite Lb; apply O4; now rewrite O1 in Hi|].
    rewrite O1, Lb in *.
    split; [exact F2|]. split; [exact F7|]. split; [exact F3|].
    split; [|split; [|split; [|split]]].
    - intros i Hi2 N. rewrite F5 by exact Hi2. now apply P1.
    - rewrite F5 by lia. exact P2.
    - intros r j Hr N Hj. now apply F9.
    - exact Q1.
    - intros g j t Hg Hj Hi Htt. assert (0 <= g * nlanes (lane_ty k)) by (apply Z.mul_nonneg_nonneg; lia). rewrite Q2 by lia. cbn [ops mo_v g_base].
      rewrite Z.div_add_l by lia. rewrite (Z.div_small j) by lia. rewrite Z.add_0_r.
      replace ((g * nlanes (lane_ty k) + j) mod nlanes (lane_ty k)) with j; [reflexivity|].
      rewrite Z.add_comm, Z_mod_plus_full. symmetry. apply Z.mod_small. lia.
  Qed.
End Steps.
