(** * What every program keeps: proofs *)
From Coq Require Import ZArith List Bool Lia String.
From Coq Require Import ZifyBool ZifyNat.
From Verif Require Import CInt VecModel VecSpec LaneSpec ConvModel ConvSpec MemModel MemSpec LogModel LogSpec.
From Verif Require Import DecodeTypes DecodeModel DecodeSpec V2DecTypes V2DecModel V1ScalModel.
From Verif Require Import VecProofs VecFrame DecodeProofs DecodeProofs3 TopModel MachModel MachSpec MachInvSpec MachProofs6.
From Verif Require LaneProofs TopSpec.
Import ListNotations.
Open Scope list_scope.
Open Scope Z_scope.

Definition bytes (b : vbytes) : Prop := forall j, 0 <= j < 32 -> 0 <= b j < 256.
Lemma wf_bytes rf : wf rf <-> forall r, bytes (rf r).
Proof. unfold wf, bytes. split; intros H; intros; now apply H. Qed.
Lemma mod256 x : 0 <= x mod 256 < 256.
Proof. apply Z.mod_pos_bound. lia. Qed.
Lemma lane_put_bytes T b e v : bytes b -> bytes (lane_put T b e v).
Proof. intros H j Hj. unfold lane_put. destruct (_ && _); [apply mod256|now apply H]. Qed.
Lemma upd_bytes (f : Z -> vbytes) k b : (forall r, bytes (f r)) -> bytes b -> forall r, bytes (upd f k b r).
Proof. intros H Hb r. unfold upd. destruct (r =? k); [exact Hb|apply H]. Qed.
Lemma upd_wf rf k b : wf rf -> bytes b -> wf (upd rf k b).
Proof. rewrite !wf_bytes. apply upd_bytes. Qed.
(** An invariant of a loop. *)
Lemma for_n_inv {S} (I : S -> Prop) f n : forall s s',
  for_n n f s = Ok s' -> I s -> (forall i s s', 0 <= i < Z.of_nat n -> I s -> f i s = Ok s' -> I s') -> I s'.
Proof. intros s s' H H0 Hs. apply (for_n_post (fun _ => I) f n s s' H H0). exact Hs. Qed.

(** ** Vector registers *)
Section Vec.
  Variable junk : Z -> vbytes.
  Hypothesis HJ : forall r, bytes (junk r).

  Lemma exec_op_wf s o sc N op rf rf' : wf rf -> exec_op s o sc N junk op rf = Ok rf' -> wf rf'.
  Proof.
    intros H K. unfold exec_op in K. destruct (_ <? o_nd o); [|discriminate]. apply bind_ok in K as (bufs & E & K).
    assert (B : forall r, bytes (bufs r)).
    { apply (for_n_inv (fun b : Z -> vbytes => forall r, bytes (b r)) _ _ _ _ E).
      - intros r. destruct (v_rdest s); [now apply wf_bytes|apply HJ].
      - intros e b b' _ Hb K'. apply (for_n_inv (fun b : Z -> vbytes => forall r, bytes (b r)) _ _ _ _ K' Hb).
        intros d c c' _ Hc K2. unfold elem_step in K2. apply bind_ok in K2 as (x & _ & K2). apply bind_ok in K2 as (y & _ & K2). apply bind_ok in K2 as (v & _ & K2).
        injection K2 as <-. apply upd_bytes; [exact Hc|]. apply lane_put_bytes, Hc. }
    injection K as <-. destruct (_ =? 2); repeat apply upd_wf; auto.
  Qed.
  Lemma uexec_op_wf s o N op rf rf' : wf rf -> uexec_op s o N junk op rf = Ok rf' -> wf rf'.
  Proof.
    intros H K. unfold uexec_op in K. destruct (_ <? o_nd o); [|discriminate]. apply bind_ok in K as (buf & E & K). injection K as <-. apply upd_wf; [exact H|].
    apply (for_n_inv bytes _ _ _ _ E); [apply HJ|]. intros e b b' _ Hb K'. unfold uelem_step in K'. apply bind_ok in K' as (x & _ & K'). apply bind_ok in K' as (v & _ & K').
    injection K' as <-. now apply lane_put_bytes.
  Qed.
  Lemma exec_binary_wf s o sc st rf rf' : wf rf -> exec_binary s o sc st junk rf = Ok rf' -> wf rf'.
  Proof. intros H K. apply (for_n_inv wf _ _ _ _ K H). intros i a b _. apply exec_op_wf. Qed.
  Lemma exec_wf i sc st o rf rf' : wf rf -> exec i sc st o junk rf = Ok rf' -> wf rf'.
  Proof.
    intros H. destruct i as [| | | | | |p T]; cbn [exec]; try (now apply exec_binary_wf).
    - intros K. apply (for_n_inv wf _ _ _ _ K H). intros i a b _. apply uexec_op_wf.
    - destruct p; now apply exec_binary_wf.
  Qed.
  Lemma lanes_wf N n (v : Z -> Z -> Z) g T (rf rf' : vregs) :
    for_n N (fun op (rf : vregs) => if op <? g_n g then b <- for_n n (fun e b => Ok (lane_put T b e (v op e))) (junk op) ;; Ok (upd rf (g_base g + op) b) else UB OutOfBounds) rf = Ok rf' ->
    wf rf -> wf rf'.
  Proof.
    intros K H. apply (for_n_inv wf _ _ _ _ K H). intros op a b _ Ha K'. destruct (op <? g_n g); [|discriminate]. apply bind_ok in K' as (buf & E & K'). injection K' as <-.
    apply upd_wf; [exact Ha|]. apply (for_n_inv bytes _ _ _ _ E); [apply HJ|]. intros e x y _ Hx K2. injection K2 as <-. now apply lane_put_bytes.
  Qed.
  Lemma vld_write_wf T N n vals vd rf rf' : wf rf -> vld_write T N n vals vd junk rf = Ok rf' -> wf rf'.
  Proof. intros H K. unfold vld_write in K. exact (lanes_wf _ _ (fun op e => if op * elts T + e <? n then vals (op * elts T + e) else 0) vd T rf rf' K H). Qed.
  Lemma vdup_wf T st vd x rf rf' : wf rf -> exec_vdup T st vd x junk rf = Ok rf' -> wf rf'.
  Proof. intros H K. unfold exec_vdup in K. exact (lanes_wf _ _ (fun _ _ => wrap T x) vd T rf rf' K H). Qed.

  (** ** Accumulators *)
  Lemma u32_range x : 0 <= wrap U32 x < 2 ^ 32.
  Proof. unfold wrap. cbn [is_signed modulus]. apply Z.mod_pos_bound. reflexivity. Qed.
  Lemma upd2_wf acc i j v : acc_wf acc -> 0 <= v < 2 ^ 32 -> acc_wf (upd2 acc i j v).
  Proof. intros H Hv r c Hr Hc. unfold upd2. destruct (_ && _); [exact Hv|now apply H]. Qed.
  Lemma upd_dw d i v : dw_wf d -> 0 <= v < 2 ^ 32 -> dw_wf (upd d i v).
  Proof. intros H Hv t Ht. unfold upd. destruct (_ =? _); [exact Hv|now apply H]. Qed.
  Definition cok (s : cstate) : Prop := wf (c_v s) /\ acc_wf (c_acc s) /\ match c_dw s with Some d => dw_wf d | None => True end.

  Lemma vconv_wf g1 g3 c pc s s' : cok s -> exec_vconv g1 g3 c pc s = Ok s' -> cok s' /\ c_v s' = c_v s.
  Proof.
    intros (H1 & H2 & H3) K. unfold exec_vconv in K.
    destruct (negb _); [injection K as <-; split; [split; [exact H1|]; split; [exact H2|exact H3]|reflexivity]|]. destruct (_ <? _); [injection K as <-; split; [split; [exact H1|]; split; [exact H2|exact H3]|reflexivity]|].
    destruct (_ || _); [injection K as <-; split; [split; [exact H1|]; split; [exact H2|exact H3]|reflexivity]|].
    apply bind_ok in K as (nw & _ & K). apply bind_ok in K as (b1 & _ & K). apply bind_ok in K as (b2 & _ & K). apply bind_ok in K as (acc & E & K). injection K as <-.
    split; [|reflexivity]. split; [exact H1|]. split; [|exact H3]. cbn [c_acc].
    apply (for_n_inv acc_wf _ _ _ _ E H2). intros m a a' _ Ha K. apply bind_ok in K as (wd & _ & K).
    apply (for_n_inv acc_wf _ _ _ _ K Ha). intros i x x' _ Hx K2. apply (for_n_inv acc_wf _ _ _ _ K2 Hx). intros j y y' _ Hy K3.
    unfold conv_body in K3. apply bind_ok in K3 as (p & _ & K3). apply bind_ok in K3 as (q & _ & K3). apply bind_ok in K3 as (t & _ & K3). injection K3 as <-.
    apply upd2_wf; [exact Hy|apply u32_range].
  Qed.
  Lemma vdwconv_wf wa g1 g3 gd c pc s s' : cok s -> exec_vdwconv wa g1 g3 gd c pc junk s = Ok s' -> cok s'.
  Proof.
    intros (H1 & H2 & H3) K. unfold exec_vdwconv in K. destruct (dw_index _) as [[i0 i1] i2].
    apply bind_ok in K as (r0 & _ & K). apply bind_ok in K as (r1 & _ & K). apply bind_ok in K as (r2 & _ & K).
    destruct (dw_adata _ _ _ _) as [a|]; [|discriminate]. destruct (c_dw s) as [acc0|] eqn:Ed; [|discriminate]. apply bind_ok in K as (acc & E & K).
    assert (A : dw_wf acc).
    { apply (for_n_inv dw_wf _ _ _ _ E H3). intros r x x' _ Hx K2. apply bind_ok in K2 as (b & _ & K2). apply (for_n_inv dw_wf _ _ _ _ K2 Hx).
      intros i y y' _ Hy K3. unfold dw_body in K3. apply bind_ok in K3 as (p & _ & K3). apply bind_ok in K3 as (q & _ & K3). apply bind_ok in K3 as (t & _ & K3). apply bind_ok in K3 as (v & _ & K3).
      injection K3 as <-. apply upd_dw; [exact Hy|apply u32_range]. }
    destruct (negb wa); [injection K as <-; split; [exact H1|]; split; [exact H2|exact A]|]. apply bind_ok in K as (rf & E2 & K). injection K as <-.
    split; [|split; [exact H2|exact A]]. exact (lanes_wf 4 8 (fun i j => acc (i * 8 + j)) gd U32 (c_v s) rf E2 H1).
  Qed.
  Lemma vcget_wf gd s s' : cok s -> exec_vcget gd junk s = Ok s' -> cok s'.
  Proof.
    intros H K. unfold exec_vcget in K. apply (for_n_inv cok _ _ _ _ K H). intros op a b _ (H1 & H2 & H3) K'. destruct (op <? g_n gd); [|discriminate].
    apply bind_ok in K' as (buf & E & K'). injection K' as <-. split; [|split]; cbn [c_v c_acc c_dw]; [| |exact H3].
    - apply upd_wf; [exact H1|]. apply (for_n_inv bytes _ _ _ _ E); [apply HJ|]. intros e x y _ Hx K2. injection K2 as <-. now apply lane_put_bytes.
    - intros r c Hr Hc. destruct (r =? op); [split; [lia|reflexivity]|now apply H2].
  Qed.
  Lemma acset_wf tr g s s' : cok s -> exec_acset tr g s = Ok s' -> cok s'.
  Proof.
    intros (H1 & H2 & H3) K. unfold exec_acset in K. apply bind_ok in K as (acc & E & K). injection K as <-. split; [exact H1|]. split; [|exact H3]. cbn [c_acc].
    apply (for_n_inv acc_wf _ _ _ _ E H2). intros op a b _ Ha K. apply bind_ok in K as (r & _ & K). apply (for_n_inv acc_wf _ _ _ _ K Ha).
    intros i x y _ Hx K2. injection K2 as <-. destruct tr; (apply upd2_wf; [exact Hx|apply u32_range]).
  Qed.
  Lemma adwinit_wf g gd s s' : cok s -> exec_adwinit g gd junk s = Ok s' -> cok s'.
  Proof.
    intros (H1 & H2 & H3) K. unfold exec_adwinit in K. apply bind_ok in K as (st & E & K). injection K as <-.
    assert (A : wf (fst st) /\ dw_wf (snd st)).
    { apply (for_n_inv (fun st : vregs * (Z -> Z) => wf (fst st) /\ dw_wf (snd st)) _ _ _ _ E).
      - split; [exact H1|]. cbn [snd]. destruct (c_dw s); [exact H3|]. intros t _. split; [lia|reflexivity].
      - intros op a b _ [Ha Hb] K. apply bind_ok in K as (r & Er & K). destruct (op <? g_n gd); [|discriminate]. injection K as <-. cbn [fst snd].
        unfold get_reg in Er. destruct (_ && _); [|discriminate]. injection Er as <-. split.
        + apply upd_wf; [exact Ha|]. intros j Hj. destruct (j <? 8); [now apply Ha|now apply HJ].
        + intros t Ht. destruct (_ && _); [apply u32_range|now apply Hb]. }
    destruct A as [A B]. split; [exact A|]. split; [exact H2|exact B].
  Qed.
End Vec.

(** ** Memory *)
Lemma sizeof_small T : smallb T = true -> 0 < sizeof T <= 4.
Proof. destruct T; cbn; intros H; try discriminate; lia. Qed.
Lemma sizeof_nonneg T : 0 <= sizeof T.
Proof. destruct T; cbn; lia. Qed.
Lemma mem_put_bytes T m a v : (forall x, 0 <= m x < 256) -> forall x, 0 <= mem_put T m a v x < 256.
Proof. intros H x. unfold mem_put. destruct (_ && _); [apply mod256|apply H]. Qed.
Lemma confined_refl n m : confined n m m.
Proof. intros x _. reflexivity. Qed.
Lemma confined_trans n m1 m2 m3 : confined n m1 m2 -> confined n m2 m3 -> confined n m1 m3.
Proof. intros A B x Hx. rewrite B by exact Hx. now apply A. Qed.
Lemma mem_put_confined T m a v : sizeof T <= 4 -> 0 <= a <= max_address -> confined 3 m (mem_put T m a v).
Proof.
  intros HT Ha x Hx. unfold mem_put. replace ((a <=? x) && (x <? a + sizeof T)) with false; [reflexivity|].
  unfold max_address, top_address in *. lia.
Qed.
Lemma mbase_nonneg o : 0 <= mbase o.
Proof.
  unfold mbase. pose proof (u32_range (mo_base o)). destruct (mo_small o); [|lia]. apply Z.land_nonneg. lia.
Qed.
Definition entries_ok (st : cells (Z * Z) * Z * Z) : Prop :=
  0 <= snd st /\ forall i ad v, fst (fst st) i = Some (ad, v) -> 0 <= ad.
Lemma st_entry_ok T n reg l j st st' : 0 <= j -> entries_ok st -> st_entry T n reg l j st = Ok st' -> entries_ok st'.
Proof.
  intros Hj (B & C) K. destruct st as [[a ai] b]. cbn [fst snd] in *. unfold st_entry in K. destruct (ai <? n); [|injection K as <-; split; assumption].
  apply bind_ok in K as (a' & E & K). injection K as <-. unfold set_cell in E. destruct (_ && _); [|discriminate]. injection E as <-. split; [exact B|]. cbn [fst snd].
  intros i ad v. unfold upd. destruct (i =? ai); [|apply C]. intros K. injection K as <- _. pose proof (sizeof_nonneg T). nia.
Qed.
Lemma st_advance_ok T stride st : entries_ok st -> entries_ok (st_advance T stride st).
Proof. intros (B & C). destruct st as [[a ai] b]. split; [apply u32_range|exact C]. Qed.
Lemma vst_entries_ok T q N n stride base g rf c : 0 <= base -> vst_entries T q N n stride base g rf = Ok c ->
  forall i ad v, c i = Some (ad, v) -> 0 <= ad.
Proof.
  intros Hb K. unfold vst_entries in K. apply bind_ok in K as (r & E & K). injection K as <-.
  assert (A : entries_ok r); [|exact (proj2 A)].
  apply (for_n_inv entries_ok _ _ _ _ E); [split; [exact Hb|discriminate]|]. intros op a b _ Ha K. apply bind_ok in K as (reg & _ & K). destruct q.
  - apply (for_n_inv entries_ok _ _ _ _ K Ha). intros i x y _ Hx K2. apply bind_ok in K2 as (z & E2 & K2). injection K2 as <-. apply st_advance_ok.
    apply (for_n_inv entries_ok _ _ _ _ E2 Hx). intros j x' y' Hj. apply st_entry_ok. lia.
  - apply bind_ok in K as (z & E2 & K). injection K as <-. apply st_advance_ok.
    apply (for_n_inv entries_ok _ _ _ _ E2 Ha). intros j x' y' Hj. apply st_entry_ok. lia.
Qed.
Lemma beyond_false n a : beyond n a = false -> forall i x, 0 <= i < Z.of_nat (Z.to_nat n) -> a i = Some x -> x <= max_address.
Proof.
  intros H i x Hi E. unfold beyond in H. destruct (Z.leb_spec x max_address) as [L|L]; [exact L|]. exfalso.
  assert (B : existsb (fun i => match a (Z.of_nat i) with Some x => max_address <? x | None => false end) (seq 0 (Z.to_nat n)) = true); [|congruence].
  apply existsb_exists. exists (Z.to_nat i). split; [apply in_seq; lia|]. rewrite Z2Nat.id by lia. rewrite E. lia.
Qed.
Lemma vst_confined T o s s' : smallb T = true -> st_fault T o (m_v s) = Ok false -> exec_vst T o s = Ok s' -> confined 3 (m_mem s) (m_mem s').
Proof.
  intros HT F K. unfold exec_vst in K. unfold st_fault in F. apply bind_ok in K as (n & En & K). rewrite En in F. cbn [bind] in F.
  apply bind_ok in K as (sd & Es & K). rewrite Es in F. cbn [bind] in F. apply bind_ok in K as (c & Ec & K). rewrite Ec in F. cbn [bind] in F. injection F as F.
  apply bind_ok in K as (m & Em & K). apply bind_ok in K as (p & _ & K). injection K as <-. cbn [m_mem].
  unfold store_all in Em. apply (for_n_inv (confined 3 (m_mem s)) _ _ _ _ Em); [apply confined_refl|].
  intros i x y Hi Hx K. destruct (c i) as [[ad v]|] eqn:E; [|discriminate]. injection K as <-. eapply confined_trans; [exact Hx|].
  apply mem_put_confined; [now apply sizeof_small|]. split.
  - exact (vst_entries_ok _ _ _ _ _ _ _ _ _ (mbase_nonneg o) Ec i ad v E).
  - apply (beyond_false _ _ F i); [exact Hi|]. cbv beta. now rewrite E.
Qed.
Lemma vst_bytes T o s s' : (forall x, 0 <= m_mem s x < 256) -> exec_vst T o s = Ok s' -> forall x, 0 <= m_mem s' x < 256.
Proof.
  intros H K. unfold exec_vst in K. apply bind_ok in K as (n & _ & K). apply bind_ok in K as (sd & _ & K). apply bind_ok in K as (c & _ & K).
  apply bind_ok in K as (m & Em & K). apply bind_ok in K as (p & _ & K). injection K as <-. cbn [m_mem].
  apply (for_n_inv (fun m => forall x, 0 <= m x < 256) _ _ _ _ Em H). intros i x y _ Hx K. destruct (c i) as [[ad v]|]; [|discriminate]. injection K as <-. now apply mem_put_bytes.
Qed.

(** ** Scalar registers *)
Definition xok (x : Z -> Z) : Prop := forall r, r < 64 -> 0 <= x r < 2 ^ 32.
Lemma post_range T o n sd p : post_addr T o n sd = Ok (Some p) -> 0 <= p < 2 ^ 32.
Proof.
  unfold post_addr. destruct (mo_post o); [|discriminate]. destruct (0 <? n).
  - destruct (_ && _); [intros K; injection K as <-; apply u32_range|]. destruct (_ && _); [intros K; injection K as <-; apply u32_range|].
    destruct (mo_len o); [intros K; injection K as <-; apply u32_range|]. destruct (mo_stride o); [intros K; injection K as <-; apply u32_range|].
    destruct (xs2_val o); cbn [bind]; try discriminate. intros K; injection K as <-; apply u32_range.
  - intros K. injection K as <-. split; [apply mbase_nonneg|]. unfold mbase. pose proof (u32_range (mo_base o)). destruct (mo_small o); [|lia].
    change 0x7fffffff with (Z.ones 31). rewrite Z.land_ones by lia. pose proof (Z.mod_pos_bound (wrap U32 (mo_base o)) (2 ^ 31)). lia.
Qed.
Lemma write_post_ok T o n sd p x : post_addr T o n sd = Ok p -> xok x -> xok (write_post o p x).
Proof.
  intros K H. unfold write_post. destruct (mo_post o) as [r|]; [|exact H]. destruct p as [v|]; [|exact H]. intros i Hi. unfold upd. destruct (i =? r); [|now apply H].
  exact (post_range _ _ _ _ _ K).
Qed.
Lemma getvl_range T st a b : 0 <= exec_getvl T st a b < 2 ^ 32.
Proof.
  unfold exec_getvl. set (v := if st then wrap U32 (elts T * 4) else elts T).
  assert (V : 0 <= v < 2 ^ 32) by (unfold v; destruct st; [apply u32_range|destruct T; split; (reflexivity || discriminate)]). clearbody v.
  destruct a as [a|]; destruct b as [b|]; try (pose proof (u32_range a)); try (pose proof (u32_range b)); lia.
Qed.

(** ** One row *)
Section Row.
  Variables (small : bool) (pc : Z) (junk : Z -> vbytes).
  Hypothesis HJ : forall r, bytes (junk r).
  Definition wall (s : wstate) : Prop := wstate_ok s /\ xok (w_x s) /\ forall x, 0 <= w_mem s x < 256.
  Lemma row_keeps e w s s' : wall s -> exec_row small pc junk e w s = Some (Ok s') -> wall s'.
  Proof.
    intros ((H1 & H2 & H3) & HX & HM) K. unfold exec_row in K.
    assert (V : forall o, (forall v, o = Ok v -> wf v) -> with_v s o = Ok s' -> wall s').
    { intros o Ho K'. unfold with_v in K'. apply bind_ok in K' as (v & E & K'). injection K' as <-. split; [|split; [exact HX|exact HM]].
      split; [now apply Ho|]. split; [exact H2|exact H3]. }
    assert (C : forall o, (forall v, o = Ok v -> cok v) -> with_c s o = Ok s' -> wall s').
    { intros o Ho K'. unfold with_c in K'. apply bind_ok in K' as (v & E & K'). destruct (Ho v E) as (A1 & A2 & A3). injection K' as <-. split; [|split; [exact HX|exact HM]].
      split; [exact A1|]. split; [exact A2|exact A3]. }
    assert (M : forall o, (forall v, o = Ok v -> wf (m_v v) /\ xok (m_x v) /\ forall x, 0 <= m_mem v x < 256) -> with_m s o = Ok s' -> wall s').
    { intros o Ho K'. unfold with_m in K'. apply bind_ok in K' as (v & E & K'). destruct (Ho v E) as (A1 & A2 & A3). injection K' as <-. split; [|split; [exact A2|exact A3]].
      split; [exact A1|]. split; [exact H2|exact H3]. }
    assert (HC : cok (to_c s)) by (split; [exact H1|]; split; [exact H2|exact H3]).
    assert (ST : forall T o v, exec_vst T o (to_m s) = Ok v -> wf (m_v v) /\ xok (m_x v) /\ forall x, 0 <= m_mem v x < 256).
    { intros T o v K'. pose proof (vst_bytes _ _ _ _ (HM : forall x, 0 <= m_mem (to_m s) x < 256) K') as B. unfold exec_vst in K'.
      apply bind_ok in K' as (n & _ & K'). apply bind_ok in K' as (sd & _ & K'). apply bind_ok in K' as (c & _ & K').
      apply bind_ok in K' as (m & _ & K'). apply bind_ok in K' as (p & Ep & K'). injection K' as <-. split; [exact H1|]. split; [|exact B].
      cbn [m_x]. exact (write_post_ok _ _ _ _ _ _ Ep HX). }
    destruct (e_sem e) as [i sc st|T len stride st Tw stw|T len stride st|T st|T st|T st r1 r2| |acc|tr| | |f] eqn:Es.
    - injection K as K. refine (V _ _ K). intros v. apply (exec_wf junk HJ). exact H1.
    - destruct (_ && _); [|discriminate]. injection K as K. apply bind_ok in K as (o & _ & K). refine (M _ _ K). intros v K'. unfold exec_vld in K'.
      apply bind_ok in K' as (n & _ & K'). apply bind_ok in K' as (sd & _ & K'). apply bind_ok in K' as (a & _ & K'). apply bind_ok in K' as (vals & _ & K').
      apply bind_ok in K' as (rf & Er & K'). apply bind_ok in K' as (p & Ep & K'). injection K' as <-. cbn [m_v m_x m_mem]. split; [exact (vld_write_wf junk HJ _ _ _ _ _ _ _ H1 Er)|].
      split; [exact (write_post_ok _ _ _ _ _ _ Ep HX)|exact HM].
    - injection K as K. apply bind_ok in K as (o & _ & K). refine (M _ _ K). intros v. apply ST.
    - injection K as K. apply bind_ok in K as (o & _ & K). refine (M _ _ K). intros v. apply ST.
    - injection K as K. apply bind_ok in K as (x & _ & K). refine (V _ _ K). intros v. apply (vdup_wf junk HJ). exact H1.
    - injection K as K. apply bind_ok in K as (x & _ & K). apply bind_ok in K as (y & _ & K). injection K as <-. split; [split; [exact H1|]; split; [exact H2|exact H3]|].
      split; [|exact HM]. cbn [w_x]. intros r Hr. unfold upd. destruct (r =? _); [apply getvl_range|now apply HX].
    - injection K as K. apply bind_ok in K as (x & _ & K). refine (C _ _ K). intros v K'. exact (proj1 (vconv_wf _ _ _ _ _ _ HC K')).
    - injection K as K. apply bind_ok in K as (x & _ & K). refine (C _ _ K). intros v. apply (vdwconv_wf junk HJ). exact HC.
    - injection K as K. refine (C _ _ K). intros v. apply acset_wf. exact HC.
    - injection K as K. refine (C _ _ K). intros v. apply (vcget_wf junk HJ). exact HC.
    - injection K as K. refine (C _ _ K). intros v. apply (adwinit_wf junk HJ). exact HC.
    - discriminate.
  Qed.
End Row.

(** ** A vector instruction of the machine *)
Definition store_small (e : entry) : bool := match e_sem e with SmSt T _ _ _ | SmStq T _ => smallb T | _ => true end.
Lemma store_small_all : forallb store_small all_entries = true.
Proof. vm_compute. reflexivity. Qed.
Lemma with_m_mem s o s' : with_m s o = Ok s' -> exists v, o = Ok v /\ w_mem s' = m_mem v /\ w_v s' = m_v v /\ w_x s' = m_x v /\ w_acc s' = w_acc s /\ w_dw s' = w_dw s.
Proof. unfold with_m. intros K. apply bind_ok in K as (v & E & K). injection K as <-. exists v. repeat split. exact E. Qed.
Lemma with_c_mem s o s' : with_c s o = Ok s' -> w_mem s' = w_mem s.
Proof. unfold with_c. intros K. apply bind_ok in K as (v & E & K). injection K as <-. reflexivity. Qed.
Lemma with_v_mem s o s' : with_v s o = Ok s' -> w_mem s' = w_mem s.
Proof. unfold with_v. intros K. apply bind_ok in K as (v & E & K). injection K as <-. reflexivity. Qed.
Lemma vld_mem T o junk s s' : exec_vld T o junk s = Ok s' -> m_mem s' = m_mem s.
Proof.
  unfold exec_vld. intros K. apply bind_ok in K as (n & _ & K). apply bind_ok in K as (sd & _ & K). apply bind_ok in K as (a & _ & K). apply bind_ok in K as (vals & _ & K).
  apply bind_ok in K as (rf & Er & K). apply bind_ok in K as (p & Ep & K). injection K as <-. reflexivity.
Qed.
Lemma post_only_keeps T o s v : post_only T o s = Ok v -> m_mem v = m_mem s /\ m_v v = m_v s /\ (xok (m_x s) -> xok (m_x v)).
Proof.
  unfold post_only. intros K. apply bind_ok in K as (n & _ & K). apply bind_ok in K as (sd & _ & K). apply bind_ok in K as (p & Ep & K). injection K as <-.
  split; [reflexivity|]. split; [reflexivity|]. cbn [m_x]. intros H. exact (write_post_ok _ _ _ _ _ _ Ep H).
Qed.
Lemma vec_step_keeps e w a s jk s' t : store_small e = true -> vec_step e w a s jk = Some (Ok (s', t)) ->
  ((forall r, bytes (jk r)) -> wall s -> wall s') /\ confined 3 (w_mem s) (w_mem s').
Proof.
  intros HS K. unfold vec_step in K.
  assert (R : option_map (fun r => s' <- r ;; Ok (s', match w_traps s' with (c, _) :: _ => Some c | [] => None end)) (exec_row true a jk e w s) = Some (Ok (s', t)) ->
    exec_row true a jk e w s = Some (Ok s')).
  { destruct (exec_row true a jk e w s) as [r|]; [|discriminate]. cbn [option_map]. intros E. injection E as E. apply bind_ok in E as (s1 & -> & E).
    injection E as <- _. reflexivity. }
  assert (P : forall T o c, Some (s' <- with_m s (post_only T o (to_m s)) ;; Ok (s', Some c)) = Some (Ok (s', t)) -> ((forall r, bytes (jk r)) -> wall s -> wall s') /\ confined 3 (w_mem s) (w_mem s')).
  { intros T o c E. injection E as E. apply bind_ok in E as (s1 & E1 & E). injection E as <- _. apply with_m_mem in E1 as (v & E1 & A1 & A2 & A3 & A4 & A5).
    destruct (post_only_keeps T o (to_m s) v E1) as (B1 & B2 & B3). split.
    - intros _ ((H1 & H2 & H3) & HX & HM). specialize (B3 HX). split; [|split; [rewrite A3; exact B3|rewrite A1, B1; exact HM]]. split; [rewrite A2, B2; exact H1|]. rewrite A4, A5. split; [exact H2|exact H3].
    - rewrite A1, B1. apply confined_refl. }
  destruct (mem_row e w s) as [r|] eqn:EM.
  - destruct r as [[[T o] load]| |]; cbn [bind] in K; try discriminate.
    destruct (if load then ld_fault T o else st_fault T o (w_v s)) as [f| |] eqn:EF; cbn [bind] in K; try discriminate.
    destruct f; [exact (P T o _ K)|]. apply R in K. split; [intros HJ HW; exact (row_keeps true a jk HJ e w s s' HW K)|]. clear P R.
    unfold mem_row in EM. unfold exec_row in K. unfold store_small in HS.
    destruct (e_sem e) as [i sc st|T0 len stride st Tw stw|T0 len stride st|T0 st|T0 st|T0 st r1 r2| |acc|tr| | |f] eqn:Es; try discriminate EM;
      injection EM as EM; apply bind_ok in EM as (o' & Eo & EM); injection EM as <- <- <-.
    + destruct (_ && _); [|discriminate]. rewrite Eo in K. cbn [bind] in K. injection K as K. apply with_m_mem in K as (v & E1 & A1 & _). rewrite A1, (vld_mem _ _ _ _ _ E1). apply confined_refl.
    + rewrite Eo in K. cbn [bind] in K. injection K as K. apply with_m_mem in K as (v & E1 & A1 & _). rewrite A1. exact (vst_confined T0 o' (to_m s) v HS EF E1).
    + rewrite Eo in K. cbn [bind] in K. injection K as K. apply with_m_mem in K as (v & E1 & A1 & _). rewrite A1. exact (vst_confined T0 o' (to_m s) v HS EF E1).
  - apply R in K. split; [intros HJ HW; exact (row_keeps true a jk HJ e w s s' HW K)|]. clear P R. unfold mem_row in EM. unfold exec_row in K.
    assert (X : w_mem s' = w_mem s); [|rewrite X; apply confined_refl].
    destruct (e_sem e) as [i sc st|T0 len stride st Tw stw|T0 len stride st|T0 st|T0 st|T0 st r1 r2| |acc|tr| | |f] eqn:Es; try discriminate EM; try discriminate K; injection K as K;
      repeat (apply bind_ok in K as (? & _ & K)).
    all: first [exact (with_v_mem _ _ _ K)|exact (with_c_mem _ _ _ K)|injection K as <-; reflexivity].
Qed.

Section Mach.
  Context {S : Type}.
  Notation arch := (arch (C := core S)).
  Variable d : decoder.
  Variable zbb : Z -> option act.
  Variable sys : act -> Z -> arch -> (Z -> Z) -> arch * (Z -> Z) * Z * option Z.
  Variable junk : Z -> Z -> vbytes.
  Variable ljunk : Z -> Z.
  Notation exec := (exec1 d zbb sys junk ljunk).
  Hypothesis Hd : decoder_ok d.
  Hypothesis Hsys : sys_ok sys.

  Definition kept_by (s : arch) (m : Z -> Z) (f : effect (C := core S)) : Prop :=
    0 <= f_pc f < 2 ^ 32 /\ confined 3 m (f_mem f) /\ (junk_ok junk -> sized s m -> sized (f_arch f) (f_mem f)).
  Lemma u32_mod x : 0 <= u32 x < 2 ^ 32.
  Proof. apply Z.mod_pos_bound. reflexivity. Qed.
  Lemma sized_core (g : core S -> core S) (s : arch) m : (forall k, k_acc (g k) = k_acc k /\ k_dw (g k) = k_dw k) -> sized s m -> sized (with_core g s) m.
  Proof.
    intros H (A & B & C & D & E). destruct (H (a_csr s)) as [H1 H2]. unfold sized, with_core. cbn [a_regs a_csr]. rewrite H1, H2. split; [exact A|]. split; [exact B|]. split; [exact C|]. split; [exact D|exact E].
  Qed.
  Lemma sized_dst r v (s : arch) m : sized s m -> sized (set_dst r v s) m.
  Proof.
    intros (A & B & C & D & E). pose proof (u32_mod v) as V.
    assert (U : forall n, sized (Arch (upd (a_regs s) n (u32 v)) (a_csr s)) m).
    { intros n. split; [|split; [|split; [exact C|split; [exact D|exact E]]]]; cbn [a_regs]; intros r0 Hr; unfold upd; destruct (_ =? n).
      - exact V. - now apply A. - split; [apply V|]. transitivity (2 ^ 32); [apply V|reflexivity]. - now apply B. }
    destruct r; cbn [set_dst]; try apply U; (split; [exact A|]; split; [exact B|]; split; [exact C|]; split; [exact D|exact E]).
  Qed.
  Lemma tock_ok (s : arch) m : sized s m -> sized (with_core tock s) m.
  Proof. apply sized_core. intros; split; reflexivity. Qed.
  Lemma wrong_ok (s : arch) m : sized s m -> sized (with_core wrong s) m.
  Proof. apply sized_core. intros; split; reflexivity. Qed.
  Lemma keep_same s m s' a t : 0 <= a < 2 ^ 32 -> (sized s m -> sized s' m) -> kept_by s m (Eff s' m a t).
  Proof. intros A B. split; [exact A|]. split; [apply confined_refl|]. intros _. exact B. Qed.
  Lemma keep_normal s m s' a : (sized s m -> sized s' m) -> kept_by s m (normal s' m a).
  Proof. intros H. apply keep_same; [apply u32_mod|]. intros K. apply tock_ok. now apply H. Qed.
  Lemma keep_wrong s m a : kept_by s m (went_wrong s m a).
  Proof. apply keep_same; [apply u32_mod|]. apply wrong_ok. Qed.
  Lemma keep_trap c s m a : kept_by s m (trapped c s m a).
  Proof. apply keep_same; [apply u32_mod|]. apply tock_ok. Qed.
  Lemma kinds_store : forallb (fun p => match snd p with KStore T => smallb T | _ => true end) kinds = true.
  Proof. vm_compute. reflexivity. Qed.
  Lemma find_in {A} n (l : list (string * A)) v : DecodeTypes.find n l = Some v -> exists k, In (k, v) l.
  Proof.
    induction l as [|[k x] l IH]; cbn [DecodeTypes.find]; [discriminate|]. destruct (String.eqb _ _).
    - intros E. injection E as <-. exists k. now left.
    - intros E. destruct (IH E) as [k' H]. exists k'. now right.
  Qed.
  Lemma store_kind c T : act_kind c = KStore T -> smallb T = true.
  Proof.
    unfold act_kind. destruct (a_sem c) as [|[n ?] ?]; [discriminate|]. destruct (DecodeTypes.find n kinds) as [k|] eqn:E; [|discriminate]. intros ->.
    apply find_in in E as [k E]. exact (proj1 (forallb_forall _ _) kinds_store _ E).
  Qed.
  Lemma scalar_keeps c a s m : kept_by s m (exec_scalar sys ljunk c a s m).
  Proof.
    unfold exec_scalar. destruct (act_kind c) as [f| | | | |b|T|T| | | |] eqn:Ek.
    - destruct (a_src c) as [|p [|q [|]]]; try apply keep_wrong. destruct (a_dst c) as [|r [|]]; try apply keep_wrong. apply keep_normal. apply sized_dst.
    - destruct (a_src c) as [|p [|]]; try apply keep_wrong. destruct (a_dst c) as [|r [|]]; try apply keep_wrong. apply keep_normal. apply sized_dst.
    - destruct (a_src c) as [|p [|]]; try apply keep_wrong. destruct (a_dst c) as [|r [|]]; try apply keep_wrong. apply keep_normal. apply sized_dst.
    - destruct (a_src c) as [|p [|]]; try apply keep_wrong. destruct (a_dst c) as [|x [|r [|]]]; try apply keep_wrong. apply keep_same; [apply u32_mod|].
      intros K. apply tock_ok, sized_dst, K.
    - destruct (a_src c) as [|p [|q [|]]]; try apply keep_wrong. destruct (a_dst c) as [|x [|r [|]]]; try apply keep_wrong. apply keep_same; [|intros K; apply tock_ok, sized_dst, K].
      set (v := u32 (u32 (value1 (a_regs s) p) + u32 (value1 (a_regs s) q))). pose proof (u32_mod (u32 (value1 (a_regs s) p) + u32 (value1 (a_regs s) q))) as V. fold v in V. clearbody v.
      rewrite (eq_refl : Z.land v (2 ^ 32 - 2) = Z.land v (Z.land (2 ^ 32 - 2) (Z.ones 32))), Z.land_assoc, Z.land_ones by lia. apply Z.mod_pos_bound. reflexivity.
    - destruct (a_src c) as [|p [|q [|o [|]]]]; try apply keep_wrong. destruct (a_dst c) as [|x [|]]; try apply keep_wrong. apply keep_same; [|apply tock_ok].
      destruct (b _ _); apply u32_mod.
    - destruct (a_src c) as [|p [|q [|]]]; try apply keep_wrong. destruct (a_dst c) as [|x]; try apply keep_wrong. destruct (max_address <? _); [apply keep_trap|].
      destruct (a_child c) as [[x [|r [|]]]|]; try apply keep_wrong. apply keep_normal. apply sized_dst.
    - destruct (a_src c) as [|p [|q [|o [|]]]]; try apply keep_wrong. destruct (a_dst c) as [|x]; try apply keep_wrong.
      destruct (Z.ltb_spec max_address (MachModel.store_addr (value1 (a_regs s) p) (value1 (a_regs s) q))) as [L|L]; [apply keep_trap|].
      split; [apply u32_mod|]. unfold normal. cbn [f_mem f_arch]. unfold exec_store. fold (MachModel.store_addr (value1 (a_regs s) p) (value1 (a_regs s) q)). split.
      + apply mem_put_confined; [apply sizeof_small, (store_kind c), Ek|]. split; [|exact L]. rewrite store_addr_mod. apply Z.mod_pos_bound. reflexivity.
      + intros _ (A & B & C & D & E). apply tock_ok. split; [exact A|]. split; [exact B|]. split; [exact C|]. split; [exact D|]. now apply mem_put_bytes.
    - apply keep_normal. auto.
    - apply keep_same; [apply u32_mod|apply tock_ok].
    - destruct (a_src c) as [|p [|]]; try apply keep_wrong. destruct (a_dst c) as [|x]; try apply keep_wrong. destruct (log_op _ _ _ _ _) as [op|]; [|apply keep_normal; auto].
      destruct (exec_log _ _ _) as [[l| |]|]; [|apply keep_wrong..]. apply keep_same; [apply u32_mod|]. intros K. apply tock_ok. apply sized_core; [|exact K]. intros; split; reflexivity.
    - pose proof (Hsys c a s m) as H. destruct (sys c a s m) as [[[s' m'] a'] t]. destruct H as (H1 & H2 & H3).
      assert (Q : kept_by s m (Eff (with_core tock s') m' a' (raised t))) by (split; [exact H1|]; split; [exact H2|]; intros _ K; apply tock_ok, H3, K).
      destruct (a_src c); exact Q.
  Qed.
  Lemma vector_keeps e w a s m : store_small e = true -> kept_by s m (exec_vector junk e w a s m).
  Proof.
    intros HS. unfold exec_vector. destruct (vec_step e w a (to_w s m) (junk (k_clock (a_csr s)))) as [[[s' t]| |]|] eqn:E; try apply keep_wrong.
    apply vec_step_keeps in E; [|exact HS]. destruct E as [E1 E2].
    split; [apply u32_mod|]. cbn [f_mem f_arch]. split; [exact E2|]. intros HJ (A & B & C & D & F). apply tock_ok.
    destruct E1 as ((W1 & W2 & W3) & WX & WM).
    { intros r j Hj. now apply HJ. }
    { split; [|split; [exact A|exact F]]. split; [|split; [exact C|exact D]]. intros r j _. apply mod256. }
    unfold sized, of_w. cbn [a_regs a_csr k_acc k_dw]. split.
    - intros r Hr. replace (r <? 64) with true by lia. now apply WX.
    - split; [|split; [exact W2|split; [exact W3|exact WM]]]. intros r Hr. replace (64 + r <? 64) with false by lia.
      apply (le_range (w_v s' (64 + r - 64)) 32 0). intros j Hj. apply W1. exact Hj.
  Qed.
  Theorem exec_keeps w a s m : kept_by s m (exec w a s m).
  Proof.
    unfold exec1. destruct (parse d w) as [e|] eqn:E.
    - assert (HS : store_small e = true).
      { apply parse_sound in E; [|exact Hd]. exact (proj1 (forallb_forall _ _) store_small_all e (proj1 E)). }
      destruct (e_sem e) eqn:Es; try apply scalar_keeps; apply vector_keeps; exact HS.
    - destruct (zbb w); [apply scalar_keeps|apply keep_trap].
  Qed.

  (** ** Runs *)
  Theorem run_keeps n (x : TopSpec.mach (C := core S)) : 0 <= TopSpec.m_pc x < 2 ^ 32 ->
    let y := TopSpec.ref exec n x in
    0 <= TopSpec.m_pc y < 2 ^ 32 /\ confined 3 (TopSpec.m_mem x) (TopSpec.m_mem y) /\
    (junk_ok junk -> sized (TopSpec.m_arch x) (TopSpec.m_mem x) -> sized (TopSpec.m_arch y) (TopSpec.m_mem y)).
  Proof.
    intros H0. induction n as [|n IH]; [split; [exact H0|]; split; [apply confined_refl|auto]|]. cbv zeta in *. cbn [TopSpec.ref].
    set (y := TopSpec.ref exec n x) in *. clearbody y. destruct IH as (A & B & C). unfold TopSpec.ref_step. destruct (_ =? ebreak).
    - cbn [TopSpec.m_pc TopSpec.m_mem TopSpec.m_arch]. split; [apply Z.mod_pos_bound; reflexivity|]. split; [exact B|exact C].
    - cbv zeta. cbn [TopSpec.m_pc TopSpec.m_mem TopSpec.m_arch]. destruct (exec_keeps (TopSpec.word_at y) (TopSpec.m_pc y) (TopSpec.m_arch y) (TopSpec.m_mem y)) as (D & E & F).
      split; [exact D|]. split; [exact (confined_trans _ _ _ _ B E)|]. intros HJ HS. exact (F HJ (C HJ HS)).
  Qed.
  Theorem halt_reasons (x : TopSpec.mach (C := core S)) r : TopSpec.ref_halt exec x = Some r -> r = RUserRequest \/ r = RAbort.
  Proof.
    unfold TopSpec.ref_halt. destruct (_ =? _); [intros E; injection E as <-; now right|]. intros E. left. exact (only_request d zbb sys junk ljunk _ _ _ _ _ E).
  Qed.
End Mach.
