(** * The memory an instruction of the V1 core touches: proofs *)
From Coq Require Import ZArith List Bool Lia String.
From Coq Require Import ZifyBool ZifyNat.
From Verif Require Import CInt VecModel VecSpec LaneSpec ConvModel ConvSpec MemModel MemSpec LogModel LogSpec.
From Verif Require Import DecodeTypes DecodeTable DecodeModel DecodeSpec V2DecTypes V2DecModel V2DecSpec V1ScalModel V1ScalSpec.
From Verif Require LogProofs.
From Verif Require Import VecProofs VecFrame MemProofs DecodeProofs DecodeProofs3 DecodeProofs4 V1ScalProofs TopModel RvSpec MachModel MachSpec MachProofs MachProofs2 MachProofs5 MachProofs6 FootSpec.
Import ListNotations.
Open Scope list_scope.
Open Scope Z_scope.

(** ** Vector instructions *)
Definition setm (m : Z -> Z) (s : wstate) : wstate := WS m (w_v s) (w_x s) (w_acc s) (w_dw s) (w_traps s).
Definition accesses (k : sem) : bool := match k with SmLd _ _ _ _ _ _ | SmSt _ _ _ _ | SmStq _ _ => true | _ => false end.
(** Rows that are not loads or stores neither read nor change memory. *)
Lemma row_apart pc jk e w s m : accesses (e_sem e) = false ->
  exec_row true pc jk e w (setm m s) = option_map (fun r => x <- r ;; Ok (setm m x)) (exec_row true pc jk e w s) /\
  forall x, exec_row true pc jk e w s = Some (Ok x) -> w_mem x = w_mem s.
Proof.
  intros H. unfold exec_row. destruct (e_sem e) eqn:Es; try discriminate H; unfold with_v, with_c.
  all: split; [cbn [option_map]; try reflexivity; apply f_equal|intros x K; try discriminate K].
  all: try (injection K as K; repeat (apply bind_ok in K as (? & _ & K)); injection K as <-; reflexivity).
  all: repeat match goal with
    | |- bind ?x _ = bind (bind ?y _) _ => change y with x; destruct x; cbn [bind]; try reflexivity
    end.
Qed.
Lemma le_ext m m' n : forall a, (forall x, a <= x < a + Z.of_nat n -> m' x = m x) -> le m' a n = le m a n.
Proof.
  induction n as [|n IH]; intros a H; [reflexivity|]. cbn [le]. rewrite (H a) by lia. rewrite (IH (a + 1)); [reflexivity|]. intros x Hx. apply H. lia.
Qed.
Lemma mem_get_ext T m m' a : (forall x, a <= x < a + sizeof T -> m' x = m x) -> mem_get T m' a = mem_get T m a.
Proof. intros H. unfold mem_get. rewrite (le_ext m m'); [reflexivity|]. intros x Hx. apply H. assert (0 < sizeof T) by (destruct T; reflexivity). lia. Qed.
Lemma for_n_ext {A} (f g : Z -> A -> outcome A) n : forall s, (forall i x, 0 <= i < Z.of_nat n -> f i x = g i x) -> for_n n f s = for_n n g s.
Proof.
  induction n as [|n IH]; intros s H; [reflexivity|]. cbn [for_n]. rewrite IH by (intros; apply H; lia). destruct (for_n n g s); cbn [bind]; try reflexivity. apply H. lia.
Qed.
Lemma vld_apart T o jk s m : VecProofs.small T -> op_ok o -> (forall x, element T o false x -> m x = m_mem s x) ->
  exec_vld T o jk (MS m (m_v s) (m_x s)) = (r <- exec_vld T o jk s ;; Ok (MS m (m_v r) (m_x r))).
Proof.
  intros HT Ho H. unfold exec_vld. cbn [m_mem m_v m_x]. rewrite num_ops_regs.
  destruct (mcount_ok T o HT Ho) as [-> Hn]. cbn [bind].
  destruct (mstride_ok T o HT Ho) as (st & -> & Hst & Hst2 & _). cbn [bind].
  destruct (mbase_ok o) as [-> Hb]. pose proof (regs_14 o) as H14.
  destruct (vld_addrs_ok T (regs_of o) (nsel T o) st (MemSpec.base_of o) HT ltac:(lia) Hn Hb) as (a & -> & Ha). cbn [bind].
  assert (E : load_all T m (nsel T o) a = load_all T (m_mem s) (nsel T o) a).
  { unfold load_all. apply for_n_ext. intros i x Hi. rewrite Ha by lia. rewrite (mem_get_ext T (m_mem s) m); [reflexivity|].
    intros y Hy. apply H. exists i. split; [lia|]. unfold covers. rewrite eaddr_ad, <- Hst2 by exact HT. replace (lanebytes T) with (sizeof T) by (destruct T; reflexivity). exact Hy. }
  rewrite E. destruct (load_all T (m_mem s) (nsel T o) a) as [vals| |]; cbn [bind]; try reflexivity.
  destruct (vld_write _ _ _ _ _ _ _) as [rf| |]; cbn [bind]; try reflexivity. destruct (post_addr _ _ _ _) as [p| |]; reflexivity.
Qed.
Lemma post_apart T o s m : post_only T o (MS m (m_v s) (m_x s)) = (r <- post_only T o s ;; Ok (MS m (m_v r) (m_x r))).
Proof.
  unfold post_only. destruct (mcount T o) as [n| |]; cbn [bind]; try reflexivity. destruct (mstride T o) as [k| |]; cbn [bind]; try reflexivity.
  destruct (post_addr T o n k); reflexivity.
Qed.
(** Two results that differ at most in memory. *)
Definition alike (r r' : option (outcome (wstate * option Z))) : Prop :=
  match r, r' with
  | Some (Ok (x, t)), Some (Ok (x', t')) => t' = t /\ exists m, x' = setm m x
  | Some (Ok _), _ | _, Some (Ok _) => False
  | _, _ => True
  end.
Lemma vst_apart T o s m : match exec_vst T o s, exec_vst T o (MS m (m_v s) (m_x s)) with
  | Ok r, Ok r' => m_v r' = m_v r /\ m_x r' = m_x r
  | Ok _, _ | _, Ok _ => False
  | _, _ => True
  end.
Proof.
  unfold exec_vst. cbn [m_mem m_v m_x]. destruct (mcount T o) as [n| |]; cbn [bind]; trivial. destruct (mstride T o) as [k| |]; cbn [bind]; trivial.
  destruct (vst_entries _ _ _ _ _ _ _ _) as [c| |]; cbn [bind]; trivial.
  assert (E : forall N m1 m2, match for_n N (fun i m => match c i with Some (ad, v) => Ok (mem_put T m ad v) | None => UB Uninitialised end) m1,
    for_n N (fun i m => match c i with Some (ad, v) => Ok (mem_put T m ad v) | None => UB Uninitialised end) m2 with Ok _, Ok _ => True | Ok _, _ | _, Ok _ => False | _, _ => True end).
  { induction N as [|N IH]; intros m1 m2; cbn [for_n]; [exact I|]. specialize (IH m1 m2). destruct (for_n N _ m1), (for_n N _ m2); try (now destruct IH); cbn [bind]; trivial.
    destruct (c (Z.of_nat N)) as [[? ?]|]; exact I. }
  specialize (E (Z.to_nat n) (m_mem s) m). unfold store_all. destruct (for_n _ _ (m_mem s)), (for_n _ _ m); try (now destruct E); cbn [bind]; trivial.
  destruct (post_addr _ _ _ _); cbn [bind]; trivial. now split.
Qed.
Lemma row_ld_apart a jk e w s m T len stride st Tw stw : encodes e w -> e_sem e = SmLd T len stride st Tw stw -> w_x s 0 = 0 ->
  (forall x, element T (mem_operands true w s len stride st false (has_xs2 (e_name e)) (has_post (e_name e)) 4) false x -> m x = w_mem s x) ->
  exec_row true a jk e w (setm m s) = option_map (fun r => x <- r ;; Ok (setm m x)) (exec_row true a jk e w s).
Proof.
  intros He Es H0 H.
  assert (HT : VecProofs.small T) by (apply (small_of e w T He); now rewrite Es).
  destruct (mem_row_ld e w s _ _ _ _ _ _ He Es H0) as (two' & post' & n' & A' & B' & C' & L' & E').
  destruct (names_mem e two' post' (names_ok e (proj1 He))) as [-> ->]; try assumption; [now rewrite Es|].
  unfold mem_row in E'. rewrite Es in E'. unfold exec_row. rewrite Es. destruct (_ && _); [|reflexivity]. cbn [option_map]. apply f_equal.
  change (mop_of true e w (setm m s) len stride st false 0 (nth 0 (map (dst_op e w) (e_child e)) OOther))
    with (mop_of true e w s len stride st false 0 (nth 0 (map (dst_op e w) (e_child e)) OOther)).
  destruct (mop_of true e w s len stride st false 0 _) as [o| |] eqn:Eo; [|discriminate E'|discriminate E']. cbn [bind] in *. injection E' as ->.
  set (o := mem_operands true w s len stride st false _ _ n') in *.
  assert (Ho : op_ok o) by (apply mo_ops; exact A').
  change (to_m (setm m s)) with (MS m (m_v (to_m s)) (m_x (to_m s))). rewrite (vld_apart T o jk (to_m s) m HT Ho H).
  unfold with_m. destruct (exec_vld T o jk (to_m s)); reflexivity.
Qed.
Lemma vec_alike a jk e w s m : encodes e w -> w_x s 0 = 0 ->
  (forall T len stride st Tw stw, e_sem e = SmLd T len stride st Tw stw -> forall x,
    element T (mem_operands true w s len stride st false (has_xs2 (e_name e)) (has_post (e_name e)) 4) false x -> m x = w_mem s x) ->
  alike (vec_step e w a s jk) (vec_step e w a (setm m s) jk).
Proof.
  intros He H0 HL.
  assert (EM : mem_row e w (setm m s) = mem_row e w s) by (unfold mem_row; destruct (e_sem e); reflexivity).
  assert (R : exec_row true a jk e w (setm m s) = option_map (fun r => x <- r ;; Ok (setm m x)) (exec_row true a jk e w s) ->
    alike (option_map (fun r => s' <- r ;; Ok (s', match w_traps s' with (c, _) :: _ => Some c | [] => None end)) (exec_row true a jk e w s))
          (option_map (fun r => s' <- r ;; Ok (s', match w_traps s' with (c, _) :: _ => Some c | [] => None end)) (exec_row true a jk e w (setm m s)))).
  { intros ->. destruct (exec_row true a jk e w s) as [[x| |]|]; cbn [option_map bind alike]; trivial. split; [reflexivity|]. now exists m. }
  assert (P : forall T o c, alike (Some (s' <- with_m s (post_only T o (to_m s)) ;; Ok (s', Some c))) (Some (s' <- with_m (setm m s) (post_only T o (to_m (setm m s))) ;; Ok (s', Some c)))).
  { intros T o c. change (to_m (setm m s)) with (MS m (m_v (to_m s)) (m_x (to_m s))). rewrite post_apart. unfold with_m.
    destruct (post_only T o (to_m s)) as [v| |]; cbn [bind alike]; trivial. split; [reflexivity|]. now exists m. }
  unfold vec_step. rewrite EM. change (w_v (setm m s)) with (w_v s).
  destruct (accesses (e_sem e)) eqn:Ha.
  2: { replace (mem_row e w s) with (@None (outcome (ity * mop * bool))) by (unfold mem_row; destruct (e_sem e); (reflexivity || discriminate Ha)). apply R. now apply row_apart. }
  destruct (mem_row e w s) as [[[[T o] load]| |]|] eqn:Em; cbn [bind].
  - destruct (if load then ld_fault T o else st_fault T o (w_v s)) as [[|]| |]; cbn [bind]; [apply P| |exact I|exact I].
    destruct (e_sem e) eqn:Es; try discriminate Ha.
    + apply R. exact (row_ld_apart a jk e w s m _ _ _ _ _ _ He Es H0 (HL _ _ _ _ _ _ eq_refl)).
    + unfold exec_row. rewrite Es. cbn [option_map].
      change (mop_of true e w (setm m s) len stride strip false 1 (nth 0 (map (src_op e w) (e_src e)) OOther)) with (mop_of true e w s len stride strip false 1 (nth 0 (map (src_op e w) (e_src e)) OOther)).
      destruct (mop_of true e w s len stride strip false 1 _) as [o'| |]; cbn [bind alike]; trivial.
      pose proof (vst_apart T0 o' (to_m s) m) as V. change (to_m (setm m s)) with (MS m (m_v (to_m s)) (m_x (to_m s))). unfold with_m.
      destruct (exec_vst T0 o' (to_m s)) as [r| |], (exec_vst T0 o' (MS m _ _)) as [r'| |]; try (now destruct V); cbn [bind alike]; trivial.
      split; [reflexivity|]. destruct V as [V1 V2]. exists (m_mem r'). unfold setm. cbn [w_mem w_v w_x w_acc w_dw w_traps]. now rewrite V1, V2.
    + unfold exec_row. rewrite Es. cbn [option_map].
      change (mop_of true e w (setm m s) false true strip true 1 (nth 0 (map (src_op e w) (e_src e)) OOther)) with (mop_of true e w s false true strip true 1 (nth 0 (map (src_op e w) (e_src e)) OOther)).
      destruct (mop_of true e w s false true strip true 1 _) as [o'| |]; cbn [bind alike]; trivial.
      pose proof (vst_apart T0 o' (to_m s) m) as V. change (to_m (setm m s)) with (MS m (m_v (to_m s)) (m_x (to_m s))). unfold with_m.
      destruct (exec_vst T0 o' (to_m s)) as [r| |], (exec_vst T0 o' (MS m _ _)) as [r'| |]; try (now destruct V); cbn [bind alike]; trivial.
      split; [reflexivity|]. destruct V as [V1 V2]. exists (m_mem r'). unfold setm. cbn [w_mem w_v w_x w_acc w_dw w_traps]. now rewrite V1, V2.
  - exact I.
  - exact I.
  - unfold mem_row in Em. destruct (e_sem e); discriminate.
Qed.

(** ** The loop of a text *)
Lemma text_apart (m m' : Z -> Z) (j0 a : Z) : (forall x, 0 <= m x < 256) -> (forall x, text_byte m a x -> m' x = m x) ->
  let b k := (a + 4 * k) mod 2 ^ 32 in
  forall n k data acc, 0 <= k -> (k = 0 \/ b k < max_address) ->
  (forall j, 0 <= j < k -> (j = 0 /\ top_address <= b 0) \/ (b j < top_address /\ forall i, 0 <= i < 4 -> m (b j + i) <> 0)) ->
  load_loop n (LE m' max_address (fun x => max_address <? x) j0) (b k) data acc = load_loop n (LE m max_address (fun x => max_address <? x) j0) (b k) data acc.
Proof.
  intros Hm HE b. induction n as [|n IH]; intros k data acc Hk Hb HC; [reflexivity|]. cbn [load_loop e_fault e_mem e_max].
  assert (N : wrap U32 (b k + 4) = b (k + 1)).
  { unfold wrap, b. change (modulus U32) with (2 ^ 32). cbn [is_signed]. rewrite Zplus_mod_idemp_l. f_equal. lia. }
  rewrite N. destruct (max_address <? b k) eqn:F.
  - destruct (negb (word_has_zero data) && (b (k + 1) <? max_address)) eqn:G; [|reflexivity]. apply IH; [lia|right; lia|].
    intros j Hj. destruct (Z.eq_dec j k) as [->|Nj]; [|apply HC; lia]. left. destruct Hb as [->|Hb]; [|lia]. split; [reflexivity|]. unfold max_address, top_address in *. lia.
  - assert (E : le m' (b k) 4 = le m (b k) 4).
    { apply le_ext. intros x Hx. apply HE. exists k. split; [exact Hk|]. fold b. split; [unfold max_address, top_address in *; lia|]. split; [lia|exact HC]. }
    rewrite E. set (data' := le m (b k) 4).
    destruct (negb (word_has_zero data') && (b (k + 1) <? max_address)) eqn:G; [|reflexivity]. apply IH; [lia|right; lia|].
    intros j Hj. destruct (Z.eq_dec j k) as [->|Nj]; [|apply HC; lia]. right. split; [unfold max_address, top_address in *; lia|].
    apply andb_true_iff in G as [G _]. apply negb_true_iff in G. unfold data' in G. rewrite LogProofs.word_has_zero_ok, LogProofs.bytes4_le in G by exact Hm.
    intros i Hi Z0. cbn [existsb] in G. assert (D : i = 0 \/ i = 1 \/ i = 2 \/ i = 3) by lia.
    destruct D as [->|[->|[->| ->]]]; rewrite ?Z.add_0_r in Z0; rewrite Z0 in G; rewrite ?orb_true_r in G; cbn in G; rewrite ?orb_true_r in G; discriminate G.
Qed.
Lemma string_apart (m m' : Z -> Z) j0 n a : (forall x, 0 <= m x < 256) -> (forall x, text_byte m a x -> m' x = m x) ->
  string_load n (LE m' max_address (fun x => max_address <? x) j0) a = string_load n (LE m max_address (fun x => max_address <? x) j0) a.
Proof.
  intros Hm HE. unfold string_load. cbn [e_junk]. pose proof (text_apart m m' j0 a Hm HE n 0 j0 []) as H. cbv beta zeta in H. rewrite Z.mul_0_r, Z.add_0_r in H.
  change (wrap U32 a) with (a mod 2 ^ 32). rewrite H; [reflexivity|lia|now left|intros; lia].
Qed.
