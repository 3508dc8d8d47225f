(** * Proofs for the V1 machine: memory accesses and their faults *)
From Coq Require Import ZArith List Bool String Lia ZifyBool ZifyNat.
From Verif Require Import CInt VecModel VecSpec VecProofs ConvModel ConvSpec MemModel MemSpec MemProofs.
From Verif Require Import DecodeTypes DecodeTable DecodeModel DecodeSpec DecodeProofs DecodeProofs2 DecodeProofs3 DecodeProofs4.
From Verif Require Import TopModel MachModel MachSpec.
Import ListNotations.
Open Scope string_scope.
Open Scope Z_scope.

Lemma beyond_ok n a (A : Z -> Z) : 0 <= n -> (forall e, 0 <= e < n -> a e = Some (A e)) ->
  beyond n a = true <-> exists e, 0 <= e < n /\ max_address < A e.
Proof.
  intros Hn Ha. unfold beyond. rewrite existsb_exists. split.
  - intros (i & Hi & H). apply in_seq in Hi. exists (Z.of_nat i). rewrite Ha in H by lia. split; [lia|]. now apply Z.ltb_lt.
  - intros (e & He & H). exists (Z.to_nat e). split; [apply in_seq; lia|]. rewrite Z2Nat.id, Ha by lia. now apply Z.ltb_lt.
Qed.
Lemma ld_fault_ok T o : VecProofs.small T -> op_ok o -> exists f, ld_fault T o = Ok f /\
  (f = true <-> exists e, 0 <= e < nsel T o /\ max_address < eaddr T o false e).
Proof.
  intros HT Ho. unfold ld_fault. rewrite num_ops_regs.
  destruct (mcount_ok T o HT Ho) as [-> Hn]. cbn [bind].
  destruct (mstride_ok T o HT Ho) as (st & -> & Hst & Hst2 & _). cbn [bind].
  destruct (mbase_ok o) as [-> Hb]. pose proof (regs_14 o) as H14.
  destruct (vld_addrs_ok T (regs_of o) (nsel T o) st (base_of o) HT ltac:(lia) Hn Hb) as (a & -> & Ha). cbn [bind].
  eexists. split; [reflexivity|]. apply beyond_ok; [lia|]. intros e He. rewrite Ha by exact He.
  now rewrite eaddr_ad, Hst2 by exact HT.
Qed.
Lemma st_fault_ok T o rf : VecProofs.small T -> op_ok o -> regs_of o <= g_n (mo_v o) -> exists f, st_fault T o rf = Ok f /\
  (f = true <-> exists e, 0 <= e < nsel T o /\ max_address < eaddr T o (mo_quad o) e).
Proof.
  intros HT Ho Hg. unfold st_fault. rewrite num_ops_regs.
  destruct (mcount_ok T o HT Ho) as [-> Hn]. cbn [bind].
  destruct (mstride_ok T o HT Ho) as (st & -> & Hst & Hst2 & _). cbn [bind].
  destruct (mbase_ok o) as [-> Hb]. pose proof (regs_14 o) as H14.
  destruct (entries_ok T (nsel T o) st (base_of o) (mo_v o) rf HT ltac:(lia) Hb (mo_quad o) (regs_of o))
    as (c & -> & Hc); [lia|lia|]. cbn [bind].
  eexists. split; [reflexivity|]. apply beyond_ok; [lia|]. intros e He. rewrite Hc by exact He.
  unfold ent. cbn [option_map fst]. now rewrite eaddr_ad, Hst2 by exact HT.
Qed.
Lemma post_only_ok T o s : VecProofs.small T -> op_ok o ->
  exists x, post_only T o s = Ok (MS (m_mem s) (m_v s) x) /\ post_spec T o (mo_quad o) (m_x s) x.
Proof.
  intros HT Ho. unfold post_only.
  destruct (mcount_ok T o HT Ho) as [-> Hn]. cbn [bind].
  destruct (mstride_ok T o HT Ho) as (st & -> & Hst & Hst2 & _). cbn [bind].
  destruct (post_ok T o (nsel T o) st (mo_quad o) (m_x s) HT Ho eq_refl eq_refl Hst2 ltac:(lia)) as (p & -> & HP).
  cbn [bind]. eauto.
Qed.

Lemma mem_row_ld e w s T len stride st Tw stw :
  encodes e w -> e_sem e = SmLd T len stride st Tw stw -> w_x s 0 = 0 ->
  exists two post n, (len || stride = true -> two = true) /\ (post = true <-> e_dst e <> []) /\
    (two = true <-> In SVs2 (e_src e)) /\ regs st <= n /\
    mem_row e w s = Some (Ok (T, mem_operands true w s len stride st false two post n, true)).
Proof.
  intros He Es H0. assert (Hc : canonical w e).
  { destruct (meaning_ok e (proj1 He)) as [M _]. rewrite Es in M. specialize (M (fun f => f)).
    eapply not_loose; [eassumption|exact M|exact I]. }
  pose proof (row_ok e w He Hc) as H. unfold rowb in H. rewrite Es in H.
  pose proof (ops_ok e (proj1 He)) as O. unfold opsb in O. rewrite Es in O.
  repeat (apply andb_true_iff in H as [H ?]). repeat (apply andb_true_iff in O as [O ?]).
  unfold mem_row. rewrite Es.
  destruct (e_child e) as [|[] [|]] eqn:Ec; try discriminate. cbn [map nth] in *.
  match goal with K : vecb (kind_of (dst_op e w DVd)) _ = true |- _ => destruct (vd_dst _ _ _ K) as (n & E & Ln) end.
  destruct (mop_word true e w s len stride st false 0 (dst_op e w DVd) n H0 E) as (two & post & A & B & C & D); try assumption.
  - cbn [skipn]. destruct (e_src e) as [|[] [|[] [|]]]; try discriminate; eauto.
  - destruct (e_dst e) as [|[] [|]]; try discriminate; auto.
  - exists two, post, n. cbn [skipn] in C. rewrite D. cbn [bind]. auto.
Qed.
Lemma mem_row_st e w s T len stride st quad :
  encodes e w -> e_sem e = (if quad : bool then SmStq T st else SmSt T len stride st) ->
  (quad = true -> len = false /\ stride = true) -> w_x s 0 = 0 ->
  exists two post n, (len || stride = true -> two = true) /\ (post = true <-> e_dst e <> []) /\
    (two = true <-> In SVs2 (e_src e)) /\ regs st <= n /\
    mem_row e w s = Some (Ok (T, mem_operands true w s len stride st quad two post n, false)).
Proof.
  intros He Es Hq H0. assert (Hc : canonical w e).
  { destruct (meaning_ok e (proj1 He)) as [M _]. rewrite Es in M. specialize (M ltac:(destruct quad; exact (fun f => f))).
    eapply not_loose; [eassumption|exact M|destruct quad; exact I]. }
  pose proof (row_ok e w He Hc) as H. unfold rowb in H.
  pose proof (ops_ok e (proj1 He)) as O. unfold opsb in O.
  unfold mem_row. destruct quad.
  - destruct (Hq eq_refl) as [-> ->]. rewrite Es in *.
    repeat (apply andb_true_iff in H as [H ?]). repeat (apply andb_true_iff in O as [O ?]).
    assert (Er : e_src e = [SVd; SVs1; SVs2]).
    { destruct (e_src e) as [|[] [|[] [|[] [|]]]]; try discriminate; eauto. }
    rewrite Er in *. cbn [map nth] in *.
    match goal with K : vecb (kind_of (src_op e w SVd)) _ = true |- _ => destruct (vd_src _ _ _ K) as (n & E & Ln) end.
    destruct (mop_word true e w s false true st true 1 (src_op e w SVd) n H0 E) as (two & post & A & B & C & D); rewrite ?Er; try assumption.
    + eexists. split; [reflexivity|]. auto.
    + destruct (e_dst e) as [|[] [|]]; try discriminate; auto.
    + exists two, post, n. rewrite Er in C. cbn [skipn] in C. rewrite D. cbn [bind]. split; [exact A|]. split; [exact B|]. split; [|auto]. rewrite C.
      split; [intros; now right|intros [K|K]; [discriminate|exact K]].
  - rewrite Es in *.
    repeat (apply andb_true_iff in H as [H ?]). repeat (apply andb_true_iff in O as [O ?]).
    assert (A : exists r, e_src e = SVd :: SVs1 :: r /\ (r = [] \/ r = [SVs2])).
    { destruct (e_src e) as [|[] [|[] [|[] [|]]]]; try discriminate; eauto. }
    destruct A as (r & Er & Hr). rewrite Er in *. cbn [map nth] in *.
    match goal with K : vecb (kind_of (src_op e w SVd)) _ = true |- _ => destruct (vd_src _ _ _ K) as (n & E & Ln) end.
    destruct (mop_word true e w s len stride st false 1 (src_op e w SVd) n H0 E) as (two & post & A & B & C & D); rewrite ?Er; try assumption.
    + exists r. auto.
    + destruct (e_dst e) as [|[] [|]]; try discriminate; auto.
    + exists two, post, n. rewrite D. cbn [bind]. rewrite Er in C. cbn [skipn] in C.
      split; [exact A|]. split; [exact B|]. split; [|auto]. rewrite C. split; [intros; now right|intros [K|K]; [discriminate|exact K]].
Qed.

Lemma over_max T o q : over T o q <-> exists e, 0 <= e < nsel T o /\ max_address < eaddr T o q e.
Proof. unfold over, top_address, max_address. split; intros (e & A & B); exists e; (split; [exact A|lia]). Qed.

(** What one load word does to registers and memory. *)
Lemma load_step e w a s jk T len stride st Tw stw :
  encodes e w -> e_sem e = SmLd T len stride st Tw stw -> w_x s 0 = 0 -> w_traps s = [] ->
  let N := if w_m w then 4 else 1 in
  let o := mem_operands true w s len stride st false (has_xs2 (e_name e)) (has_post (e_name e)) N in
  st = w_m w /\ op_ok o /\
  exists x, post_spec T o false (w_x s) x /\
  ((over T o false /\ vec_step e w a s jk = Some (Ok (WS (w_mem s) (w_v s) x (w_acc s) (w_dw s) [], Some 5))) \/
   (~ over T o false /\ exists rf, vec_step e w a s jk = Some (Ok (WS (w_mem s) rf x (w_acc s) (w_dw s) [], None)) /\
     (forall k j, 0 <= k < N -> 0 <= j < nlanes T ->
       lane T (rf (f_vd w + k)) j =
       let n := k * nlanes T + j in
       if n <? nsel T o then trunc T (uval (Z.to_nat (lanebytes T)) (w_mem s) (eaddr T o false n)) else 0) /\
     regs_outside (f_vd w) N (w_v s) rf /\
     (forall k j, 0 <= k < N -> 0 <= j < 32 -> 0 <= rf (f_vd w + k) j < 256))).
Proof.
  intros He Es H0 Ht N o.
  pose proof (select_ok e w He) as Hf. rewrite Es in Hf. cbn [fields_select] in Hf. destruct Hf as (_ & _ & Est & _).
  destruct (ld_word true a jk e w s _ _ _ _ _ _ He Es H0) as (two & post & n & A & B & C & L & E).
  destruct (mem_row_ld e w s _ _ _ _ _ _ He Es H0) as (two' & post' & n' & A' & B' & C' & L' & E').
  destruct (names_mem e two post (names_ok e (proj1 He))) as [-> ->]; try assumption; [now rewrite Es|].
  destruct (names_mem e two' post' (names_ok e (proj1 He))) as [-> ->]; try assumption; [now rewrite Es|].
  split; [exact Est|]. assert (Ho : op_ok o) by (apply mo_ops; exact A). split; [exact Ho|].
  assert (HT : VecProofs.small T) by (apply (small_of e w T He); now rewrite Es).
  set (p := has_post (e_name e)) in *. set (t := has_xs2 (e_name e)) in *.
  set (o1 := mem_operands true w s len stride st false t p n) in *.
  set (o2 := mem_operands true w s len stride st false t p n') in *.
  assert (Ho1 : op_ok o1) by (apply mo_ops; exact A).
  assert (Ho2 : op_ok o2) by (apply mo_ops; exact A).
  assert (EN : regs_of o1 = N) by (unfold N, regs_of, o1; cbn [mem_operands mo_strip]; now rewrite Est).
  destruct (ld_fault_ok T o2 HT Ho2) as (f & F & HF). rewrite <- over_max in HF.
  change (over T o2 false) with (over T o false) in HF.
  unfold vec_step. rewrite E'. cbn [bind]. rewrite F. cbn [bind]. destruct f.
  - destruct (post_only_ok T o2 (to_m s) HT Ho2) as (x & X & P). exists x. split; [exact P|]. left. split; [now apply HF|].
    rewrite X. cbn [with_m bind m_mem m_v m_x to_m]. now rewrite Ht.
  - destruct (vld_ok T o1 jk (to_m s) HT Ho1 eq_refl) as (rf & x & X1 & X2 & X3 & X4 & X5).
    { unfold regs_of, regs in *. cbn. exact L. }
    exists x. split; [exact X5|]. right. split; [intros O; apply HF in O; discriminate|].
    exists rf. rewrite E, X1. cbn [with_m bind option_map m_mem m_v m_x to_m w_traps]. rewrite Ht. rewrite EN in *.
    split; [reflexivity|]. split; [exact X2|]. split; [exact X3|exact X4].
Qed.
Lemma store_step e w a s jk T len stride st quad :
  encodes e w -> e_sem e = (if quad : bool then SmStq T st else SmSt T len stride st) ->
  (quad = true -> len = false /\ stride = true) -> wf (w_v s) -> w_x s 0 = 0 -> w_traps s = [] ->
  let N := if w_m w then 4 else 1 in
  let o := mem_operands true w s len stride st quad (has_xs2 (e_name e)) (has_post (e_name e)) N in
  st = w_m w /\ op_ok o /\
  exists x, post_spec T o quad (w_x s) x /\
  ((over T o quad /\ vec_step e w a s jk = Some (Ok (WS (w_mem s) (w_v s) x (w_acc s) (w_dw s) [], Some 7))) \/
   (~ over T o quad /\ exists m, vec_step e w a s jk = Some (Ok (WS m (w_v s) x (w_acc s) (w_dw s) [], None)) /\
     stored T o quad (w_v s) (w_mem s) m)).
Proof.
  intros He Es Hq Hwf H0 Ht N o.
  assert (Est : st = w_m w).
  { pose proof (select_ok e w He) as Hf. rewrite Es in Hf. destruct quad; cbn [fields_select] in Hf; tauto. }
  assert (W : exists n, (len || stride = true -> has_xs2 (e_name e) = true) /\ regs st <= n /\
    exec_row true a jk e w s = Some (with_m s (exec_vst T
      (mem_operands true w s len stride st quad (has_xs2 (e_name e)) (has_post (e_name e)) n) (to_m s)))).
  { destruct quad.
    - destruct (Hq eq_refl) as [-> ->]. destruct (stq_word true a jk e w s _ _ He Es H0) as (post & n & B & L & E).
      destruct (names_mem e true post (names_ok e (proj1 He))) as [-> <-]; [now rewrite Es|exact B| |eauto].
      pose proof (ops_ok e (proj1 He)) as O. unfold opsb in O. rewrite Es in O. apply andb_true_iff in O as [O _].
      split; [|reflexivity]. intros _. destruct (e_src e) as [|[] [|[] [|[] [|]]]]; try discriminate. cbn. auto.
    - destruct (st_word true a jk e w s _ _ _ _ He Es H0) as (two & post & n & A & B & C & L & E).
      destruct (names_mem e two post (names_ok e (proj1 He))) as [-> ->]; try assumption; [now rewrite Es|]. eauto. }
  destruct W as (n & A & L & E).
  destruct (mem_row_st e w s _ _ _ _ _ He Es Hq H0) as (two' & post' & n' & A' & B' & C' & L' & E').
  destruct (names_mem e two' post' (names_ok e (proj1 He))) as [-> ->]; try assumption; [rewrite Es; now destruct quad|].
  split; [exact Est|]. assert (Ho : op_ok o) by (apply mo_ops; exact A). split; [exact Ho|].
  assert (HT : VecProofs.small T) by (apply (small_of e w T He); rewrite Es; destruct quad; reflexivity).
  set (p := has_post (e_name e)) in *. set (t := has_xs2 (e_name e)) in *.
  set (o1 := mem_operands true w s len stride st quad t p n) in *.
  set (o2 := mem_operands true w s len stride st quad t p n') in *.
  assert (Ho1 : op_ok o1) by (apply mo_ops; exact A).
  assert (Ho2 : op_ok o2) by (apply mo_ops; exact A).
  destruct (st_fault_ok T o2 (w_v s) HT Ho2) as (f & F & HF). { unfold regs_of, regs in *. cbn. exact L'. }
  rewrite <- over_max in HF. change (over T o2 (mo_quad o2)) with (over T o quad) in HF.
  unfold vec_step. rewrite E'. cbn [bind]. rewrite F. cbn [bind]. destruct f.
  - destruct (post_only_ok T o2 (to_m s) HT Ho2) as (x & X & P). exists x. split; [exact P|]. left. split; [now apply HF|].
    rewrite X. cbn [with_m bind m_mem m_v m_x to_m]. now rewrite Ht.
  - destruct (vst_ok T o1 (to_m s) HT Ho1) as (m & x & X1 & X2 & X3); [exact Hwf|unfold regs_of, regs in *; cbn; exact L|].
    exists x. split; [exact X3|]. right. split; [intros O; apply HF in O; discriminate|].
    exists m. rewrite E, X1. cbn [with_m bind option_map m_mem m_v m_x to_m w_traps]. rewrite Ht.
    split; [reflexivity|]. exact X2.
Qed.
