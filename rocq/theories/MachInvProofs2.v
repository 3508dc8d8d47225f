(** * Which words can be undefined: proofs *)
From Coq Require Import ZArith List Bool Lia String.
From Coq Require Import ZifyBool ZifyNat.
From Verif Require Import CInt VecModel VecSpec LaneSpec ConvModel ConvSpec MemModel MemSpec LogModel LogSpec.
From Verif Require Import DecodeTypes DecodeModel DecodeSpec V2DecTypes V2DecModel V1ScalModel.
From Verif Require Import VecProofs VecFrame DecodeProofs DecodeProofs3 TopModel MachModel MachSpec MachInvSpec MachInvProofs.
From Verif Require LogProofs TopSpec.
Import ListNotations.
Open Scope list_scope.
Open Scope Z_scope.

(** ** Vector words *)
Definition ubb (s : sem) : bool := match s with SmVec (VEl (OShift _) T) _ _ => bits T =? 32 | SmDwconv _ => true | _ => false end.
Definition named (l : list string) (e : entry) : bool := existsb (String.eqb (e_name e)) l.
Lemma named_in l e : named l e = true -> In (e_name e) l.
Proof. unfold named. intros H. apply existsb_exists in H as (x & H & E). apply String.eqb_eq in E. now rewrite E. Qed.
Lemma ubb_names : forallb (fun e => implb (ubb (e_sem e)) (named risky_names e)) all_entries = true.
Proof. vm_compute. reflexivity. Qed.
Lemma word_ub_ubb s k : word_ub s k -> ubb s = true.
Proof.
  destruct s as [i ? ?| | | | | | | | | | |]; cbn [word_ub ubb]; try (intros []; fail); try reflexivity.
  intros [H _]. destruct i as [[]| | | | | |]; cbn [may_overflow] in H; try (now destruct H). now apply Z.eqb_eq.
Qed.
Lemma row_defined d a jk w e s : decoder_ok d -> parse d w = Some e -> ~ risky d w -> ~ is_scalar_op (e_sem e) -> wstate_ok s ->
  exists s', exec_row true a jk e w s = Some (Ok s').
Proof.
  intros Hd Hp HR HS HW. pose proof (parse_sound d w e Hd Hp) as He.
  assert (Hc : canonical w e).
  { intros HL. destruct (Z.eq_dec (w mod 32) 6) as [E|E].
    - unfold xbits. change (2 ^ 0) with 1. rewrite Z.div_1_r. exact E.
    - exfalso. apply HR. exists e. split; [exact Hp|]. right. split; [exact HL|exact E]. }
  destruct (row_runs true a jk e w s He Hc HS HW) as (r & E & Hr). rewrite E. destruct r as [s'|k|]; [now exists s'| |destruct Hr].
  exfalso. apply HR. exists e. split; [exact Hp|]. left. cbn [safe] in Hr. apply word_ub_ubb in Hr.
  pose proof (proj1 (forallb_forall _ _) ubb_names e (proj1 He)) as N. cbv beta in N. rewrite Hr in N. now apply named_in.
Qed.
Lemma vec_defined a jk w e s s0 : exec_row true a jk e w s = Some (Ok s0) -> exists s' t, vec_step e w a s jk = Some (Ok (s', t)).
Proof.
  intros K. unfold vec_step. rewrite K. cbn [option_map bind].
  destruct (mem_row e w s) as [r|] eqn:EM; [|eauto]. unfold mem_row in EM. unfold exec_row in K.
  assert (ST : forall T o, with_m s (exec_vst T o (to_m s)) = Ok s0 ->
    exists b, st_fault T o (w_v s) = Ok b /\ exists v, with_m s (post_only T o (to_m s)) = Ok v).
  { intros T o K'. apply with_m_mem in K' as (v & K' & _). unfold exec_vst in K'. unfold st_fault, post_only, with_m.
    apply bind_ok in K' as (n & -> & K'). cbn [bind]. apply bind_ok in K' as (sd & -> & K'). cbn [bind]. apply bind_ok in K' as (c & Ec & K').
    change (m_v (to_m s)) with (w_v s) in Ec. rewrite Ec. cbn [bind].
    apply bind_ok in K' as (m & _ & K'). apply bind_ok in K' as (p & -> & K'). cbn [bind]. eexists; split; [reflexivity|]. eauto. }
  destruct (e_sem e) as [i sc st|T0 len stride st Tw stw|T0 len stride st|T0 st|T0 st|T0 st r1 r2| |acc|tr| | |f] eqn:Es; try discriminate EM; injection EM as <-.
  - destruct (_ && _); [|discriminate]. injection K as K. apply bind_ok in K as (o & -> & K). cbn [bind]. apply with_m_mem in K as (v & K & _). unfold exec_vld in K.
    apply bind_ok in K as (n & En & K). apply bind_ok in K as (sd & Es' & K). apply bind_ok in K as (c & Ec & K).
    apply bind_ok in K as (vals & _ & K). apply bind_ok in K as (rf & _ & K). apply bind_ok in K as (p & Ep & K).
    unfold ld_fault. rewrite En. cbn [bind]. rewrite Es'. cbn [bind]. rewrite Ec. cbn [bind]. destruct (beyond n c); [|eauto].
    unfold with_m, post_only. rewrite En. cbn [bind]. rewrite Es'. cbn [bind]. rewrite Ep. cbn [bind]. eauto.
  - injection K as K. apply bind_ok in K as (o & -> & K). cbn [bind]. destruct (ST _ _ K) as (b & -> & v & Ev). cbn [bind]. rewrite ?Ev. destruct b; cbn [bind]; eauto.
  - injection K as K. apply bind_ok in K as (o & -> & K). cbn [bind]. destruct (ST _ _ K) as (b & -> & v & Ev). cbn [bind]. rewrite ?Ev. destruct b; cbn [bind]; eauto.
Qed.

(** ** Scalar words *)
Definition shapeb (k : MachModel.kind) (ns nd : nat) (ch : option nat) : bool :=
  match k, ns, nd, ch with
  | KAlu _, 2%nat, 1%nat, _ | KLui, 1%nat, 1%nat, _ | KAuipc, 1%nat, 1%nat, _ | KJal, 1%nat, 2%nat, _ | KJalr, 2%nat, 2%nat, _
  | KBranch _, 3%nat, 1%nat, _ | KLoad _, 2%nat, 0%nat, Some 1%nat | KStore _, 3%nat, 0%nat, _ | KLog, 1%nat, 0%nat, _ => true
  | KNop, _, _, _ | KMpause, _, _, _ | KSys, _, _, _ => true
  | _, _, _, _ => false
  end.
Definition shape_of (c : act) : bool :=
  shapeb (act_kind c) (length (a_src c)) (length (a_dst c)) (option_map (fun p => length (snd p)) (a_child c)).
Lemma shape_any e w w' : shape_of (act1 e w) = shape_of (act1 e w').
Proof.
  unfold shape_of, act_kind. cbn [act1 a_sem a_src a_dst a_child]. rewrite !map_length. destruct (e_child e) as [|x l]; [reflexivity|].
  cbn [option_map snd]. now rewrite !map_length.
Qed.
Definition log_named (e : entry) : bool := match act_kind (act1 e 0) with KLog => let b := bound (act1 e 0) in (b =? 1) || (b =? 2) || named risky_names e | _ => true end.
Lemma rows_shape : forallb (fun e => match e_sem e with SmScalar _ => shape_of (act1 e 0) && log_named e | _ => true end) all_entries = true.
Proof. vm_compute. reflexivity. Qed.
Lemma clog_defined v s : exists l, exec_log log_fuel (Clog v) s = Some (Ok l).
Proof.
  cbn [exec_log]. destruct (word_has_zero (wrap U32 v)) eqn:E; [|eauto]. rewrite LogProofs.word_has_zero_ok in E. apply existsb_exists in E as (x & Hx & E).
  apply Z.eqb_eq in E. subst x. unfold trim. assert (H : find0 (l_clog s ++ bytes4 (wrap U32 v)) <> None).
  { assert (F : forall l, In 0 l -> find0 l <> None); [|apply F; apply in_or_app; now right].
    clear. induction l as [|c l IH]; intros H; [destruct H|]. cbn [find0]. destruct (Z.eqb_spec c 0) as [->|N]; [discriminate|].
    destruct H as [H|H]; [congruence|]. specialize (IH H). destruct (find0 l); [discriminate|congruence]. }
  destruct (find0 _); [eexists; reflexivity|congruence].
Qed.

Section Mach.
  Context {S : Type}.
  Notation arch := (arch (C := core S)).
  Variable d : decoder.
  Variable zbb : Z -> option act.
  Variable sys : act -> Z -> arch -> (Z -> Z) -> arch * (Z -> Z) * Z * option Z.
  Variable junk : Z -> Z -> vbytes.
  Variable ljunk : Z -> Z.
  Notation exec := (exec1 d zbb sys junk ljunk).
  Notation bad s := (k_wrong (a_csr s)).
  Hypothesis Hd : decoder_ok d.
  Hypothesis Hsys : sys_defined sys.
  Hypothesis Hzbb : forall w c, zbb w = Some c -> act_kind c = KSys.

  Lemma dst_bad r v (s : arch) : bad (set_dst r v s) = bad s.
  Proof. destruct r; reflexivity. Qed.
  Lemma sys_bad c a s m : act_kind c = KSys -> bad (f_arch (exec_scalar sys ljunk c a s m)) = bad s.
  Proof.
    intros E. unfold exec_scalar. rewrite E. pose proof (Hsys c a s m) as H.
    destruct (a_src c); destruct (sys c a s m) as [[[s' m'] a'] t]; exact H.
  Qed.
  Lemma scalar_defined c a s m : shape_of c = true -> (act_kind c = KLog -> bound c = 1 \/ bound c = 2) ->
    bad (f_arch (exec_scalar sys ljunk c a s m)) = bad s.
  Proof.
    intros H HL. destruct (act_kind c) eqn:Ek; try (apply sys_bad; exact Ek); unfold shape_of in H; rewrite Ek in H; unfold exec_scalar; rewrite Ek;
      destruct (a_src c) as [|p [|q [|o [|]]]]; try discriminate H; destruct (a_dst c) as [|r [|r' [|]]]; try discriminate H; cbn [normal f_arch with_core a_csr tock k_wrong]; rewrite ?dst_bad; try reflexivity.
    - destruct (max_address <? _); [reflexivity|]. destruct (a_child c) as [[x [|r [|]]]|]; try discriminate H. cbn [normal f_arch with_core a_csr tock k_wrong]. now rewrite dst_bad.
    - destruct (max_address <? _); reflexivity.
    - unfold log_op. destruct (HL eq_refl) as [-> | ->].
      + reflexivity.
      + change (2 =? 0) with false. change (2 =? 1) with false. change (2 =? 2) with true. cbv iota.
        destruct (clog_defined (u32 (value1 (a_regs s) p)) (k_log (a_csr s))) as (l & ->). reflexivity.
  Qed.
  Theorem exec_defined w a s m : ~ risky d w -> sized s m -> bad (f_arch (exec w a s m)) = bad s.
  Proof.
    intros HR (A & B & C & D & F). unfold exec1. destruct (parse d w) as [e|] eqn:Ep.
    - assert (V : ~ is_scalar_op (e_sem e) -> bad (f_arch (exec_vector junk e w a s m)) = bad s).
      { intros HS. destruct (row_defined d a (junk (k_clock (a_csr s))) w e (to_w s m) Hd Ep HR HS) as (s0 & E0).
        { split; [|split; [exact C|exact D]]. intros r j _. apply mod256. }
        destruct (vec_defined _ _ _ _ _ _ E0) as (s' & t & E). unfold exec_vector. rewrite E. reflexivity. }
      destruct (e_sem e) eqn:Es; try (apply V; intros []; fail).
      pose proof (parse_sound d w e Hd Ep) as He. pose proof (proj1 (forallb_forall _ _) rows_shape e (proj1 He)) as N. cbv beta in N. rewrite Es in N.
      apply andb_true_iff in N as [N1 N2]. apply scalar_defined; [now rewrite (shape_any e w 0)|]. intros K.
      unfold log_named in N2. change (act_kind (act1 e 0)) with (act_kind (act1 e w)) in N2. rewrite K in N2. change (bound (act1 e 0)) with (bound (act1 e w)) in N2. cbv zeta in N2.
      destruct (named risky_names e) eqn:Nm; [|lia]. exfalso. apply HR. exists e. split; [exact Ep|]. left. now apply named_in.
    - destruct (zbb w) as [c|] eqn:Ez; [apply sys_bad; exact (Hzbb w c Ez)|reflexivity].
  Qed.
  Theorem run_defined (x : TopSpec.mach (C := core S)) : sys_ok sys -> junk_ok junk -> 0 <= TopSpec.m_pc x < 2 ^ 32 -> sized (TopSpec.m_arch x) (TopSpec.m_mem x) ->
    forall n, (forall i, (i < n)%nat -> ~ risky d (TopSpec.word_at (TopSpec.ref exec i x))) ->
    bad (TopSpec.m_arch (TopSpec.ref exec n x)) = bad (TopSpec.m_arch x).
  Proof.
    intros HY HJ H0 HS n. induction n as [|n IH]; intros HR; [reflexivity|].
    rewrite <- IH by (intros i Hi; apply HR; lia). pose proof (HR n (Nat.lt_succ_diag_r n)) as R.
    destruct (run_keeps d zbb sys junk ljunk Hd HY n x H0) as (_ & _ & W). specialize (W HJ HS). cbn [TopSpec.ref].
    set (y := TopSpec.ref exec n x) in *. clearbody y. unfold TopSpec.ref_step. destruct (_ =? ebreak); [reflexivity|].
    cbv zeta. cbn [TopSpec.m_arch]. exact (exec_defined _ _ _ _ R W).
  Qed.
End Mach.
