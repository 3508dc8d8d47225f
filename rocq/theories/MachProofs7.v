(** * Proofs for the V1 machine: the remaining vector instructions *)
From Coq Require Import ZArith List Bool String Lia ZifyBool ZifyNat.
From Verif Require Import CInt VecModel VecSpec VecProofs VecFrame VecEl VecFam VecPerm LaneSpec ConvModel ConvSpec ConvProofs ConvProofs2 MemModel MemSpec MemProofs LogModel.
From Verif Require Import DecodeTypes DecodeTable DecodeModel DecodeSpec DecodeProofs DecodeProofs2 DecodeProofs3 DecodeProofs4.
From Verif Require MachProofs3.
From Verif Require Import V2DecModel V1ScalModel TopModel MachModel MachSpec MachInvSpec MachVecSpec MachProofs MachProofs2 MachInvProofs.
Import ListNotations.
Open Scope string_scope.
Open Scope Z_scope.

(** Bytes stay bytes, whatever the accumulators hold. *)
Lemma adwinit_bytes jk (HJ : forall r j, 0 <= j < 32 -> 0 <= jk r j < 256) g gd s s' : wf (c_v s) -> exec_adwinit g gd jk s = Ok s' -> wf (c_v s').
Proof.
  intros H1 K. unfold exec_adwinit in K. apply bind_ok in K as (st & E & K). injection K as <-. cbn [c_v].
  apply (for_n_inv (fun st : vregs * (Z -> Z) => wf (fst st)) _ _ _ _ E H1).
  intros op a b _ Ha K. apply bind_ok in K as (r & Er & K). destruct (op <? g_n gd); [|discriminate]. injection K as <-. cbn [fst].
  unfold get_reg in Er. destruct (_ && _); [|discriminate]. injection Er as <-. apply upd_wf; [exact Ha|]. intros j Hj. destruct (j <? 8); [now apply Ha|now apply HJ].
Qed.
Lemma dwconv_bytes jk (HJ : forall r j, 0 <= j < 32 -> 0 <= jk r j < 256) wa g1 g3 gd c pc s s' : wf (c_v s) -> exec_vdwconv wa g1 g3 gd c pc jk s = Ok s' -> wf (c_v s').
Proof.
  intros H1 K. unfold exec_vdwconv in K. destruct (dw_index _) as [[i0 i1] i2].
  apply bind_ok in K as (r0 & _ & K). apply bind_ok in K as (r1 & _ & K). apply bind_ok in K as (r2 & _ & K).
  destruct (dw_adata _ _ _ _) as [a|]; [|discriminate]. destruct (c_dw s) as [acc0|] eqn:Ed; [|discriminate]. apply bind_ok in K as (acc & E & K).
  destruct (negb wa); [injection K as <-; exact H1|]. apply bind_ok in K as (rf & E2 & K). injection K as <-. cbn [c_v].
  exact (lanes_wf jk HJ 4 8 (fun i j => acc (i * 8 + j)) gd U32 (c_v s) rf E2 H1).
Qed.
Lemma dwconv_none wa vs1 vs3 vd c pc jk s : c_dw s = None -> 9 <= g_n vs1 -> exists k, exec_vdwconv wa vs1 vs3 vd c pc jk s = UB k.
Proof.
  intros Hn G1. unfold exec_vdwconv. rewrite dw_fields. cbn [dc_regbase dc_sparsity].
  pose proof (fld_range c 4 4 ltac:(lia)) as R4. change (2 ^ 4) with 16 in R4.
  rewrite dw_index_regs by assumption.
  pose proof (dw_regs_range _ R4) as RR. destruct (dw_regs (fld c 4 4)) as [[x y] z] eqn:ER.
  rewrite !(get_reg_ok vs1 (c_v s) x), !(get_reg_ok vs1 (c_v s) y), !(get_reg_ok vs1 (c_v s) z) by lia.
  cbn [bind]. destruct (dw_adata _ _ _ _); [|eauto]. rewrite Hn. eauto.
Qed.

Section Mach.
  Context {S : Type}.
  Notation arch := (arch (C := core S)).
  Notation effect := (effect (C := core S)).
  Variable d : decoder.
  Variable zbb : Z -> option act.
  Variable sys : act -> Z -> arch -> (Z -> Z) -> arch * (Z -> Z) * Z * option Z.
  Variable junk : Z -> Z -> vbytes.
  Variable ljunk : Z -> Z.
  Notation exec := (exec1 d zbb sys junk ljunk).

  (** A row that is neither scalar nor an access and raises no trap. *)
  Definition plain (e : entry) : Prop := match e_sem e with SmScalar _ | SmLd _ _ _ _ _ _ | SmSt _ _ _ _ | SmStq _ _ => False | _ => True end.
  Lemma mach_row w e a s m s' : parse d w = Some e -> plain e ->
    exec_row true a (junk (k_clock (a_csr s))) e w (to_w s m) = Some (Ok s') -> w_traps s' = [] ->
    exec w a s m = Eff (with_core tock (of_w s s')) (w_mem s') (next a) None.
  Proof.
    intros Hp Hk E Ht. rewrite (exec_vec d zbb sys junk ljunk w e) by (try assumption; unfold plain in Hk; intros K; destruct (e_sem e); now destruct K).
    unfold exec_vector, vec_step. replace (mem_row e w (to_w s m)) with (@None (outcome (ity * mop * bool))).
    - rewrite E. cbn [option_map bind]. rewrite Ht. reflexivity.
    - unfold mem_row, plain in *. now destruct (e_sem e).
  Qed.
  (** The row left memory, scalar registers and the core alone. *)
  Lemma mach_v w e a s m rf vd n : parse d w = Some e -> plain e ->
    exec_row true a (junk (k_clock (a_csr s))) e w (to_w s m) = Some (with_v (to_w s m) (Ok rf)) ->
    wf rf -> only_written vd n (vbyte s) rf ->
    writes_v a s m (exec w a s m) vd n /\ forall r j, 0 <= r -> 0 <= j < 32 -> vbyte (f_arch (exec w a s m)) r j = rf r j.
  Proof.
    intros Hp Hk E W F. rewrite (mach_row w e a s m (WS m rf (a_regs s) (k_acc (a_csr s)) (k_dw (a_csr s)) []) Hp Hk E eq_refl).
    assert (V : forall r j, 0 <= r -> 0 <= j < 32 -> vbyte (with_core tock (of_w s (WS m rf (a_regs s) (k_acc (a_csr s)) (k_dw (a_csr s)) []))) r j = rf r j).
    { intros r j Hr Hj. apply of_w_v; [exact Hr|exact Hj|]. intros i Hi. now apply W. }
    split; [|exact V]. split; [repeat split|]. split; [intros i Hi; now apply of_w_x|]. split; [reflexivity|]. split; [reflexivity|].
    intros r j Hr Ho Hj. etransitivity; [exact (V r j Hr Hj)|]. now apply F.
  Qed.

  Lemma xv (s : arch) m r : a_regs s 0 = 0 -> xval (to_w s m) r = a_regs s r.
  Proof. intros H0. unfold xval. cbn [to_w w_x]. destruct (r =? 0) eqn:E; [|reflexivity]. apply Z.eqb_eq in E. now rewrite E. Qed.

  (** Arithmetic rows. *)
  Lemma mach_vec w e a s m i sc st (P : vregs -> Prop) n :
    decoder_ok d -> parse d w = Some e -> meaning (e_name e) = Some (SmVec i sc st) -> a_regs s 0 = 0 ->
    (forall n1 s2 nd jk, st = w_m w -> legal_dec i sc st -> need1 i st <= n1 -> need_dst i st <= nd ->
      (two_operands i -> exists n2, nops st <= n2 /\ s2 = (if sc then SScal (a_regs s (f_xs2 w)) else SVec (f_vs2 w) n2) /\ sc = (w_form w =? 2)) ->
      exists rf, VecModel.exec i sc st {| o_s0 := SVec (f_vs1 w) n1; o_s1 := s2; o_vd := f_vd w; o_nd := nd |} jk (vbyte s) = Ok rf /\
        wf rf /\ only_written (f_vd w) n (vbyte s) rf /\ P rf) ->
    exists rf, P rf /\ writes_v a s m (exec w a s m) (f_vd w) n /\ forall r j, 0 <= r -> 0 <= j < 32 -> vbyte (f_arch (exec w a s m)) r j = rf r j.
  Proof.
    intros Hd Hp M H0 H. pose proof (parse_sound d w e Hd Hp) as He. pose proof (sem_of e _ (proj1 He) M (fun f => f)) as Es.
    destruct (vec_fields e w _ _ _ He Es) as [Est Hsc].
    destruct (vec_word true a (junk (k_clock (a_csr s))) e w (to_w s m) _ _ _ He Es H0) as (n1 & s2 & nd & L1 & L2 & E2 & E).
    destruct (H n1 s2 nd (junk (k_clock (a_csr s))) Est (legal_of e w _ _ _ He Es) L1 L2) as (rf & X1 & X2 & X3 & X4).
    - intros T2. destruct (E2 T2) as (n2 & L3 & ->). exists n2. split; [exact L3|]. unfold second. rewrite (xv s m _ H0).
      split; [reflexivity|]. specialize (Hsc T2). destruct (Z.eqb_spec (w_form w) 2) as [K|K].
      + now apply Hsc.
      + destruct sc; [|reflexivity]. destruct K. now apply Hsc.
    - change (w_v (to_w s m)) with (vbyte s) in E. rewrite X1 in E.
      destruct (mach_v w e a s m rf (f_vd w) n Hp) as (A & B); [unfold plain; now rewrite Es|exact E|exact X2|exact X3|].
      exists rf. split; [exact X4|]. split; [exact A|exact B].
  Qed.
  Lemma vd_nonneg w : 0 <= f_vd w.
  Proof. unfold f_vd. apply Z.mod_pos_bound. lia. Qed.
  Lemma wide_small Td Ts : wide_pair Td Ts -> VecProofs.small Td.
  Proof. unfold wide_pair, VecProofs.small. cbn [In]. intuition congruence. Qed.
  Lemma narrow_small Td Ts : narrow_pair Td Ts -> VecProofs.small Td.
  Proof. unfold narrow_pair, VecProofs.small. cbn [In]. intuition congruence. Qed.
  Lemma arg2_src T w (s : arch) n2 k i : arg2 T (vbyte s) (if w_form w =? 2 then SScal (a_regs s (f_xs2 w)) else SVec (f_vs2 w) n2) k i = arg2 T (vbyte s) (src2 w s) k i.
  Proof. unfold src2. now destruct (w_form w =? 2). Qed.

  Theorem mach_widen w e a s m o Td Ts sc st :
    decoder_ok d -> parse d w = Some e -> meaning (e_name e) = Some (SmVec (VWiden o Td Ts) sc st) -> a_regs s 0 = 0 ->
    let N := nops (w_m w) in let f := exec w a s m in
    no_hazard N (f_vd w) (f_vs1 w) -> no_hazard N (f_vd w + N) (f_vs1 w) ->
    (w_form w <> 2 -> no_hazard N (f_vd w) (f_vs2 w) /\ no_hazard N (f_vd w + N) (f_vs2 w)) ->
    writes_v a s m f (f_vd w) (2 * N) /\
    forall k p i, 0 <= k < N -> p = 0 \/ p = 1 -> 0 <= i < nlanes Td ->
      w_spec o Td Ts (lane Ts (vbyte s (f_vs1 w + k)) (2 * i + p)) (arg2 Ts (vbyte s) (src2 w s) k (2 * i + p))
             (lane Td (vbyte (f_arch f) (f_vd w + p * N + k)) i).
  Proof.
    intros Hd Hp M H0 N f H1 H2 H3.
    destruct (mach_vec w e a s m _ _ _ (fun rf => VecProofs.small Td /\ forall k p i, 0 <= k < N -> p = 0 \/ p = 1 -> 0 <= i < nlanes Td ->
      w_spec o Td Ts (lane Ts (vbyte s (f_vs1 w + k)) (2 * i + p)) (arg2 Ts (vbyte s) (src2 w s) k (2 * i + p)) (lane Td (rf (f_vd w + p * N + k)) i)) (2 * N) Hd Hp M H0)
      as (rf & (HT & L) & W & V).
    - intros n1 s2 nd jk -> HL L1 L2 E2. destruct (E2 I) as (n2 & L3 & -> & ->). cbn [need1 need_dst legal_dec] in *.
      destruct (widen_exec o Td Ts (w_form w =? 2) (w_m w) (f_vd w) nd (f_vs1 w) n1 (if w_form w =? 2 then SScal (a_regs s (f_xs2 w)) else SVec (f_vs2 w) n2) jk (vbyte s) HL (to_w_wf s m) L2 L1 H1 H2)
        as (rf & X1 & X2 & X3 & X4).
      { unfold second_wide. destruct (Z.eqb_spec (w_form w) 2) as [K|K]; [reflexivity|]. split; [reflexivity|]. split; [exact L3|]. now apply H3. }
      exists rf. split; [exact X1|]. split; [exact X2|]. split; [exact X3|]. split; [exact (wide_small _ _ HL)|].
      intros k p i Hk Hpp Hi. rewrite <- (arg2_src _ _ _ n2). now apply X4.
    - split; [exact W|]. intros k p i Hk Hpp Hi. fold f in V.
      rewrite (lane_ext Td (vbyte (f_arch f) (f_vd w + p * N + k)) (rf (f_vd w + p * N + k)) i HT Hi); [now apply L|]. intros j Hj. apply V; [|exact Hj].
      pose proof (vd_nonneg w). destruct Hpp as [->| ->]; lia.
  Qed.
  Theorem mach_acc w e a s m Td Ts sc st :
    decoder_ok d -> parse d w = Some e -> meaning (e_name e) = Some (SmVec (VAcc Td Ts) sc st) -> a_regs s 0 = 0 ->
    let N := nops (w_m w) in let f := exec w a s m in
    (forall p q, p = 0 \/ p = 1 -> q = 0 \/ q = 1 -> no_hazard N (f_vd w + p * N) (f_vs1 w + q * N)) ->
    (w_form w <> 2 -> no_hazard N (f_vd w) (f_vs2 w) /\ no_hazard N (f_vd w + N) (f_vs2 w)) ->
    writes_v a s m f (f_vd w) (2 * N) /\
    forall k p i, 0 <= k < N -> p = 0 \/ p = 1 -> 0 <= i < nlanes Td ->
      LaneSpec.is_mod (bits Td) (is_signed Td)
        (lane Td (vbyte s (f_vs1 w + p * N + k)) i + arg2 Ts (vbyte s) (src2 w s) k (2 * i + p))
        (lane Td (vbyte (f_arch f) (f_vd w + p * N + k)) i).
  Proof.
    intros Hd Hp M H0 N f H1 H3.
    destruct (mach_vec w e a s m _ _ _ (fun rf => VecProofs.small Td /\ forall k p i, 0 <= k < N -> p = 0 \/ p = 1 -> 0 <= i < nlanes Td ->
      LaneSpec.is_mod (bits Td) (is_signed Td)
        (lane Td (vbyte s (f_vs1 w + p * N + k)) i + arg2 Ts (vbyte s) (src2 w s) k (2 * i + p)) (lane Td (rf (f_vd w + p * N + k)) i)) (2 * N) Hd Hp M H0)
      as (rf & (HT & L) & W & V).
    - intros n1 s2 nd jk -> HL L1 L2 E2. destruct (E2 I) as (n2 & L3 & -> & ->). cbn [need1 need_dst legal_dec] in *.
      destruct (acc_exec Td Ts (w_form w =? 2) (w_m w) (f_vd w) nd (f_vs1 w) n1 (if w_form w =? 2 then SScal (a_regs s (f_xs2 w)) else SVec (f_vs2 w) n2) jk (vbyte s) HL (to_w_wf s m) L2 L1 H1)
        as (rf & X1 & X2 & X3 & X4).
      { unfold second_wide. destruct (Z.eqb_spec (w_form w) 2) as [K|K]; [reflexivity|]. split; [reflexivity|]. split; [exact L3|]. now apply H3. }
      exists rf. split; [exact X1|]. split; [exact X2|]. split; [exact X3|]. split; [exact (wide_small _ _ HL)|].
      intros k p i Hk Hpp Hi. rewrite <- (arg2_src _ _ _ n2). now apply X4.
    - split; [exact W|]. intros k p i Hk Hpp Hi. fold f in V.
      rewrite (lane_ext Td (vbyte (f_arch f) (f_vd w + p * N + k)) (rf (f_vd w + p * N + k)) i HT Hi); [now apply L|]. intros j Hj. apply V; [|exact Hj].
      pose proof (vd_nonneg w). destruct Hpp as [->| ->]; lia.
  Qed.
  Theorem mach_pair w e a s m sub Td Ts sc st :
    decoder_ok d -> parse d w = Some e -> meaning (e_name e) = Some (SmVec (VPair sub Td Ts) sc st) -> a_regs s 0 = 0 ->
    let N := nops (w_m w) in let f := exec w a s m in
    no_hazard N (f_vd w) (f_vs1 w) ->
    writes_v a s m f (f_vd w) N /\
    forall k i, 0 <= k < N -> 0 <= i < nlanes Td ->
      w_spec (if sub then WSub else WAdd) Td Ts (lane Ts (vbyte s (f_vs1 w + k)) (2 * i)) (lane Ts (vbyte s (f_vs1 w + k)) (2 * i + 1))
             (lane Td (vbyte (f_arch f) (f_vd w + k)) i).
  Proof.
    intros Hd Hp M H0 N f H1.
    destruct (mach_vec w e a s m _ _ _ (fun rf => VecProofs.small Td /\ forall k i, 0 <= k < N -> 0 <= i < nlanes Td ->
      w_spec (if sub then WSub else WAdd) Td Ts (lane Ts (vbyte s (f_vs1 w + k)) (2 * i)) (lane Ts (vbyte s (f_vs1 w + k)) (2 * i + 1)) (lane Td (rf (f_vd w + k)) i)) N Hd Hp M H0)
      as (rf & (HT & L) & W & V).
    - intros n1 s2 nd jk -> HL L1 L2 _. cbn [need1 need_dst legal_dec] in *.
      destruct (pair_exec sub Td Ts sc (w_m w) (f_vd w) nd (f_vs1 w) n1 s2 jk (vbyte s) HL (to_w_wf s m) L2 L1 H1) as (rf & X1 & X2 & X3 & X4).
      exists rf. split; [exact X1|]. split; [exact X2|]. split; [exact X3|]. split; [exact (wide_small _ _ HL)|exact X4].
    - split; [exact W|]. intros k i Hk Hi. fold f in V.
      rewrite (lane_ext Td (vbyte (f_arch f) (f_vd w + k)) (rf (f_vd w + k)) i HT Hi); [now apply L|]. intros j Hj. apply V; [|exact Hj]. pose proof (vd_nonneg w). lia.
  Qed.
  Theorem mach_unary w e a s m o T sc st :
    decoder_ok d -> parse d w = Some e -> meaning (e_name e) = Some (SmVec (VUn o T) sc st) -> a_regs s 0 = 0 ->
    let N := nops (w_m w) in let f := exec w a s m in
    no_hazard N (f_vd w) (f_vs1 w) ->
    writes_v a s m f (f_vd w) N /\
    forall k i, 0 <= k < N -> 0 <= i < nlanes T -> un_spec o T (lane T (vbyte s (f_vs1 w + k)) i) (lane T (vbyte (f_arch f) (f_vd w + k)) i).
  Proof.
    intros Hd Hp M H0 N f H1.
    destruct (mach_vec w e a s m _ _ _ (fun rf => VecProofs.small T /\ forall k i, 0 <= k < N -> 0 <= i < nlanes T ->
      un_spec o T (lane T (vbyte s (f_vs1 w + k)) i) (lane T (rf (f_vd w + k)) i)) N Hd Hp M H0)
      as (rf & (HT & L) & W & V).
    - intros n1 s2 nd jk -> HL L1 L2 _. cbn [need1 need_dst legal_dec] in *.
      destruct (un_exec o T sc (w_m w) (f_vd w) nd (f_vs1 w) n1 s2 jk (vbyte s) HL (to_w_wf s m) L2 L1 H1) as (rf & X1 & X2 & X3 & X4).
      exists rf. split; [exact X1|]. split; [exact X2|]. split; [exact X3|]. split; [|exact X4].
      clear - HL. unfold un_legal, VecProofs.small in *. cbn [In] in *. destruct o; intuition congruence.
    - split; [exact W|]. intros k i Hk Hi. fold f in V.
      rewrite (lane_ext T (vbyte (f_arch f) (f_vd w + k)) (rf (f_vd w + k)) i HT Hi); [now apply L|]. intros j Hj. apply V; [|exact Hj]. pose proof (vd_nonneg w). lia.
  Qed.

  Theorem mach_narrow w e a s m r Td Ts sc st :
    decoder_ok d -> parse d w = Some e -> meaning (e_name e) = Some (SmVec (VNarrow r Td Ts) sc st) -> a_regs s 0 = 0 ->
    let N := nops (w_m w) in let q := ratio Td Ts in let f := exec w a s m in
    (forall t, 0 <= t < q -> no_hazard N (f_vd w) (f_vs1 w + t * N)) -> (w_form w <> 2 -> no_hazard N (f_vd w) (f_vs2 w)) ->
    writes_v a s m f (f_vd w) N /\
    forall k i, 0 <= k < N -> 0 <= i < nlanes Td ->
      let sh := arg2 Td (vbyte s) (src2 w s) k i mod bits Ts in
      lane Td (vbyte (f_arch f) (f_vd w + k)) i =
      clamp (bits Td) (is_signed Td)
        ((lane Ts (vbyte s (f_vs1 w + narrow_reg q i * N + k)) (i / q) + (if r && (0 <? sh) then 2 ^ (sh - 1) else 0)) / 2 ^ sh).
  Proof.
    intros Hd Hp M H0 N q f H1 H3.
    destruct (mach_vec w e a s m _ _ _ (fun rf => VecProofs.small Td /\ forall k i, 0 <= k < N -> 0 <= i < nlanes Td ->
      let sh := arg2 Td (vbyte s) (src2 w s) k i mod bits Ts in
      lane Td (rf (f_vd w + k)) i =
      clamp (bits Td) (is_signed Td)
        ((lane Ts (vbyte s (f_vs1 w + narrow_reg q i * N + k)) (i / q) + (if r && (0 <? sh) then 2 ^ (sh - 1) else 0)) / 2 ^ sh)) N Hd Hp M H0)
      as (rf & (HT & L) & W & V).
    - intros n1 s2 nd jk -> HL L1 L2 E2. destruct (E2 I) as (n2 & L3 & -> & ->). cbn [need1 need_dst legal_dec] in *.
      destruct (narrow_exec r Td Ts (w_form w =? 2) (w_m w) (f_vd w) nd (f_vs1 w) n1 (if w_form w =? 2 then SScal (a_regs s (f_xs2 w)) else SVec (f_vs2 w) n2) jk (vbyte s) HL (to_w_wf s m) L2 L1 H1)
        as (rf & X1 & X2 & X3 & X4).
      { unfold second_ok. destruct (Z.eqb_spec (w_form w) 2) as [K|K]; [reflexivity|]. split; [reflexivity|]. split; [exact L3|]. now apply H3. }
      exists rf. split; [exact X1|]. split; [exact X2|]. split; [exact X3|]. split; [exact (narrow_small _ _ HL)|].
      intros k i Hk Hi. rewrite <- (arg2_src _ _ _ n2). now apply X4.
    - split; [exact W|]. intros k i Hk Hi. fold f in V.
      rewrite (lane_ext Td (vbyte (f_arch f) (f_vd w + k)) (rf (f_vd w + k)) i HT Hi); [now apply L|]. intros j Hj. apply V; [|exact Hj]. pose proof (vd_nonneg w). lia.
  Qed.
  Lemma perm_src p T w (s : arch) n2 N v J :
    perm_lane p T (vbyte s) N v (if w_form w =? 2 then SScal (a_regs s (f_xs2 w)) else SVec (f_vs2 w) n2) J = perm_lane p T (vbyte s) N v (src2 w s) J.
  Proof. unfold src2. now destruct (w_form w =? 2). Qed.
  Lemma lanes_pos T : VecProofs.small T -> 0 < nlanes T.
  Proof. unfold VecProofs.small. cbn [In]. intros H. repeat (destruct H as [<-|H]; [reflexivity|]). destruct H. Qed.
  Theorem mach_perm w e a s m p T sc st :
    decoder_ok d -> parse d w = Some e -> meaning (e_name e) = Some (SmVec (VPerm p T) sc st) -> a_regs s 0 = 0 ->
    let N := nops (w_m w) in let f := exec w a s m in
    apart N (f_vd w) (perm_regs p N) (f_vs1 w) N -> (w_form w <> 2 -> apart N (f_vd w) (perm_regs p N) (f_vs2 w) N) ->
    writes_v a s m f (f_vd w) (perm_regs p N) /\
    forall J, 0 <= J < perm_regs p N * nlanes T -> glane T (vbyte (f_arch f)) (f_vd w) J = perm_lane p T (vbyte s) N (f_vs1 w) (src2 w s) J.
  Proof.
    intros Hd Hp M H0 N f H1 H3.
    destruct (mach_vec w e a s m _ _ _ (fun rf => VecProofs.small T /\ forall J, 0 <= J < perm_regs p N * nlanes T ->
      glane T rf (f_vd w) J = perm_lane p T (vbyte s) N (f_vs1 w) (src2 w s) J) (perm_regs p N) Hd Hp M H0)
      as (rf & (HT & L) & W & V).
    - intros n1 s2 nd jk -> HL L1 L2 E2. destruct (E2 I) as (n2 & L3 & -> & ->). cbn [need1 need_dst legal_dec] in *. destruct HL as [HT HL].
      destruct (perm_exec p T (w_form w =? 2) (w_m w) (f_vd w) nd (f_vs1 w) n1 (if w_form w =? 2 then SScal (a_regs s (f_xs2 w)) else SVec (f_vs2 w) n2) jk (vbyte s) HT (to_w_wf s m) HL L2 L1 H1)
        as (rf & X1 & X2 & X3 & X4).
      { unfold second_apart. destruct (Z.eqb_spec (w_form w) 2) as [K|K]; [reflexivity|]. split; [reflexivity|]. split; [exact L3|]. now apply H3. }
      exists rf. split; [exact X1|]. split; [exact X2|]. split; [exact X3|]. split; [exact HT|].
      intros J HJ. rewrite <- (perm_src _ _ _ _ n2). now apply X4.
    - split; [exact W|]. intros J HJ. fold f in V. rewrite <- L by exact HJ. unfold glane. pose proof (lanes_pos T HT) as HP.
      apply lane_ext; [exact HT|apply Z.mod_pos_bound; exact HP|]. intros j Hj. apply V; [|exact Hj].
      pose proof (vd_nonneg w). assert (0 <= J / nlanes T) by (apply Z.div_pos; lia). lia.
  Qed.

  (** ** Rows with other operands *)
  Lemma other_rows : forallb (fun e => match e_sem e with
      | SmGetVl _ _ r1 r2 => match e_dst e with [DRd] => true | _ => false end &&
          match e_src e with SRs1 :: SRs2 :: _ => true | SRs1 :: _ => negb r2 | _ => negb r1 && negb r2 end
      | SmDwconv acc => match e_src e with [SVs1; SRs2; SVs3] => true | _ => false end && (negb acc || match e_dst e with [DVd] => true | _ => false end)
      | SmAcSet _ => match e_src e with [SVs1] => true | _ => false end
      | SmVcGet => match e_dst e with [DVd] => true | _ => false end
      | SmADwInit => match e_src e with [SVs1] => true | _ => false end && match e_dst e with [DVd] => true | _ => false end
      | _ => true end) all_entries = true.
  Proof. vm_compute. reflexivity. Qed.
  Definition tight (k : sem) : Prop := match k with SmAcSet _ | SmADwInit => False | _ => True end.
  Lemma not_loose' e w k : encodes e w -> meaning (e_name e) = Some k -> tight k -> canonical w e.
  Proof.
    intros He M Hi L. exfalso. unfold loose in L. cbn [In] in L.
    destruct L as [L|[L|[L|[]]]]; rewrite <- L in M; vm_compute in M; injection M as <-; exact Hi.
  Qed.
  (** A row that left memory and scalar registers alone. *)
  Lemma mach_c w e a s m rf acc dw : parse d w = Some e -> plain e ->
    exec_row true a (junk (k_clock (a_csr s))) e w (to_w s m) = Some (with_c (to_w s m) (Ok (CS rf acc dw []))) -> wf rf ->
    goes_on a s m (exec w a s m) /\ same_x s (exec w a s m) /\ k_acc (a_csr (f_arch (exec w a s m))) = acc /\ k_dw (a_csr (f_arch (exec w a s m))) = dw /\
    forall r j, 0 <= r -> 0 <= j < 32 -> vbyte (f_arch (exec w a s m)) r j = rf r j.
  Proof.
    intros Hp Hk E W. rewrite (mach_row w e a s m (WS m rf (a_regs s) acc dw []) Hp Hk E eq_refl).
    split; [repeat split|]. split; [intros i Hi; now apply of_w_x|]. split; [reflexivity|]. split; [reflexivity|].
    intros r j Hr Hj. apply of_w_v; [exact Hr|exact Hj|]. intros i Hi. now apply W.
  Qed.

  Theorem mach_dup w e a s m T st :
    decoder_ok d -> junk_ok junk -> parse d w = Some e -> meaning (e_name e) = Some (SmDup T st) -> a_regs s 0 = 0 ->
    let N := nops (w_m w) in let f := exec w a s m in
    writes_v a s m f (f_vd w) N /\
    forall k i, 0 <= k < N -> 0 <= i < nlanes T -> lane T (vbyte (f_arch f) (f_vd w + k)) i = trunc T (a_regs s (f_xs2 w)).
  Proof.
    intros Hd HJ Hp M H0 N f. pose proof (parse_sound d w e Hd Hp) as He. pose proof (sem_of e _ (proj1 He) M (fun f => f)) as Es.
    destruct (dup_word true a (junk (k_clock (a_csr s))) e w (to_w s m) _ _ He Es H0) as (n & Ln & E).
    pose proof (row_ok e w He (not_loose e w _ He M I)) as R. unfold rowb in R. rewrite Es in R. repeat (apply andb_true_iff in R as [R ?]).
    apply smallb_ok in R. rewrite (xv s m _ H0) in E.
    assert (Est : st = w_m w) by (pose proof (select_ok e w He) as F; rewrite Es in F; apply F).
    destruct (vdup_ok T st (VG (f_vd w) n) (a_regs s (f_xs2 w)) (junk (k_clock (a_csr s))) (vbyte s) R Ln) as (rf & X1 & X2 & X3).
    change (w_v (to_w s m)) with (vbyte s) in E. rewrite X1 in E.
    destruct (mach_v w e a s m rf (f_vd w) N Hp) as (A & B); [unfold plain; now rewrite Es|exact E| | |].
    - refine (vdup_wf _ _ T st _ _ _ _ (to_w_wf s m) X1). intros r j Hj. now apply HJ.
    - unfold N, nops. rewrite <- Est. intros r Hr j. now rewrite (X3 r Hr).
    - split; [exact A|]. intros k i Hk Hi.
      rewrite (lane_ext T (vbyte (f_arch f) (f_vd w + k)) (rf (f_vd w + k)) i R Hi); [apply X2; [|exact Hi]; unfold N, nops in Hk; now rewrite Est|].
      intros j Hj. apply B; [|exact Hj]. pose proof (vd_nonneg w). lia.
  Qed.

  Theorem mach_getvl w e a s m T st r1 r2 :
    decoder_ok d -> parse d w = Some e -> meaning (e_name e) = Some (SmGetVl T st r1 r2) -> a_regs s 0 = 0 ->
    let f := exec w a s m in let cap := nops st * nlanes T in
    goes_on a s m f /\ same_acc s f /\ same_dw s f /\ same_v s f 0 0 /\
    forall i, i < 64 -> 0 <= i -> a_regs (f_arch f) i =
      if (i =? f_rd w) && negb (i =? 0)
      then Z.min cap (Z.min (if r1 then a_regs s (f_xs1 w) mod 2 ^ 32 else cap) (if r2 then a_regs s (f_xs2 w) mod 2 ^ 32 else cap))
      else a_regs s i.
  Proof.
    intros Hd Hp M H0 f cap. pose proof (parse_sound d w e Hd Hp) as He. pose proof (sem_of e _ (proj1 He) M (fun f => f)) as Es.
    pose proof (row_ok e w He (not_loose' e w _ He M I)) as R. unfold rowb in R. rewrite Es in R. repeat (apply andb_true_iff in R as [R ?]).
    pose proof (proj1 (forallb_forall _ _) other_rows e (proj1 He)) as O. cbv beta in O. rewrite Es in O. apply andb_true_iff in O as [O1 O2].
    apply smallb_ok in R. destruct (e_dst e) as [|[] [|]] eqn:Ed; try discriminate O1.
    set (v := Z.min cap (Z.min (if r1 then a_regs s (f_xs1 w) mod 2 ^ 32 else cap) (if r2 then a_regs s (f_xs2 w) mod 2 ^ 32 else cap))).
    assert (E : exec_row true a (junk (k_clock (a_csr s))) e w (to_w s m) =
      Some (Ok (WS m (vbyte s) (upd (a_regs s) (if f_rd w =? 0 then -1 else f_rd w) v) (k_acc (a_csr s)) (k_dw (a_csr s)) []))).
    { unfold exec_row. rewrite Es, Ed. cbn [map nth dst_op]. change (ext FR "rd" w) with (f_rd w).
      replace (to_xdst (if f_rd w =? 0 then OZero else OReg (f_rd w))) with (if f_rd w =? 0 then -1 else f_rd w) by (now destruct (f_rd w =? 0)).
      pose proof (getvl_ok T st (if r1 then Some (a_regs s (f_xs1 w)) else None) (if r2 then Some (a_regs s (f_xs2 w)) else None) R) as [G _]. cbv zeta in G.
      assert (X1 : r1 = true -> rd_scalar (nth 0 (map (src_op e w) (e_src e)) OOther) (to_w s m) = Ok (a_regs s (f_xs1 w))).
      { intros ->. cbn [negb orb] in *. destruct (e_src e) as [|[] l]; try discriminate O2. cbn [map nth] in *.
        match goal with K : xb (kind_of (src_op e w SRs1)) = true |- _ => apply xb_kx in K; destruct (x_src e w SRs1 (to_w s m) H0 K) as [-> _] end.
        change (xfield SRs1 w) with (f_xs1 w). now rewrite (xv s m _ H0). }
      assert (X2 : r2 = true -> rd_scalar (nth 1 (map (src_op e w) (e_src e)) OOther) (to_w s m) = Ok (a_regs s (f_xs2 w))).
      { intros ->. cbn [negb orb] in *. destruct (e_src e) as [|[] [|[] l]]; try discriminate O2; try (now rewrite andb_false_r in O2). cbn [map nth] in *.
        match goal with K : xb (kind_of (src_op e w SRs2)) = true |- _ => apply xb_kx in K; destruct (x_src e w SRs2 (to_w s m) H0 K) as [-> _] end.
        change (xfield SRs2 w) with (f_xs2 w). now rewrite (xv s m _ H0). }
      assert (Y : exec_getvl T st (if r1 then Some (a_regs s (f_xs1 w)) else None) (if r2 then Some (a_regs s (f_xs2 w)) else None) = v).
      { rewrite G. unfold v, cap, nops. destruct r1, r2; reflexivity. }
      destruct r1, r2; rewrite ?(X1 eq_refl), ?(X2 eq_refl); cbn [bind]; rewrite Y; reflexivity. }
    unfold f. rewrite (mach_row w e a s m _ Hp ltac:(unfold plain; now rewrite Es) E eq_refl). cbn [f_arch].
    split; [repeat split|]. split; [reflexivity|]. split; [reflexivity|]. split.
    - intros r j Hr _ Hj. apply of_w_v; [exact Hr|exact Hj|]. intros i Hi. exact (to_w_wf s m r i Hi).
    - intros i Hi Hi0. etransitivity; [apply of_w_x; exact Hi|]. cbn [w_x]. unfold upd.
      destruct (Z.eqb_spec (f_rd w) 0) as [Z0|Z0].
      + replace (i =? -1) with false by lia. rewrite Z0. now destruct (i =? 0).
      + destruct (Z.eqb_spec i (f_rd w)) as [->|Ne]; [|reflexivity]. now replace (f_rd w =? 0) with false by lia.
  Qed.

  Lemma vs1_base' e w n : vecb (kind_of (src_op e w SVs1)) n = true -> g_base (to_group (src_op e w SVs1)) = f_vs1 w /\ n <= g_n (to_group (src_op e w SVs1)).
  Proof. intros K. destruct (vs1_vec _ _ _ K) as (n1 & -> & L). cbn [to_group g_base g_n]. auto. Qed.
  Lemma vd_base e w n : vecb (kind_of (dst_op e w DVd)) n = true -> g_base (to_group (dst_op e w DVd)) = f_vd w /\ n <= g_n (to_group (dst_op e w DVd)).
  Proof. intros K. destruct (vd_dst _ _ _ K) as (n1 & -> & L). cbn [to_group g_base g_n]. auto. Qed.
  Lemma rword_ext rf rf' r c : (forall j, 0 <= j < 32 -> rf r j = rf' r j) -> 0 <= c < 8 -> rword rf r c = rword rf' r c.
  Proof. intros H Hc. unfold rword. apply MachProofs3.uval_ext. intros j Hj. apply H. lia. Qed.

  (** acset, actr *)
  Theorem mach_acset w e a s m tr :
    decoder_ok d -> parse d w = Some e -> meaning (e_name e) = Some (SmAcSet tr) -> canonical w e -> a_regs s 0 = 0 ->
    let f := exec w a s m in
    goes_on a s m f /\ same_x s f /\ same_dw s f /\ same_v s f 0 0 /\ acc_wf (k_acc (a_csr (f_arch f))) /\
    forall r c, 0 <= r < 8 -> 0 <= c < 8 ->
      k_acc (a_csr (f_arch f)) r c = if tr then rword (vbyte s) (f_vs1 w + c) r else rword (vbyte s) (f_vs1 w + r) c.
  Proof.
    intros Hd Hp M Hc H0 f. pose proof (parse_sound d w e Hd Hp) as He. pose proof (sem_of e _ (proj1 He) M (fun f => f)) as Es.
    pose proof (row_ok e w He Hc) as R. unfold rowb in R. rewrite Es in R.
    pose proof (proj1 (forallb_forall _ _) other_rows e (proj1 He)) as O. cbv beta in O. rewrite Es in O.
    destruct (e_src e) as [|[] [|]] eqn:Er; try discriminate O. cbn [map nth] in R. destruct (vs1_base' _ _ _ R) as [B L].
    destruct (acset_ok tr (to_group (src_op e w SVs1)) (to_c (to_w s m)) (to_w_wf s m) L) as (acc & X1 & X2 & X3). rewrite B in X3.
    destruct (mach_c w e a s m (vbyte s) acc (k_dw (a_csr s)) Hp) as (A1 & A2 & A3 & A4 & A5).
    - unfold plain. now rewrite Es.
    - unfold exec_row. rewrite Es, Er. cbn [map nth]. rewrite X1. reflexivity.
    - exact (to_w_wf s m).
    - fold f in A1, A2, A3, A4, A5. split; [exact A1|]. split; [exact A2|]. split; [exact A4|]. split; [intros r j Hr _ Hj; now apply A5|]. rewrite A3. split; [exact X2|exact X3].
  Qed.
  (** vcget *)
  Theorem mach_vcget w e a s m :
    decoder_ok d -> parse d w = Some e -> meaning (e_name e) = Some SmVcGet -> a_regs s 0 = 0 -> acc_wf (k_acc (a_csr s)) ->
    let f := exec w a s m in
    goes_on a s m f /\ same_x s f /\ same_dw s f /\ same_v s f (f_vd w) 8 /\ acc_wf (k_acc (a_csr (f_arch f))) /\
    forall r c, 0 <= r < 8 -> 0 <= c < 8 ->
      k_acc (a_csr (f_arch f)) r c = 0 /\ rword (vbyte (f_arch f)) (f_vd w + r) c = k_acc (a_csr s) r c.
  Proof.
    intros Hd Hp M H0 Ha f. pose proof (parse_sound d w e Hd Hp) as He. pose proof (sem_of e _ (proj1 He) M (fun f => f)) as Es.
    pose proof (row_ok e w He (not_loose' e w _ He M I)) as R. unfold rowb in R. rewrite Es in R.
    pose proof (proj1 (forallb_forall _ _) other_rows e (proj1 He)) as O. cbv beta in O. rewrite Es in O.
    destruct (e_dst e) as [|[] [|]] eqn:Er; try discriminate O. cbn [map nth] in R. destruct (vd_base _ _ _ R) as [B L].
    destruct (vcget_ok (to_group (dst_op e w DVd)) (junk (k_clock (a_csr s))) (to_c (to_w s m)) Ha L) as (rf & acc & X1 & X2 & X3 & X4 & X5). rewrite B in *.
    destruct (mach_c w e a s m rf acc (k_dw (a_csr s)) Hp) as (A1 & A2 & A3 & A4 & A5).
    - unfold plain. now rewrite Es.
    - unfold exec_row. rewrite Es, Er. cbn [map nth]. rewrite X1. reflexivity.
    - intros r j Hj. assert (D : f_vd w <= r < f_vd w + 8 \/ ~ (f_vd w <= r < f_vd w + 8)) by lia. destruct D as [D|D].
      + replace r with (f_vd w + (r - f_vd w)) by lia. apply X5; [lia|exact Hj].
      + rewrite (X4 r D). exact (to_w_wf s m r j Hj).
    - fold f in A1, A2, A3, A4, A5. split; [exact A1|]. split; [exact A2|]. split; [exact A4|]. split.
      { intros r j Hr Ho Hj. rewrite A5 by assumption. now rewrite (X4 r Ho). }
      rewrite A3. split; [intros r c Hr Hc; rewrite X3 by assumption; split; [lia|reflexivity]|]. intros r c Hr Hc. split; [now apply X3|].
      etransitivity; [|exact (X2 r c Hr Hc)]. apply rword_ext; [|exact Hc]. intros j Hj. apply A5; [pose proof (vd_nonneg w); lia|exact Hj].
  Qed.
  (** adwinit *)
  Theorem mach_adwinit w e a s m :
    decoder_ok d -> junk_ok junk -> parse d w = Some e -> meaning (e_name e) = Some SmADwInit -> canonical w e -> a_regs s 0 = 0 ->
    let f := exec w a s m in
    f_vd w <= f_vs1 w \/ f_vs1 w + 4 <= f_vd w ->
    goes_on a s m f /\ same_x s f /\ same_acc s f /\ same_v s f (f_vd w) 4 /\
    (exists dw, k_dw (a_csr (f_arch f)) = Some dw /\ dw_wf dw /\ forall k c, 0 <= k < 4 -> 0 <= c < 8 -> dw (8 * k + c) = rword (vbyte s) (f_vs1 w + k) c) /\
    forall k j, 0 <= k < 4 -> 0 <= j < 8 -> vbyte (f_arch f) (f_vd w + k) j = vbyte s (f_vs1 w + k) j.
  Proof.
    intros Hd HJ Hp M Hc H0 f Hov. pose proof (parse_sound d w e Hd Hp) as He. pose proof (sem_of e _ (proj1 He) M (fun f => f)) as Es.
    pose proof (row_ok e w He Hc) as R. unfold rowb in R. rewrite Es in R. apply andb_true_iff in R as [R1 R2].
    pose proof (proj1 (forallb_forall _ _) other_rows e (proj1 He)) as O. cbv beta in O. rewrite Es in O. apply andb_true_iff in O as [O1 O2].
    destruct (e_src e) as [|[] [|]] eqn:Er; try discriminate O1. destruct (e_dst e) as [|[] [|]] eqn:Ed; try discriminate O2.
    cbn [map nth] in R1, R2. destruct (vs1_base' _ _ _ R1) as [B1 L1]. destruct (vd_base _ _ _ R2) as [B2 L2].
    destruct (adwinit_ok (to_group (src_op e w SVs1)) (to_group (dst_op e w DVd)) (junk (k_clock (a_csr s))) (to_c (to_w s m)) (to_w_wf s m) L1 L2) as (rf & dw & X1 & X2 & X3 & X4 & X5).
    { rewrite B1, B2. exact Hov. }
    rewrite B1, B2 in *.
    assert (W : wf rf).
    { intros r j Hj. assert (D : f_vd w <= r < f_vd w + 4 \/ ~ (f_vd w <= r < f_vd w + 4)) by lia. destruct D as [D|D]; [|rewrite (X4 r D); exact (to_w_wf s m r j Hj)].
      pose proof (adwinit_bytes (junk (k_clock (a_csr s))) (fun r j => HJ (k_clock (a_csr s)) r j) _ _ (to_c (to_w s m)) _ (to_w_wf s m) X1) as K. now apply K. }
    destruct (mach_c w e a s m rf (k_acc (a_csr s)) (Some dw) Hp) as (A1 & A2 & A3 & A4 & A5).
    - unfold plain. now rewrite Es.
    - unfold exec_row. rewrite Es, Er, Ed. cbn [map nth]. rewrite X1. reflexivity.
    - exact W.
    - fold f in A1, A2, A3, A4, A5. split; [exact A1|]. split; [exact A2|]. split; [exact A3|]. split.
      { intros r j Hr Ho Hj. rewrite A5 by assumption. now rewrite (X4 r Ho). }
      split; [exists dw; auto|]. intros k j Hk Hj. rewrite A5 by (pose proof (vd_nonneg w); lia). now apply X3.
  Qed.
  (** Depthwise convolutions *)
  Theorem mach_dwconv w e a s m wa :
    decoder_ok d -> junk_ok junk -> parse d w = Some e -> meaning (e_name e) = Some (SmDwconv wa) -> a_regs s 0 = 0 ->
    let f := exec w a s m in let c := a_regs s (f_xs2 w) in
    (fld c 2 2 = 3 \/ k_dw (a_csr s) = None -> k_wrong (a_csr (f_arch f)) = true) /\
    forall dw, k_dw (a_csr s) = Some dw -> dw_wf dw -> fld c 2 2 <> 3 ->
      (~ dw_fits (vbyte s) (f_vs1 w) (f_vs3 w) c dw -> k_wrong (a_csr (f_arch f)) = true) /\
      (dw_fits (vbyte s) (f_vs1 w) (f_vs3 w) c dw ->
        goes_on a s m f /\ same_x s f /\ same_acc s f /\ same_v s f (f_vd w) (if wa then 4 else 0) /\
        exists dw', k_dw (a_csr (f_arch f)) = Some dw' /\
          (forall i, 0 <= i < 32 -> 0 <= dw' (dw_lane i) < 2 ^ 32 /\
             ConvSpec.s32 (dw' (dw_lane i)) = ConvSpec.s32 (dw (dw_lane i)) + sum 3 (fun r => dw_prod (vbyte s) (f_vs1 w) (f_vs3 w) c r i)) /\
          (wa = true -> forall k q, 0 <= k < 4 -> 0 <= q < 8 -> rword (vbyte (f_arch f)) (f_vd w + k) q = dw' (8 * k + q))).
  Proof.
    intros Hd HJ Hp M H0 f c. pose proof (parse_sound d w e Hd Hp) as He. pose proof (sem_of e _ (proj1 He) M (fun f => f)) as Es.
    pose proof (row_ok e w He (not_loose' e w _ He M I)) as R. unfold rowb in R. rewrite Es in R. repeat (apply andb_true_iff in R as [R ?]).
    pose proof (proj1 (forallb_forall _ _) other_rows e (proj1 He)) as O. cbv beta in O. rewrite Es in O. apply andb_true_iff in O as [O1 O2].
    destruct (e_src e) as [|[] [|[] [|[] [|]]]] eqn:Er; try discriminate O1. cbn [map nth] in *.
    destruct (vs1_base' _ _ _ R) as [B1 L1].
    assert (B3 : g_base (to_group (src_op e w SVs3)) = f_vs3 w) by reflexivity.
    match goal with K : vecb (kind_of (src_op e w SVs3)) 3 = true |- _ => apply vecb_grp in K; rename K into L3 end.
    match goal with K : xb (kind_of (src_op e w SRs2)) = true |- _ => apply xb_kx in K; destruct (x_src e w SRs2 (to_w s m) H0 K) as [Xc _] end.
    change (xfield SRs2 w) with (f_xs2 w) in Xc. rewrite (xv s m _ H0) in Xc. fold c in Xc.
    set (gd := to_group (nth 0 (map (dst_op e w) (e_dst e)) OOther)).
    assert (Bd : wa = true -> g_base gd = f_vd w /\ 4 <= g_n gd).
    { intros ->. cbn [negb orb] in *. unfold gd. destruct (e_dst e) as [|[] [|]]; try discriminate O2. cbn [map nth] in *. now apply vd_base. }
    assert (E : exec_row true a (junk (k_clock (a_csr s))) e w (to_w s m) = Some (with_c (to_w s m)
      (exec_vdwconv wa (to_group (src_op e w SVs1)) (to_group (src_op e w SVs3)) gd c a (junk (k_clock (a_csr s))) (to_c (to_w s m))))).
    { unfold exec_row. rewrite Es, Er. cbn [map nth]. rewrite Xc. reflexivity. }
    assert (U : forall k, exec_row true a (junk (k_clock (a_csr s))) e w (to_w s m) = Some (UB k) -> k_wrong (a_csr (f_arch f)) = true).
    { intros k K. unfold f. rewrite (exec_vec d zbb sys junk ljunk w e) by (assumption || now rewrite Es). unfold exec_vector, vec_step, mem_row. rewrite Es, K. reflexivity. }
    split.
    - intros [Hs|Hs]; [apply (U Uninitialised); rewrite E, vdwconv_sparsity3 by assumption; reflexivity|].
      destruct (dwconv_none wa (to_group (src_op e w SVs1)) (to_group (src_op e w SVs3)) gd c a (junk (k_clock (a_csr s))) (to_c (to_w s m)) Hs L1) as (k & K).
      apply (U k). rewrite E, K. reflexivity.
    - intros dw Edw Hdw Hs.
      destruct (vdwconv_cases wa (to_group (src_op e w SVs1)) (to_group (src_op e w SVs3)) gd c a (junk (k_clock (a_csr s))) (to_c (to_w s m)) dw (to_w_wf s m) Edw Hdw Hs L1 L3)
        as [(F & rf & dw' & X1 & X2 & X3 & X4)|(F & X1)].
      { intros K. now apply Bd. }
      + change (c_v (to_c (to_w s m))) with (vbyte s) in *. rewrite B1, B3 in *. split; [intros K; now destruct K|]. intros _.
        assert (W : wf rf) by exact (dwconv_bytes (junk (k_clock (a_csr s))) (fun r j => HJ (k_clock (a_csr s)) r j) wa _ _ gd c a (to_c (to_w s m)) _ (to_w_wf s m) X1).
        destruct (mach_c w e a s m rf (k_acc (a_csr s)) (Some dw') Hp) as (A1 & A2 & A3 & A4 & A5).
        * unfold plain. now rewrite Es.
        * rewrite E, X1. reflexivity.
        * exact W.
        * fold f in A1, A2, A3, A4, A5. split; [exact A1|]. split; [exact A2|]. split; [exact A3|]. split.
          { intros r j Hr Ho Hj. rewrite A5 by assumption. destruct wa; [|now rewrite (X3 eq_refl)]. destruct (Bd eq_refl) as [Bb _]. destruct (X4 eq_refl) as [X5 _].
            rewrite Bb in X5. now rewrite (X5 r Ho). }
          exists dw'. split; [exact A4|]. split; [exact X2|]. intros Hw k q Hk Hq. destruct (Bd Hw) as [Bb _]. destruct (X4 Hw) as [_ X5]. rewrite Bb in X5.
          rewrite <- (X5 k q Hk Hq). apply rword_ext; [|exact Hq]. intros j Hj. apply A5; [pose proof (vd_nonneg w); lia|exact Hj].
      + change (c_v (to_c (to_w s m))) with (vbyte s) in *. rewrite B1, B3 in *. split; [|intros K; now destruct F].
        intros _. apply (U SignedOverflow). rewrite E, X1. reflexivity.
  Qed.
End Mach.
