(** * Vector load/store properties C22-C27 *)
From Verif Require Import CInt VecModel VecSpec ConvModel ConvSpec MemModel MemSpec.
From Verif Require VecProofs MemProofs.
Import ListNotations.

(** Lane types of the vector memory instructions. *)
Definition vty (T : ity) : Prop := In T [I8; I16; I32].
Lemma vty_small T : vty T -> VecProofs.small T.
Proof. unfold vty, VecProofs.small. cbn [In]. intuition. Qed.

(** A concrete state for the examples. *)
Definition ms0 : mstate := MS (fun a => (a * 7 + a / 256) mod 256)
  (fun r j => (r * 61 + j * 37 + j * j * r) mod 256) (fun r => 1000 + r).
Definition junkm : Z -> vbytes := fun _ _ => 170.
Example ms0_wf : wf (m_v ms0).
Proof. intros r j _. apply Z.mod_pos_bound. reflexivity. Qed.

(** ** C22, C25 (loads): every addressing form is a choice of [mo_len],
    [mo_stride], [mo_strip], [mo_xs2] and [mo_post]. *)
Theorem C22_vld : forall T o junk s,
  vty T -> op_ok o -> mo_quad o = false -> regs_of o <= g_n (mo_v o) ->
  exists rf x, exec_vld T o junk s = Ok (MS (m_mem s) rf x) /\
    (forall k j, 0 <= k < regs_of o -> 0 <= j < nlanes T ->
       lane T (rf (g_base (mo_v o) + k)) j =
       let e := k * nlanes T + j in
       if e <? nsel T o then trunc T (uval (Z.to_nat (lanebytes T)) (m_mem s) (eaddr T o false e)) else 0) /\
    regs_outside (g_base (mo_v o)) (regs_of o) (m_v s) rf /\
    (forall k j, 0 <= k < regs_of o -> 0 <= j < 32 -> 0 <= rf (g_base (mo_v o) + k) j < 256) /\
    post_spec T o false (m_x s) x.
Proof. intros T o junk s HT. apply MemProofs.vld_ok, vty_small, HT. Qed.
Print Assumptions C22_vld.
(** vld.h.l.m with 37 elements at 0x80001003 (small memory): lane 4 of the third
    register is element 36, lane 5 is past the length. *)
Definition ld0 := MO true false true false 0x80001003 (Some 37) (VG 8 4) None true.
Definition run_ld T o r j := match exec_vld T o junkm ms0 with Ok s => Some (lane T (m_v s r) j) | _ => None end.
Example C22_case : op_ok ld0 /\ nsel I16 ld0 = 37 /\ eaddr I16 ld0 false 36 = 0x1003 + 72 /\
  run_ld I16 ld0 10 4 = Some (256 * ((0x104c * 7 + 16) mod 256) + (0x104b * 7 + 16) mod 256 - 0) /\
  run_ld I16 ld0 10 5 = Some 0 /\ run_ld I16 ld0 11 0 = Some 0 /\
  (* a stride of 2^31 - 2 halfwords wraps the 32-bit address *)
  eaddr I16 (MO false true true false 100 (Some (2 ^ 31 - 2)) (VG 8 4) None false) false 16 = 96.
Proof. split; [intros _; discriminate|]. repeat split; vm_compute; reflexivity. Qed.

(** ** C23 *)
Theorem C23_vst : forall T o s,
  vty T -> op_ok o -> wf (m_v s) -> regs_of o <= g_n (mo_v o) -> mo_quad o = false ->
  exists m x, exec_vst T o s = Ok (MS m (m_v s) x) /\
    stored T o false (m_v s) (m_mem s) m /\ post_spec T o false (m_x s) x.
Proof.
  intros T o s HT Ho Hwf Hg Hq. pose proof (MemProofs.vst_ok T o s (vty_small T HT) Ho Hwf Hg) as H.
  rewrite Hq in H. exact H.
Qed.
Print Assumptions C23_vst.
Theorem C23_store_then_load : forall T o vd junk s s1,
  vty T -> op_ok o -> wf (m_v s) -> mo_quad o = false ->
  regs_of o <= g_n (mo_v o) -> regs_of o <= g_n vd ->
  32 <= stride_of T o -> base_of o + (regs_of o - 1) * stride_of T o + 32 <= 2 ^ 32 ->
  exec_vst T o s = Ok s1 ->
  let o' := MO (mo_len o) (mo_stride o) (mo_strip o) false (mo_base o) (mo_xs2 o) vd None (mo_small o) in
  exists s2, exec_vld T o' junk s1 = Ok s2 /\ m_mem s2 = m_mem s1 /\
    forall k j, 0 <= k < regs_of o -> 0 <= j < nlanes T ->
    lane T (m_v s2 (g_base vd + k)) j =
    if k * nlanes T + j <? nsel T o then lane T (m_v s (g_base (mo_v o) + k)) j else 0.
Proof. intros T o vd junk s s1 HT. apply MemProofs.store_load, vty_small, HT. Qed.
Print Assumptions C23_store_then_load.
(** vst.w.s.m with stride 1 word: the registers overlap in memory and the last
    write wins; with stride 100 words the round trip applies. *)
Definition st0 := MO false true true false 5000 (Some 1) (VG 8 4) None true.
Definition st1 := MO false true true false 5000 (Some 100) (VG 8 4) None true.
Definition run_st T o a := match exec_vst T o ms0 with Ok s => Some (m_mem s a) | _ => None end.
Example C23_case :
  op_ok st0 /\ 32 <= stride_of I32 st1 /\ base_of st1 + (regs_of st1 - 1) * stride_of I32 st1 + 32 <= 2 ^ 32 /\
  run_st I32 st0 5012 = Some (m_v ms0 11 0) /\ run_st I32 st0 5011 = Some (m_v ms0 10 3) /\
  run_st I32 st0 5044 = Some (m_mem ms0 5044) /\ run_st I32 st1 5404 = Some (m_v ms0 9 4).
Proof. split; [intros _; discriminate|]. repeat split; vm_compute; (reflexivity || discriminate). Qed.

(** ** C24 *)
Theorem C24_vstq : forall T o s,
  vty T -> mo_xs2 o <> None -> wf (m_v s) -> regs_of o <= g_n (mo_v o) ->
  mo_quad o = true -> mo_len o = false -> mo_stride o = true ->
  exists m x, exec_vst T o s = Ok (MS m (m_v s) x) /\
    stored T o true (m_v s) (m_mem s) m /\ post_spec T o true (m_x s) x.
Proof.
  intros T o s HT Hx Hwf Hg Hq _ _.
  assert (Ho : op_ok o) by (intros _; exact Hx).
  pose proof (MemProofs.vst_ok T o s (vty_small T HT) Ho Hwf Hg) as H. rewrite Hq in H. exact H.
Qed.
Print Assumptions C24_vstq.
(** Where quarter [q] of register [k] goes: lane j of it is element
    (4k+q)*(lanes/4)+j, found at base + (4k+q)*stride + j*size, and comes from
    lane q*(lanes/4)+j of register k. *)
Theorem C24_quarter_address : forall T o k q j, vty T ->
  0 <= k -> 0 <= q < 4 -> 0 <= j < nlanes T / 4 ->
  let e := (4 * k + q) * (nlanes T / 4) + j in
  eaddr T o true e = (base_of o + (4 * k + q) * stride_of T o) mod 2 ^ 32 + j * lanebytes T /\
  e / nlanes T = k /\ e mod nlanes T = q * (nlanes T / 4) + j.
Proof.
  intros T o k q j HT Hk Hq Hj e. unfold eaddr, piece.
  destruct (MemProofs.divmod (nlanes T / 4) (4 * k + q) j Hj) as [A B]. fold e in A, B. rewrite A, B.
  split; [reflexivity|].
  assert (N : nlanes T = 4 * (nlanes T / 4)).
  { clear - HT. unfold vty in HT. cbn [In] in HT. destruct HT as [<-|[<-|[<-|[]]]]; reflexivity. }
  assert (E : e = k * nlanes T + (q * (nlanes T / 4) + j)) by (subst e; rewrite N at 2; ring).
  assert (0 <= q * (nlanes T / 4) + j < nlanes T).
  { revert Hj. rewrite N. generalize (nlanes T / 4). intros c Hj. replace (4 * c / 4) with c in * by (rewrite Z.mul_comm, Z.div_mul; lia). nia. }
  rewrite E. now apply MemProofs.divmod.
Qed.
Print Assumptions C24_quarter_address.
Definition sq0 := MO false true true true 5000 (Some 20) (VG 8 4) (Some 5) true.
Definition run_x T o := match exec_vst T o ms0 with Ok s => Some (m_x s 5, m_x s 6) | _ => None end.
Example C24_case :
  run_st I16 sq0 (5000 + 9 * 40 + 3) = Some (m_v ms0 10 (8 + 3)) /\
  run_st I16 sq0 (5000 + 9 * 40 + 8) = Some (m_mem ms0 (5000 + 9 * 40 + 8)) /\
  run_x I16 sq0 = Some (5000 + 20 * 2 * 4 * 4, 1006).
Proof. repeat split; vm_compute; reflexivity. Qed.

(** ** C25: the post-increment part of the three theorems above, form by form *)
Theorem C25_post_increment : forall T o s s' p quad,
  vty T -> op_ok o -> wf (m_v s) -> regs_of o <= g_n (mo_v o) -> mo_post o = Some p ->
  (quad = mo_quad o /\ exec_vst T o s = Ok s' \/
   quad = false /\ mo_quad o = false /\ exists junk, exec_vld T o junk s = Ok s') ->
  (forall r, r <> p -> m_x s' r = m_x s r) /\
  (nsel T o = 0 -> m_x s' p = base_of o) /\
  (nsel T o <> 0 ->
    (mo_len o = false -> mo_stride o = false -> mo_xs2 o = None ->
       m_x s' p = (base_of o + 32 * regs_of o) mod 2 ^ 32) /\
    (forall x, mo_len o = false -> mo_stride o = false -> mo_xs2 o = Some x ->
       m_x s' p = (base_of o + x * lanebytes T) mod 2 ^ 32) /\
    (forall x, mo_len o = true -> mo_stride o = false -> mo_xs2 o = Some x ->
       m_x s' p = (base_of o + Z.min (x mod 2 ^ 32) (regs_of o * nlanes T) * lanebytes T) mod 2 ^ 32) /\
    (forall x, mo_len o = false -> mo_stride o = true -> mo_xs2 o = Some x ->
       m_x s' p = (base_of o + x mod 2 ^ 32 * lanebytes T * regs_of o * (if quad then 4 else 1)) mod 2 ^ 32) /\
    (mo_len o = true -> mo_stride o = true -> m_x s' p = (base_of o + 32) mod 2 ^ 32)).
Proof.
  intros T o s s' p quad HT Ho Hwf Hg Hp HE.
  assert (HP : post_spec T o quad (m_x s) (m_x s')).
  { destruct HE as [(-> & E)|(-> & Hq & junk & E)].
    - destruct (MemProofs.vst_ok T o s (vty_small T HT) Ho Hwf Hg) as (m & x & E' & _ & H).
      rewrite E' in E. injection E as <-. exact H.
    - destruct (MemProofs.vld_ok T o junk s (vty_small T HT) Ho Hq Hg) as (rf & x & E' & _ & _ & _ & H).
      rewrite E' in E. injection E as <-. exact H. }
  clear HE. unfold post_spec in HP. rewrite Hp in HP. destruct HP as [H1 H2]. split; [exact H1|].
  split. { intros E. rewrite E in H2. exact H2. }
  intros Hne. destruct (Z.eqb_spec (nsel T o) 0) as [E|_]; [contradiction|]. rewrite H2.
  unfold increment, nsel, stride_of, xs2_u.
  split; [intros -> -> ->; reflexivity|]. split; [intros x -> -> ->; reflexivity|].
  split; [intros x -> -> ->; reflexivity|]. split; [intros x -> -> ->; reflexivity|].
  intros -> ->; reflexivity.
Qed.
Print Assumptions C25_post_increment.
Definition pst len stride xs2 := MO len stride true false 0xfffffff0 xs2 (VG 8 4) (Some 5) false.
Example C25_case :
  run_x I16 (pst false false None) = Some (112, 1006) /\
  run_x I16 (pst false false (Some 3)) = Some (0xfffffff6, 1006) /\
  run_x I16 (pst true false (Some 3)) = Some (0xfffffff6, 1006) /\
  run_x I16 (pst true false (Some 0)) = Some (0xfffffff0, 1006) /\
  run_x I16 (pst true true (Some 3)) = Some (16, 1006) /\
  run_x I16 (pst false true (Some 3)) = Some (8, 1006).
Proof. repeat split; vm_compute; reflexivity. Qed.

(** ** C26 *)
Theorem C26_getvl : forall T (strip : bool) rs1 rs2, vty T ->
  let cap := (if strip then 4 else 1) * nlanes T in
  let lim (r : option Z) := match r with Some x => x mod 2 ^ 32 | None => cap end in
  exec_getvl T strip rs1 rs2 = Z.min cap (Z.min (lim rs1) (lim rs2)) /\ 0 < cap.
Proof. intros T strip rs1 rs2 HT. apply MemProofs.getvl_ok, vty_small, HT. Qed.
Print Assumptions C26_getvl.
Theorem C26_strip_mining_loop : forall T (strip : bool), vty T ->
  forall fuel n done, 0 <= n < 2 ^ 32 -> n <= Z.of_nat fuel ->
  exists l, strip_loop fuel T strip n done = Some (done + n, l) /\
    (forall v, In v l -> 1 <= v <= (if strip then 4 else 1) * nlanes T) /\
    fold_right Z.add 0 l = n.
Proof. intros T strip HT. apply MemProofs.strip_loop_ok, vty_small, HT. Qed.
Print Assumptions C26_strip_mining_loop.
Example C26_case :
  exec_getvl I16 true (Some (-1)) (Some 70) = 64 /\ exec_getvl I8 false (Some 20) None = 20 /\
  strip_loop 200 I16 true 150 0 = Some (150, [64; 64; 22]).
Proof. repeat split; vm_compute; reflexivity. Qed.

(** ** C27 *)
Theorem C27_vdup : forall T (strip : bool) vd x junk rf, vty T -> (if strip then 4 else 1) <= g_n vd ->
  exists rf', exec_vdup T strip vd x junk rf = Ok rf' /\
    (forall k j, 0 <= k < (if strip then 4 else 1) -> 0 <= j < nlanes T ->
       lane T (rf' (g_base vd + k)) j = trunc T x) /\
    regs_outside (g_base vd) (if strip then 4 else 1) rf rf'.
Proof. intros T strip vd x junk rf HT. apply MemProofs.vdup_ok, vty_small, HT. Qed.
Print Assumptions C27_vdup.
Example C27_case :
  match exec_vdup I16 true (VG 8 4) 0x12348001 junkm (m_v ms0) with
  | Ok rf => Some (lane I16 (rf 11) 15, rf 12 0) | _ => None end = Some (-32767, m_v ms0 12 0).
Proof. vm_compute; reflexivity. Qed.
