(** * Properties C28-C32, C55: the instruction tables, the decoder and operands *)
From Verif Require Import CInt VecModel VecSpec ConvModel ConvSpec MemModel MemSpec DecodeTypes DecodeTable DecodeModel DecodeSpec.
From Verif Require DecodeProofs DecodeProofs2 DecodeProofs3 DecodeProofs4.
Import ListNotations.
Open Scope string_scope.
Open Scope Z_scope.

(** A row by name, for examples. *)
Definition row (n : string) : entry :=
  match List.find (fun e => String.eqb (e_name e) n) all_entries with
  | Some e => e | None => DecodeTypes.E "" GInst FV2 [] [] [] [] (SmScalar "") end.
Definition name_at (w : Z) : option string := option_map e_name (parse first_match w).
Definition s0 : wstate :=
  WS (fun a => (a * 7 + 3) mod 256) (fun r j => (r * 61 + j * 37 + j * j * r) mod 256)
     (fun r => if r =? 0 then 0 else r * 4097) (fun i j => i + j) (Some (fun i => i)) [].
Definition run (w : Z) (s : wstate) : option (outcome wstate) := exec_word true 4096 (fun _ _ => 170) first_match w s.
Example s0_ok : wstate_ok s0 /\ w_x s0 0 = 0.
Proof.
  split; [|reflexivity]. split; [|split].
  - intros r j _. apply Z.mod_pos_bound. reflexivity.
  - intros i j Hi Hj. cbn. lia.
  - intros i Hi. cbn. lia.
Qed.
(** Decoders with the assumed property exist. *)
Example first_match_ok : decoder_ok first_match.
Proof.
  intros g w. unfold first_match. destruct (List.find (matches w) (table g)) as [e|] eqn:E.
  - now apply find_some in E.
  - intros e H. exact (find_none _ _ E e H).
Qed.
Lemma in_entries e : existsb (fun x => String.eqb (e_name x) (e_name e)) all_entries = true ->
  row (e_name e) = e -> In e all_entries.
Proof.
  intros H <-. unfold row. destruct (List.find _ all_entries) as [x|] eqn:E; [now apply find_some in E|].
  apply existsb_exists in H as (x & Hx & Hn). pose proof (find_none _ _ E x Hx) as K. cbn in K. congruence.
Qed.
Ltac enc := split; [apply in_entries; vm_compute; reflexivity|vm_compute; reflexivity].

(** ** C28: no two rows of the tables match the same word, provided acset, actr
    and adwinit words carry func1 = 001, form = 10 as assemblers emit. *)
Theorem C28_unambiguous_partial : forall w e1 e2,
  encodes e1 w -> encodes e2 w -> canonical w e1 -> canonical w e2 -> e1 = e2.
Proof. intros w e1 e2. exact (DecodeProofs.encoding_unique w e1 e2). Qed.
Print Assumptions C28_unambiguous_partial.
(** The rows of those three leave func1 and form free: the tables as they are
    are ambiguous, even inside one group. *)
Theorem C28_unambiguous_refuted : ~ forall w e1 e2,
  encodes e1 w -> encodes e2 w -> e_grp e1 = e_grp e2 -> e1 = e2.
Proof.
  intros H. assert (K : row "acset" = row "vdup_b_x"); [|vm_compute in K; discriminate].
  apply (H 0x40000c1f); [enc|enc|reflexivity].
Qed.
Print Assumptions C28_unambiguous_refuted.
Example C28_case : encodes (row "acset") 0x40014c06 /\ canonical 0x40014c06 (row "acset") /\
  encodes (row "vadd_w_vx_m") 0x00a1e3a2 /\ length all_entries = 1175%nat.
Proof. split; [enc|]. split; [intros _; vm_compute; reflexivity|]. split; [enc|vm_compute; reflexivity]. Qed.

(** ** C29 *)
Theorem C29_decodes_to_itself_partial : forall d w e, decoder_ok d -> encodes e w ->
  (In (e_grp e) [GInst; GArith; GConv] -> parse d w = Some e) /\
  (canonical w e ->
   ((w / 2 ^ 20) mod 2 ^ 6 <> 0 \/ (w / 2 ^ 5) mod 2 <> 0 \/ ~ 16 <= (w / 2 ^ 26) mod 2 ^ 6 <= 18 \/ loose e) ->
   parse d w = Some e).
Proof. exact DecodeProofs4.decodes_itself. Qed.
Print Assumptions C29_decodes_to_itself_partial.
(** Whatever is decoded is one of the instructions the word encodes, and a word
    that encodes an instruction is never rejected. *)
Theorem C29_decodes_to_an_encoding : forall d w, decoder_ok d ->
  (forall e, parse d w = Some e -> encodes e w) /\
  (forall e, encodes e w -> exists e', parse d w = Some e').
Proof. exact DecodeProofs4.decode_sound_complete. Qed.
Print Assumptions C29_decodes_to_an_encoding.
(** vsrans.b.vv v48, v0, v0 decodes as acset, vdmulh.b.r.vv v0, v0, v0 as adwinit,
    whatever decoders are used. *)
Theorem C29_decodes_to_itself_refuted : forall d, decoder_ok d ->
  encodes (row "vsrans_b_vv") 0x40000c08 /\ parse d 0x40000c08 = Some (row "acset") /\
  encodes (row "vdmulh_b_r_vv") 0x4800000c /\ parse d 0x4800000c = Some (row "adwinit").
Proof.
  intros d Hd. split; [enc|]. split; [|split; [enc|]].
  - apply DecodeProofs4.only_in_group with (l1 := [GInst; GArith; GConv]) (g := GMemory) (l2 := [GMul; GShift]);
      (assumption || reflexivity || vm_compute; reflexivity).
  - apply DecodeProofs4.only_in_group with (l1 := [GInst; GArith; GConv]) (g := GMemory) (l2 := [GMul; GShift]);
      (assumption || reflexivity || vm_compute; reflexivity).
Qed.
Print Assumptions C29_decodes_to_itself_refuted.
Example C29_case : encodes (row "vsrans_b_vv") 0x40100c08 /\ name_at 0x40100c08 = Some "vsrans_b_vv" /\
  name_at 0x40014c06 = Some "acset" /\ name_at 0x00a1e3a2 = Some "vadd_w_vx_m" /\ name_at 0x1000008b = None.
Proof. split; [enc|]. vm_compute. auto. Qed.

(** ** C30: the fields of the word select strip mining, operand form and width of
    the semantic function, and the function is the one the mnemonic names. *)
Theorem C30_fields_select_semantics : forall d w e, decoder_ok d -> parse d w = Some e ->
  fields_select (e_sem e) w /\
  (~ is_scalar_op (e_sem e) -> meaning (e_name e) = Some (e_sem e)) /\
  (is_scalar_op (e_sem e) -> meaning (e_name e) = None).
Proof. exact DecodeProofs4.decoded_selects. Qed.
Print Assumptions C30_fields_select_semantics.
Example C30_case :
  option_map (fun e => (e_name e, e_sem e)) (parse first_match 0x00a1e3a2) =
    Some ("vadd_w_vx_m", SmVec (VEl OAdd I32) true true) /\
  meaning "vsransu_b_r_vx" = Some (SmVec (VNarrow true U8 U16) true false) /\
  meaning "vld_h_lp_xx_m" = Some (SmLd I16 true false true I16 true).
Proof. vm_compute. auto. Qed.

(** ** C31: every vector word with canonical acset/actr/adwinit fields runs without
    an out-of-range register access; the only undefined behaviours left are the
    32-bit shift by -2^31 and those of vdwconv (C18, C20). *)
Theorem C31_groups_cover_accesses_partial : forall small pc junk d w e s,
  decoder_ok d -> parse d w = Some e -> canonical w e -> ~ is_scalar_op (e_sem e) -> wstate_ok s ->
  exists r, exec_word small pc junk d w s = Some r /\ safe (word_ub (e_sem e)) r /\ r <> UB OutOfBounds.
Proof. exact DecodeProofs4.groups_cover. Qed.
Print Assumptions C31_groups_cover_accesses_partial.
(** A non-canonical acset word (form 0, m = 0, func1 = 2 with sz = 0) is given a
    2-register group, of which acset reads 8. *)
Theorem C31_groups_cover_accesses_refuted : exists d w e s r,
  decoder_ok d /\ parse d w = Some e /\ wstate_ok s /\
  exec_word true 0 (fun _ _ => 0) d w s = Some r /\ r = UB OutOfBounds.
Proof.
  exists first_match, 0x40000c08, (row "acset"), s0, (UB OutOfBounds).
  split; [exact first_match_ok|]. split; [vm_compute; reflexivity|]. split; [apply s0_ok|].
  split; [vm_compute; reflexivity|reflexivity].
Qed.
Print Assumptions C31_groups_cover_accesses_refuted.
Example C31_case :
  match run 0x00a1e3a2 s0 with Some (Ok s) => Some (lane I32 (w_v s 17) 7) | _ => None end =
    Some (trunc I32 (lane I32 (w_v s0 10) 7 + 10 * 4097)) /\
  match run 0x40014c06 s0 with Some (Ok s) => Some (w_acc s 7 7) | _ => None end <> None.
Proof. split; vm_compute; [reflexivity|discriminate]. Qed.

(** ** C32: a scalar operand is the register in its 5-bit field, zero for x0. *)
Theorem C32_scalar_reads : forall e w o st, w_x st 0 = 0 -> 
  (exists r, src_op e w o = OReg r) \/ src_op e w o = OZero ->
  rd_scalar (src_op e w o) st = Ok (xval st (xfield o w)) /\
  to_src (src_op e w o) st = SScal (xval st (xfield o w)).
Proof. exact DecodeProofs4.scalar_reads. Qed.
Print Assumptions C32_scalar_reads.
(** Only the destination register named by the word changes; x0 does not, unless
    the 6-bit vs1 field of a post-incrementing load or store is 1. *)
Theorem C32_scalar_writes_partial : forall small pc junk d w e s s',
  decoder_ok d -> parse d w = Some e -> canonical w e -> wstate_ok s ->
  exec_word small pc junk d w s = Some (Ok s') ->
  (forall r, 0 <= r -> xdest e w <> Some r -> w_x s' r = w_x s r) /\
  (f_vs1 w <> 1 -> w_x s' 0 = w_x s 0).
Proof. exact DecodeProofs4.scalar_writes. Qed.
Print Assumptions C32_scalar_writes_partial.
(** vld.b.p.x v2, x0 with the unused low bit of the vs1 field set writes x0. *)
Theorem C32_x0_constant_refuted : exists w s s',
  wstate_ok s /\ w_x s 0 = 0 /\ name_at w = Some "vld_b_p_x" /\ f_xs1 w = 0 /\
  run w s = Some (Ok s') /\ w_x s' 0 = 32.
Proof.
  exists 0x1000409f, s0. destruct (run 0x1000409f s0) as [[s'| |]|] eqn:E; [|vm_compute in E; discriminate..].
  exists s'. split; [apply s0_ok|]. split; [reflexivity|]. split; [vm_compute; reflexivity|]. split; [reflexivity|].
  split; [reflexivity|]. vm_compute in E. injection E as <-. vm_compute. reflexivity.
Qed.
Print Assumptions C32_x0_constant_refuted.
(** vld.b.p.x v2, x5 increments x5; vs2 = 32 names x0. *)
Example C32_case :
  match run 0x1002809f s0 with Some (Ok s) => Some (w_x s 5, w_x s 0, xdest (row "vld_b_p_x") 0x1002809f) | _ => None end
    = Some (5 * 4097 + 32, 0, Some 5) /\
  src_op (row "vadd_w_vx_m") 0x0201e3a2 SVs2 = OReg 0.
Proof. vm_compute. auto. Qed.

(** ** C55: from instruction words to lanes and memory *)
Theorem C55_elementwise_word : forall small pc junk d w e s o T sc st,
  decoder_ok d -> parse d w = Some e -> meaning (e_name e) = Some (SmVec (VEl o T) sc st) ->
  wf (w_v s) -> w_x s 0 = 0 ->
  let N := if w_m w then 4 else 1 in
  let a k i := lane T (w_v s (f_vs1 w + k)) i in
  let b k i := if w_form w =? 2 then trunc T (xval s (f_xs2 w)) else lane T (w_v s (f_vs2 w + k)) i in
  no_hazard N (f_vd w) (f_vs1 w) -> (w_form w <> 2 -> no_hazard N (f_vd w) (f_vs2 w)) ->
  (forall k i, 0 <= k < N -> 0 <= i < nlanes T -> lane_pre o T (a k i) (b k i)) ->
  exists s', exec_word small pc junk d w s = Some (Ok s') /\ rest_same s s' /\ wf (w_v s') /\
    only_written (f_vd w) N (w_v s) (w_v s') /\
    forall k i, 0 <= k < N -> 0 <= i < nlanes T ->
      lane_spec o T (lane T (w_v s (f_vd w + k)) i) (a k i) (b k i) (lane (dst_ty o T) (w_v s' (f_vd w + k)) i).
Proof. exact DecodeProofs4.word_elementwise. Qed.
Print Assumptions C55_elementwise_word.
(** Every other vector arithmetic word runs the instruction its mnemonic names on
    the registers in its fields, with groups large enough for C08, C12, C13. *)
Theorem C55_vector_word : forall small pc junk d w e s i sc st,
  decoder_ok d -> parse d w = Some e -> meaning (e_name e) = Some (SmVec i sc st) -> w_x s 0 = 0 ->
  st = w_m w /\ (two_operands i -> (sc = true <-> w_form w = 2)) /\
  exists n1 s2 nd, need1 i st <= n1 /\ need_dst i st <= nd /\
    (two_operands i -> exists n2, nops st <= n2 /\ s2 = second sc w n2 s) /\
    exec_word small pc junk d w s = Some (with_v s (exec i sc st
      {| o_s0 := SVec (f_vs1 w) n1; o_s1 := s2; o_vd := f_vd w; o_nd := nd |} junk (w_v s))).
Proof. exact DecodeProofs4.word_vector. Qed.
Print Assumptions C55_vector_word.
Theorem C55_load_word : forall small pc junk d w e s T len stride st Tw stw,
  decoder_ok d -> parse d w = Some e -> meaning (e_name e) = Some (SmLd T len stride st Tw stw) -> w_x s 0 = 0 ->
  let N := if w_m w then 4 else 1 in
  let o := mem_operands small w s len stride st false (has_xs2 (e_name e)) (has_post (e_name e)) N in
  st = w_m w /\ op_ok o /\
  exists s', exec_word small pc junk d w s = Some (Ok s') /\
    w_mem s' = w_mem s /\ w_acc s' = w_acc s /\ w_dw s' = w_dw s /\ w_traps s' = w_traps s /\
    (forall k j, 0 <= k < N -> 0 <= j < nlanes T ->
       lane T (w_v s' (f_vd w + k)) j =
       let n := k * nlanes T + j in
       if n <? nsel T o then trunc T (uval (Z.to_nat (lanebytes T)) (w_mem s) (eaddr T o false n)) else 0) /\
    regs_outside (f_vd w) N (w_v s) (w_v s') /\ post_spec T o false (w_x s) (w_x s').
Proof. exact DecodeProofs4.word_load. Qed.
Print Assumptions C55_load_word.
Theorem C55_store_word : forall small pc junk d w e s T len stride st quad,
  decoder_ok d -> parse d w = Some e ->
  meaning (e_name e) = Some (if quad : bool then SmStq T st else SmSt T len stride st) ->
  (quad = true -> len = false /\ stride = true) -> wf (w_v s) -> w_x s 0 = 0 ->
  let N := if w_m w then 4 else 1 in
  let o := mem_operands small w s len stride st quad (has_xs2 (e_name e)) (has_post (e_name e)) N in
  st = w_m w /\ op_ok o /\
  exists s', exec_word small pc junk d w s = Some (Ok s') /\
    w_v s' = w_v s /\ w_acc s' = w_acc s /\ w_dw s' = w_dw s /\ w_traps s' = w_traps s /\
    stored T o quad (w_v s) (w_mem s) (w_mem s') /\ post_spec T o quad (w_x s) (w_x s').
Proof. exact DecodeProofs4.word_store. Qed.
Print Assumptions C55_store_word.
(** vadd.w.vx.m v14, v7, x10 and vst.w.s.xx.m v8, x5, x6. *)
Example C55_case :
  no_hazard 4 14 7 /\ f_vd 0x00a1e3a2 = 14 /\ f_vs1 0x00a1e3a2 = 7 /\ f_xs2 0x00a1e3a2 = 10 /\
  match run 0x00a1e3a2 s0 with Some (Ok s) => Some (lane I32 (w_v s 15) 3) | _ => None end =
    Some (trunc I32 (lane I32 (w_v s0 8) 3 + 40970)) /\
  name_at 0x2862a23f = Some "vst_w_s_xx_m" /\
  match run 0x2862a23f s0 with Some (Ok s) => Some (w_mem s (5 * 4097 + 2 * (6 * 4097 * 4) + 9)) | _ => None end =
    Some (w_v s0 10 9).
Proof. unfold no_hazard. vm_compute. repeat split; auto; intros [? ?]; discriminate. Qed.
