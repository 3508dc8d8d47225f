(** * V2 instruction words: properties C57-C62 *)
From Verif Require Import CInt V2DecTypes V2Table V2Model V2Spec V2DecModel V2DecSpec.
From Verif Require V2DecProofs V2DecProofs2.
Import ListNotations.
Open Scope string_scope.
Open Scope list_scope.
Open Scope Z_scope.

(** Decoders with the assumed property exist: the one that takes the first row,
    the one that takes the last. *)
Definition last_match2 : decoder2 := fun w => List.find (matches2 w) (rev all2).
Example first_ok : decoder2_ok first_match2.
Proof.
  intros w. unfold first_match2. destruct (List.find (matches2 w) all2) as [e|] eqn:E.
  - now apply find_some in E.
  - intros e H. exact (find_none _ _ E e H).
Qed.
Example last_ok : decoder2_ok last_match2.
Proof.
  intros w. unfold last_match2. destruct (List.find (matches2 w) (rev all2)) as [e|] eqn:E.
  - apply find_some in E as [H E]. split; [now apply in_rev|exact E].
  - intros e H. apply (find_none _ _ E e). now apply -> in_rev.
Qed.
(** The manual's entry of a name, and whether a word meets a pattern. *)
Definition man (n : string) : list ment := filter (fun m => String.eqb n (m_name m)) manual.
Definition meetsb (w : Z) (p : pat) : bool :=
  forallb (fun t => let '(lo, n, v) := t in at_ w lo n =? v) (p_eq p) &&
  forallb (fun t => let '(lo, n, v) := t in negb (at_ w lo n =? v)) (p_ne p).
Lemma meetsb_ok w p : meetsb w p = true -> meets_pat w p.
Proof.
  unfold meetsb. rewrite andb_true_iff, !forallb_forall. intros [A B]. split; intros lo n v H.
  - specialize (A _ H). cbn in A. lia.
  - specialize (B _ H). cbn in B. lia.
Qed.
Definition act1 (w : Z) : option act := decode2 first_match2 w.

(** ** C57 *)
(** Every word of the manuals' table does what the manual says, whatever row the
    decoder takes; or it meets one of six patterns and is not decoded.  Missing:
    those six, and the instructions of [odd] and [ff]. *)
Theorem C57_manual_partial : forall d w m, decoder2_ok d -> In m manual -> meets_pat w (m_pat m) ->
  (exists a, decode2 d w = Some a /\ does m w a) \/
  (decode2 d w = None /\ exists p, In p holes /\ meets_pat w p).
Proof. exact V2DecProofs.manual_decodes. Qed.
Print Assumptions C57_manual_partial.
(** beq x5, x6, -8; vwmacc.vx v8, x11, v12, v0.t; csrrw x0, 0x305, x7; lw. *)
Example C57_case :
  existsb (fun m => meetsb 0xfe628ce3 (m_pat m)) (man "beq") = true /\
  act1 0xfe628ce3 = Some (Act [Fn "RV32::RiscVIBeq" []] [PX 5; PX 6; PImm (-8)] [DNextPc] None) /\
  existsb (fun m => meetsb 0xf4c5e457 (m_pat m)) (man "vwmacc.vx") = true /\
  act1 0xf4c5e457 = Some (Act [Fn "Vwmacc" []] [PV 12; PX 11; PV 8; PMaskV0] [DV 8] None) /\
  existsb (fun m => meetsb 0x30539073 (m_pat m)) (man "csrrw x0") = true /\
  act1 0x30539073 = Some (Act [Fn "RV32::RiscVZiCsrrwNr" []] [PX 7; PImm 0x305] [DCsr] None) /\
  act1 0xffc52083 = Some (Act [Fn "coralnpu::CoralNPUV2Lw" []; Fn "RV32::RiscVILwChild" []] [PX 10; PImm (-4)] [] (Some ([], [DX 1]))) /\
  length manual = 388%nat.
Proof. repeat split; vm_compute; reflexivity. Qed.
(** The words of the six patterns, and segment loads of the fault-only-first kind,
    are refused by every decoder. *)
Theorem C57_holes_refuted : forall w p, In p (holes ++ ffseg) -> meets_pat w p -> rejected w.
Proof. exact V2DecProofs.hole_rejected. Qed.
Print Assumptions C57_holes_refuted.
(** add x0, x0, x2 (ntl.p1); a fence with a reserved fm; vlseg2e8ff.v. *)
Example C57_holes_case : rejected 0x00200033 /\ rejected 0x1330000f /\ rejected 0x23050007 /\
  existsb (fun m => meetsb 0x00200033 (m_pat m)) (man "add") = true /\
  existsb (fun m => meetsb 0x1330000f (m_pat m)) (man "fence") = true.
Proof.
  split; [|split; [|split]].
  - apply (C57_holes_refuted _ (nth 0 (holes ++ ffseg) (P [] []))); [cbn; tauto|apply meetsb_ok; vm_compute; reflexivity].
  - apply (C57_holes_refuted _ (nth 5 (holes ++ ffseg) (P [] []))); [cbn; tauto|apply meetsb_ok; vm_compute; reflexivity].
  - apply (C57_holes_refuted _ (nth 6 (holes ++ ffseg) (P [] []))); [cbn; tauto|apply meetsb_ok; vm_compute; reflexivity].
  - split; vm_compute; reflexivity.
Qed.
(** vrsub.vi and vsuxsegei8/16/32 never do what the manual says. *)
Theorem C57_odd_refuted : forall d w m, decoder2_ok d -> In m odd -> meets_pat w (m_pat m) ->
  exists a, decode2 d w = Some a /\ ~ does m w a.
Proof. exact V2DecProofs2.odd_wrong. Qed.
Print Assumptions C57_odd_refuted.
(** vrsub.vi has no destination: vd is its fourth source. *)
Theorem C57_vrsub_refuted : forall d w, decoder2_ok d -> at_ w 0 7 = 87 -> at_ w 12 3 = 3 -> at_ w 26 6 = 3 ->
  exists a, decode2 d w = Some a /\ a_sem a = [Fn "Vrsub" []] /\ a_dst a = [] /\ a_child a = None /\
            list_is operand_is w [KV 20; Vsimm; KMask; KV 7] (a_src a).
Proof. exact V2DecProofs2.vrsub_act. Qed.
Print Assumptions C57_vrsub_refuted.
(** Unordered indexed segment stores run the strided store, with the vector of
    indices in the place of the stride. *)
Theorem C57_vsuxseg_refuted : forall d w b c, decoder2_ok d -> In (b, c) [(1, 0); (2, 5); (4, 6)] ->
  meets_pat w (vpat 39 c 1 [] [(29, 3, 0)]) ->
  exists a, decode2 d w = Some a /\ a_sem a = [Fn "VsSegmentStrided" [b]] /\ a_dst a = [] /\ a_child a = None /\
            list_is operand_is w [KV 7; KX 15; KV 20; KMask; Ufld 29 3] (a_src a).
Proof. exact V2DecProofs2.vsux_act. Qed.
Print Assumptions C57_vsuxseg_refuted.
(** Fault-only-first loads run the plain strided load. *)
Theorem C57_fault_first_refuted : forall d w b p, decoder2_ok d -> In (b, p) ff -> meets_pat w p ->
  exists a, decode2 d w = Some a /\ a_sem a = [Fn "VlStrided" [b]; Fn "VlChild" []] /\
            list_is operand_is w [KX 15; KC b; KMask] (a_src a) /\
            exists t, a_child a = Some ([], t) /\ list_is dest_is w [DKV 7] t.
Proof. exact V2DecProofs2.ff_plain. Qed.
Print Assumptions C57_fault_first_refuted.
(** vrsub.vi v8, v12, 3; vsuxseg2ei8.v v8, (x10), v12; vle32ff.v v8, (x10). *)
Example C57_odd_case :
  existsb (fun m => meetsb 0x0ec1b457 (m_pat m)) odd = true /\
  act1 0x0ec1b457 = Some (Act [Fn "Vrsub" []] [PV 12; PImm 3; PMaskTrue; PV 8] [] None) /\
  existsb (fun m => meetsb 0x26c50427 (m_pat m)) odd = true /\
  act1 0x26c50427 = Some (Act [Fn "VsSegmentStrided" [1]] [PV 8; PX 10; PV 12; PMaskTrue; PImm 1] [] None) /\
  existsb (fun t => meetsb 0x03056407 (snd t)) ff = true /\
  act1 0x03056407 = Some (Act [Fn "VlStrided" [4]; Fn "VlChild" []] [PX 10; PImm 4; PMaskTrue] [] (Some ([], [DV 8]))).
Proof. repeat split; vm_compute; reflexivity. Qed.

(** ** C58 *)
(** Accepted words are words of the manuals or meet one of the patterns of
    [tolerated].  Missing: the manuals make the latter illegal or reserved. *)
Theorem C58_accepted_partial : forall d w a, decoder2_ok d -> decode2 d w = Some a ->
  exists p, In p accepted_pats /\ meets_pat w p.
Proof. exact V2DecProofs.accepted_known. Qed.
Print Assumptions C58_accepted_partial.
(** All zeros, all ones, an RV64 load, a compressed pair, a double add and fmv.x.d,
    a double divide. *)
Example C58_case : Forall (fun w => act1 w = None) [0; 0xffffffff; 0x00053503; 0x45014501; 0x02c5f553; 0xe2050553; 0x1ac5f553].
Proof. repeat (apply Forall_cons; [vm_compute; reflexivity|]). apply Forall_nil. Qed.
(** vse8ff.v, vwmaccus.vv, vs1re16.v, vmand.mm with a mask, vsext.vf8 are none of
    the manuals' words and accepted. *)
Theorem C58_accepted_refuted : Forall (fun w =>
    (exists a, act1 w = Some a) /\ forall m, In m (manual ++ odd) -> ~ meets_pat w (m_pat m))
  [0x03050427; 0xfac5a457; 0x02855427; 0x64c5a457; 0x4ac1a457].
Proof.
  assert (A : forall w, existsb (fun m => meetsb w (m_pat m)) (manual ++ odd) = false -> forall m, In m (manual ++ odd) -> ~ meets_pat w (m_pat m)).
  { intros w H m Hm [Hp Hn]. assert (K : existsb (fun m => meetsb w (m_pat m)) (manual ++ odd) = true); [|congruence].
    apply existsb_exists. exists m. split; [exact Hm|]. unfold meetsb. rewrite andb_true_iff, !forallb_forall. split.
    - intros [[lo n] v] Hin. specialize (Hp lo n v Hin). lia.
    - intros [[lo n] v] Hin. specialize (Hn lo n v Hin). lia. }
  repeat constructor; try (eexists; vm_compute; reflexivity); apply A; vm_compute; reflexivity.
Qed.
Print Assumptions C58_accepted_refuted.

(** ** C59 *)
(** No word is two instructions of the manuals. *)
Theorem C59_manual_unique : forall w m1 m2, In m1 (manual ++ odd) -> In m2 (manual ++ odd) ->
  meets_pat w (m_pat m1) -> meets_pat w (m_pat m2) -> m1 = m2.
Proof. exact V2DecProofs.manual_unique. Qed.
Print Assumptions C59_manual_unique.
(** Which matching row the decoder takes makes no difference.  Missing: integer
    operations on x0 and fences with an empty set, where rows with RiscVINop and
    rows with the operation both match. *)
Theorem C59_row_choice_partial : forall d1 d2 w, decoder2_ok d1 -> decoder2_ok d2 ->
  decode2 d1 w = decode2 d2 w \/
  (exists c, In c free_choice /\ forall lo n v, In (lo, n, v) c -> at_ w lo n = v).
Proof. exact V2DecProofs.row_choice. Qed.
Print Assumptions C59_row_choice_partial.
Example C59_case : decode2 last_match2 0xfe628ce3 = act1 0xfe628ce3 /\ act1 0xfe628ce3 <> None /\
  Forall (fun c => exists t, In t c /\ let '(lo, n, v) := t in at_ 0xfe628ce3 lo n <> v) free_choice.
Proof.
  split; [vm_compute; reflexivity|]. split; [vm_compute; discriminate|].
  repeat constructor; (eexists; split; [left; reflexivity|vm_compute; discriminate]).
Qed.
(** slli x0, x5, 3 *)
Theorem C59_row_choice_refuted : ~ forall d1 d2 w, decoder2_ok d1 -> decoder2_ok d2 -> decode2 d1 w = decode2 d2 w.
Proof. intros H. specialize (H _ _ 0x00329013 first_ok last_ok). vm_compute in H. discriminate. Qed.
Print Assumptions C59_row_choice_refuted.

(** ** C60 *)
Theorem C60_operands_exist : forall d w a, decoder2_ok d -> decode2 d w = Some a ->
  ~ In PNull (a_src a) /\ ~ In DNull (a_dst a) /\
  match a_child a with Some (s, t) => ~ In PNull s /\ ~ In DNull t | None => True end.
Proof. exact V2DecProofs.operands_exist. Qed.
Print Assumptions C60_operands_exist.
(** A word gives exactly one immediate of each of the five kinds, and every value
    of the kind's range (and alignment) is given by some word. *)
Theorem C60_immediates : forall k a b z l, In k imms -> k = KImm a b z l ->
  (forall w, exists! v, operand_is k w (PImm v)) /\
  (forall v, a <= v < b -> v mod 2 ^ z = 0 -> exists w, word w /\ operand_is k w (PImm v)).
Proof.
  intros k a b z l Hk E. split.
  - intros w. destruct (V2DecProofs2.imms_exist k w Hk) as [v Hv]. exists v. split; [exact Hv|].
    intros v' Hv'. exact (V2DecProofs2.imms_unique k w v v' Hk Hv Hv').
  - intros v. exact (V2DecProofs2.imms_encodable k a b z l v Hk E).
Qed.
Print Assumptions C60_immediates.
(** jal x1, -2; beq x0, x0, 4094; lui x1, 0x80000; sw x2, -1(x1). *)
Example C60_case :
  act1 0xfffff0ef = Some (Act [Fn "RV32::RiscVIJal" []] [PImm (-2)] [DNextPc; DX 1] None) /\
  act1 0x7e000fe3 = Some (Act [Fn "RV32::RiscVIBeq" []] [PZero; PZero; PImm 4094] [DNextPc] None) /\
  act1 0x800000b7 = Some (Act [Fn "RV32::RiscVILui" []] [PImm (-2147483648)] [DX 1] None) /\
  act1 0xfe20afa3 = Some (Act [Fn "coralnpu::CoralNPUV2Sw" []] [PX 1; PImm (-1); PX 2] [] None).
Proof. repeat split; vm_compute; reflexivity. Qed.

(** ** C61 *)
(** Missing: accesses and ranges that reach 4 GiB (C44). *)
Theorem C61_load_partial : forall St (perform : v2mem -> list opnd -> list dopnd -> Z -> St -> St) trap d w op f3 i x ranges pc v s,
  decoder2_ok d -> In (op, f3, i) loads -> at_ w 0 7 = op -> at_ w 12 3 = f3 -> operand_is Iimm w (PImm v) ->
  let a := (base_of x w + v) mod 2 ^ 32 in
  let to := [if op =? 7 then DF (at_ w 7 5) else if at_ w 7 5 =? 0 then DX0 else DX (at_ w 7 5)] in
  low ranges -> a + width i < 2 ^ 32 ->
  (contained ranges a (width i) -> exec_mem2 perform trap d x ranges pc w s = Some (perform i [] to a s)) /\
  (~ contained ranges a (width i) -> exec_mem2 perform trap d x ranges pc w s = Some (trap 5 pc s)).
Proof. intros St perform trap. exact (V2DecProofs2.load_word perform trap). Qed.
Print Assumptions C61_load_partial.
(** Stores; fsw needs eight bytes where four would do (C44). *)
Theorem C61_store_partial : forall St (perform : v2mem -> list opnd -> list dopnd -> Z -> St -> St) trap d w op f3 i x ranges pc v s,
  decoder2_ok d -> In (op, f3, i) stores -> at_ w 0 7 = op -> at_ w 12 3 = f3 -> operand_is Simm w (PImm v) ->
  let a := (base_of x w + v) mod 2 ^ 32 in
  let from := [if op =? 39 then PF (at_ w 20 5) else if at_ w 20 5 =? 0 then PZero else PX (at_ w 20 5)] in
  let n := if op =? 39 then 8 else width i in
  low ranges -> a + n < 2 ^ 32 ->
  (contained ranges a n -> exec_mem2 perform trap d x ranges pc w s = Some (perform i from [] a s)) /\
  (~ contained ranges a n -> exec_mem2 perform trap d x ranges pc w s = Some (trap 7 pc s)).
Proof. intros St perform trap. exact (V2DecProofs2.store_word perform trap). Qed.
Print Assumptions C61_store_partial.
(** lw x1, -4(x10); flw f1, 8(x10); sh x2, 6(x0); fsw f2, 4(x10): what is accessed
    and the register moved. *)
Definition log61 : Type := list (v2mem * list opnd * list dopnd * Z) * list (Z * Z).
Definition p61 (i : v2mem) r t a (s : log61) : log61 := (fst s ++ [(i, r, t, a)], snd s).
Definition t61 (c e : Z) (s : log61) : log61 := (fst s, snd s ++ [(c, e)]).
Definition run61 w := exec_mem2 p61 t61 first_match2 (fun r => r * 0x1000) [(0x9000, 0x1008)] 64 w ([], []).
Example C61_case :
  run61 0xffc52083 = Some ([(Lw, [], [DX 1], 0x9ffc)], []) /\
  run61 0x00852087 = Some ([], [(5, 64)]) /\
  run61 0x00452087 = Some ([(Lw, [], [DF 1], 0xa004)], []) /\
  run61 0x00201323 = Some ([], [(7, 64)]) /\
  run61 0x00252023 = Some ([(Sw, [PX 2], [], 0xa000)], []) /\
  run61 0x00252227 = Some ([], [(7, 64)]) /\
  operand_is Iimm 0xffc52083 (PImm (-4)) /\ low [(0x9000, 0x1008)] /\ contained [(0x9000, 0x1008)] 0x9ffc 4.
Proof.
  do 6 (split; [vm_compute; reflexivity|]). split; [|split].
  - exists (-4). split; [reflexivity|]. split; [lia|]. split; [reflexivity|].
    intros i j n [H|[]]. injection H as <- <- <-. vm_compute. reflexivity.
  - intros s l [H|[]]. injection H as <- <-. lia.
  - exists 0x9000, 0x1008. split; [left; reflexivity|lia].
Qed.

(** ** C62 *)
(** Missing: the texts of [shared_forms] (forms of one instruction) and of
    [shared_names]. *)
Theorem C62_mnemonic_partial : forall d w1 w2 e1 e2, decoder2_ok d -> d w1 = Some e1 -> d w2 = Some e2 ->
  e2_dis e1 = e2_dis e2 -> ~ In (e2_dis e1) (shared_forms ++ shared_names) ->
  e2_sem e1 = e2_sem e2 \/ e2_sem e1 = [Fn "RiscVINop" []] \/ e2_sem e2 = [Fn "RiscVINop" []].
Proof. exact V2DecProofs2.texts. Qed.
Print Assumptions C62_mnemonic_partial.
(** addi x1, x2, 3 and addi x0, x0, 5 (a hint) have one text and differ; mul is unique. *)
Definition text1 (w : Z) : option (string * list fn2) := option_map (fun e => (e2_dis e, e2_sem e)) (first_match2 w).
Example C62_case : text1 0x00310093 = Some ("addi", [Fn "RV32::RiscVIAdd" []]) /\
  text1 0x00500013 = Some ("addi", [Fn "RiscVINop" []]) /\
  text1 0x02310233 = Some ("mul", [Fn "RV32::MMul" []]) /\ ~ In "addi" (shared_forms ++ shared_names).
Proof. do 3 (split; [vm_compute; reflexivity|]). cbn. intros H. repeat (destruct H as [H|H]; [discriminate|]). exact H. Qed.
(** max and maxu, min and minu, xor and xnor, vmax and vmaxu, fsgnjn and fsgnjx,
    csrrwi and csrrci .. 0, vlseg2e8 and vlseg2e16: pairs with one text that do
    different things. *)
Theorem C62_mnemonic_refuted : Forall (fun t => let '(w1, w2) := t in
  exists n s1 s2, text1 w1 = Some (n, s1) /\ text1 w2 = Some (n, s2) /\ s1 <> s2)
  [(0x0ac5e533, 0x0ac5f533); (0x0ac5c533, 0x0ac5d533); (0x00c5c533, 0x40c5c533); (0x1ec58457, 0x1ac58457);
   (0x20c59553, 0x20c5a553); (0x305455f3, 0x30507573); (0x22050407, 0x22055407)].
Proof.
  repeat (apply Forall_cons; [do 3 eexists; split; [vm_compute; reflexivity|]; split; [vm_compute; reflexivity|discriminate]|]).
  apply Forall_nil.
Qed.
Print Assumptions C62_mnemonic_refuted.
