(** * Convolution and accumulator properties C17-C21 *)
From Verif Require Import CInt VecModel VecSpec ConvModel ConvSpec.
From Verif Require VecProofs ConvProofs ConvProofs2.
Import ListNotations.

(** A concrete state for the examples. *)
Definition crf : vregs := fun r j => (r * 61 + j * 37 + j * j * r) mod 256.
Definition cs0 : cstate := CS crf (fun r c => (4294967290 + 8 * r + c) mod 2 ^ 32)
  (Some (fun t => (4294967000 + t * 100) mod 2 ^ 32)) [].
Definition junkc : Z -> vbytes := fun _ _ => 170.
Example cs0_wf : wf (c_v cs0) /\ acc_wf (c_acc cs0).
Proof. split; intros ? ? ?; intros; apply Z.mod_pos_bound; reflexivity. Qed.
(** start 1, stop 3, bias1 -12, first operand signed, bias2 7. *)
Definition cmd0 : Z := 4 * 1 + 128 * 3 + 4096 * 500 + 2 ^ 21 + 2 ^ 22 * 7.

(** ** C17 *)
Theorem C17_aconv : forall vs1 vs3 w pc s,
  wf (c_v s) -> acc_wf (c_acc s) -> conv_legal w -> 8 <= g_n vs1 -> conv_len w <= g_n vs3 ->
  exists acc', exec_vconv vs1 vs3 w pc s = Ok (CS (c_v s) acc' (c_dw s) (c_traps s)) /\ acc_wf acc' /\
    forall r c, 0 <= r < 8 -> 0 <= c < 8 ->
    acc' r c = (c_acc s r c + conv_sum w (c_v s) (g_base vs1) (g_base vs3) r c) mod 2 ^ 32.
Proof. exact ConvProofs.conv_exact. Qed.
Print Assumptions C17_aconv.
Theorem C17_one_pair_per_cell : forall i w, 0 <= i < 8 -> 0 <= w < 8 ->
  exists r c, 0 <= r < 8 /\ 0 <= c < 8 /\ row_of r c = i /\ word_of r c = w /\
  forall r' c', 0 <= r' < 8 -> 0 <= c' < 8 -> row_of r' c' = i -> word_of r' c' = w -> r' = r /\ c' = c.
Proof. exact ConvProofs.pair_of_cell. Qed.
Print Assumptions C17_one_pair_per_cell.
Definition conv_cell w r c : option Z :=
  match exec_vconv (VG 16 8) (VG 40 8) w 64 cs0 with Ok t => Some (c_acc t r c) | _ => None end.
Example C17_case :
  conv_legal cmd0 /\ conv_len cmd0 = 3 /\ row_of 6 3 = 5 /\ word_of 6 3 = 5 /\
  conv_cell cmd0 6 3 = Some ((45 + conv_sum cmd0 crf 16 40 6 3) mod 2 ^ 32) /\
  conv_sum cmd0 crf 16 40 6 3 = -78908.
Proof. split; [repeat split; vm_compute; congruence|]. repeat split; vm_compute; reflexivity. Qed.

(** ** C18 *)
Theorem C18_illegal_traps : forall vs1 vs3 w pc s, ~ conv_legal w ->
  exec_vconv vs1 vs3 w pc s = Ok (CS (c_v s) (c_acc s) (c_dw s) (c_traps s ++ [(2, pc)])).
Proof. exact ConvProofs.conv_illegal. Qed.
Print Assumptions C18_illegal_traps.
(** A legal command raises no trap, and two states that agree on the registers
    of the operand groups and on the accumulator give the same result. *)
Theorem C18_legal_reads_groups : forall vs1 vs3 w pc s s',
  wf (c_v s) -> wf (c_v s') -> acc_wf (c_acc s) -> conv_legal w ->
  8 <= g_n vs1 -> conv_len w <= g_n vs3 -> c_acc s' = c_acc s ->
  (forall q j, 0 <= q < 8 -> 0 <= j < 32 -> c_v s (g_base vs1 + q) j = c_v s' (g_base vs1 + q) j) ->
  (forall q j, 0 <= q < conv_len w -> 0 <= j < 32 -> c_v s (g_base vs3 + q) j = c_v s' (g_base vs3 + q) j) ->
  exists t t', exec_vconv vs1 vs3 w pc s = Ok t /\ exec_vconv vs1 vs3 w pc s' = Ok t' /\
    c_traps t = c_traps s /\ c_traps t' = c_traps s' /\
    forall r c, 0 <= r < 8 -> 0 <= c < 8 -> c_acc t r c = c_acc t' r c.
Proof. exact ConvProofs2.conv_reads. Qed.
Print Assumptions C18_legal_reads_groups.
(** Each of the three reasons occurs: mode 2, start 4 > stop 3, stop 8. *)
Example C18_case :
  ~ conv_legal 2 /\ ~ conv_legal (4 * 4 + 128 * 3) /\ ~ conv_legal (128 * 8) /\ conv_legal (128 * 7) /\
  match exec_vconv (VG 16 8) (VG 40 8) (128 * 8) 64 cs0 with Ok t => c_traps t = [(2, 64)] | _ => False end.
Proof. unfold conv_legal. repeat split; try (intros (A & B & C)); vm_compute in *; congruence. Qed.

(** ** C19 *)
Theorem C19_acset : forall tr vs s, wf (c_v s) -> 8 <= g_n vs ->
  exists acc, exec_acset tr vs s = Ok (CS (c_v s) acc (c_dw s) (c_traps s)) /\ acc_wf acc /\
    forall r c, 0 <= r < 8 -> 0 <= c < 8 ->
    acc r c = if tr then rword (c_v s) (g_base vs + c) r else rword (c_v s) (g_base vs + r) c.
Proof. exact ConvProofs2.acset_ok. Qed.
Print Assumptions C19_acset.
Theorem C19_vcget : forall vd junk s, acc_wf (c_acc s) -> 8 <= g_n vd ->
  exists rf acc, exec_vcget vd junk s = Ok (CS rf acc (c_dw s) (c_traps s)) /\
    (forall r c, 0 <= r < 8 -> 0 <= c < 8 -> rword rf (g_base vd + r) c = c_acc s r c) /\
    (forall r c, 0 <= r < 8 -> 0 <= c < 8 -> acc r c = 0) /\
    regs_outside (g_base vd) 8 (c_v s) rf /\
    (forall r j, 0 <= r < 8 -> 0 <= j < 32 -> 0 <= rf (g_base vd + r) j < 256).
Proof. exact ConvProofs2.vcget_ok. Qed.
Print Assumptions C19_vcget.
Theorem C19_round_trip : forall tr vs vd junk s, wf (c_v s) -> 8 <= g_n vs -> 8 <= g_n vd ->
  exists s1 s2, exec_acset tr vs s = Ok s1 /\ exec_vcget vd junk s1 = Ok s2 /\
    (forall r c, 0 <= r < 8 -> 0 <= c < 8 -> rword (c_v s2) (g_base vd + r) c =
       if tr then rword (c_v s) (g_base vs + c) r else rword (c_v s) (g_base vs + r) c) /\
    (tr = false -> forall r j, 0 <= r < 8 -> 0 <= j < 32 -> c_v s2 (g_base vd + r) j = c_v s (g_base vs + r) j) /\
    regs_outside (g_base vd) 8 (c_v s) (c_v s2).
Proof. exact ConvProofs2.acset_vcget. Qed.
Print Assumptions C19_round_trip.
Theorem C19_second_vcget_zero : forall vd vd' junk junk' s, acc_wf (c_acc s) -> 8 <= g_n vd -> 8 <= g_n vd' ->
  exists s1 s2, exec_vcget vd junk s = Ok s1 /\ exec_vcget vd' junk' s1 = Ok s2 /\
    forall r j, 0 <= r < 8 -> 0 <= j < 32 -> c_v s2 (g_base vd' + r) j = 0.
Proof. exact ConvProofs2.vcget_twice. Qed.
Print Assumptions C19_second_vcget_zero.
Example C19_case :
  match s1 <- exec_acset true (VG 16 8) cs0 ;; exec_vcget (VG 48 8) junkc s1 with
  | Ok s2 => Some (rword (c_v s2) 50 5) | _ => None end = Some (rword crf 21 2) /\
  rword crf 21 2 = 2242376553.
Proof. split; vm_compute; reflexivity. Qed.

(** ** C20 *)
(** Every command with sparsity 0-2 after an adwinit: either no lane overflows
    and the instruction does exactly what is documented, or some lane leaves the
    int32 range and the C++ addition is undefined. *)
Theorem C20_dwconv : forall wa vs1 vs3 vd w pc junk s d,
  wf (c_v s) -> c_dw s = Some d -> dw_wf d ->
  fld w 2 2 <> 3 -> 9 <= g_n vs1 -> 3 <= g_n vs3 -> (wa = true -> 4 <= g_n vd) ->
  (dw_fits (c_v s) (g_base vs1) (g_base vs3) w d /\
   exists rf d', exec_vdwconv wa vs1 vs3 vd w pc junk s = Ok (CS rf (c_acc s) (Some d') (c_traps s)) /\
     (forall i, 0 <= i < 32 -> 0 <= d' (dw_lane i) < 2 ^ 32 /\ s32 (d' (dw_lane i)) =
        s32 (d (dw_lane i)) + sum 3 (fun r => dw_prod (c_v s) (g_base vs1) (g_base vs3) w r i)) /\
     (wa = false -> rf = c_v s) /\
     (wa = true -> regs_outside (g_base vd) 4 (c_v s) rf /\
        forall k c, 0 <= k < 4 -> 0 <= c < 8 -> rword rf (g_base vd + k) c = d' (8 * k + c))) \/
  (~ dw_fits (c_v s) (g_base vs1) (g_base vs3) w d /\
   exec_vdwconv wa vs1 vs3 vd w pc junk s = UB SignedOverflow).
Proof. exact ConvProofs2.vdwconv_cases. Qed.
Print Assumptions C20_dwconv.
Theorem C20_every_word_has_one_lane : forall t, 0 <= t < 32 ->
  exists i, 0 <= i < 32 /\ dw_lane i = t /\ forall j, 0 <= j < 32 -> dw_lane j = t -> j = i.
Proof.
  intros t Ht. destruct (ConvProofs2.dw_lane_surj t Ht) as (i & Hi & E). exists i. split; [exact Hi|].
  split; [exact E|]. intros j Hj E'. apply ConvProofs2.dw_lane_inj; congruence.
Qed.
Print Assumptions C20_every_word_has_one_lane.
Theorem C20_register_selection : forall b, 0 <= b < 16 ->
  let '(x, y, z) := dw_regs b in 0 <= x < 9 /\ 0 <= y < 9 /\ 0 <= z < 9.
Proof. exact ConvProofs2.dw_regs_range. Qed.
Print Assumptions C20_register_selection.
(** "An illegal sparsity mode must trap and change nothing" is false: the trap is
    followed by reads of the uninitialised activation array, for every such
    command and every state. *)
Theorem C20_illegal_sparsity_refuted : forall wa vs1 vs3 vd w pc junk s, fld w 2 2 = 3 -> 9 <= g_n vs1 ->
  exec_vdwconv wa vs1 vs3 vd w pc junk s = UB Uninitialised.
Proof. exact ConvProofs2.vdwconv_sparsity3. Qed.
Print Assumptions C20_illegal_sparsity_refuted.
(** regbase 13, sparsity 1, bias1 -3, bias2 5, both signed. *)
Definition dcmd0 : Z := 4 * 1 + 16 * 13 + 4096 * 509 + 2 ^ 21 + 2 ^ 22 * 5 + 2 ^ 31.
Definition dw_word s t : option Z :=
  match exec_vdwconv true (VG 16 9) (VG 40 4) (VG 48 4) dcmd0 0 junkc s with
  | Ok s' => Some (rword (c_v s') 49 t) | _ => None end.
Example C20_case :
  fld dcmd0 2 2 = 1 /\ dw_regs (fld dcmd0 4 4) = (4, 0, 1) /\ dw_lane 22 = 8 * 1 + 5 /\
  dw_word cs0 5 = Some ((4294967000 + 1300 + sum 3 (fun r => dw_prod crf 16 40 dcmd0 r 22)) mod 2 ^ 32) /\
  sum 3 (fun r => dw_prod crf 16 40 dcmd0 r 22) = 4068 /\
  (* an accumulator at 2^31 - 1 overflows *)
  dw_word (CS crf (c_acc cs0) (Some (fun _ => 2 ^ 31 - 1)) []) 5 = None.
Proof. repeat split; vm_compute; reflexivity. Qed.

(** ** C21 *)
Theorem C21_adwinit_partial : forall vs vd junk s, wf (c_v s) -> 4 <= g_n vs -> 4 <= g_n vd ->
  (g_base vd <= g_base vs \/ g_base vs + 4 <= g_base vd) ->
  exists rf dw, exec_adwinit vs vd junk s = Ok (CS rf (c_acc s) (Some dw) (c_traps s)) /\
    (forall k c, 0 <= k < 4 -> 0 <= c < 8 -> dw (8 * k + c) = rword (c_v s) (g_base vs + k) c) /\
    (forall k j, 0 <= k < 4 -> 0 <= j < 8 -> rf (g_base vd + k) j = c_v s (g_base vs + k) j) /\
    regs_outside (g_base vd) 4 (c_v s) rf /\ dw_wf dw.
Proof. exact ConvProofs2.adwinit_ok. Qed.
Print Assumptions C21_adwinit_partial.
(** The overlap condition is needed: with vd = vs + 1 the second source register
    has been overwritten, 24 of its bytes with unspecified data, before it is read. *)
Theorem C21_overlap_refuted :
  match exec_adwinit (VG 16 4) (VG 17 4) junkc cs0 with
  | Ok (CS _ _ (Some dw) _) => Some (dw 8, dw 10) | _ => None end = Some (rword crf 16 0, 2863311530) /\
  rword crf 17 0 <> rword crf 16 0.
Proof. split; vm_compute; [reflexivity|discriminate]. Qed.
Print Assumptions C21_overlap_refuted.
Example C21_case :
  match exec_adwinit (VG 16 4) (VG 16 4) junkc cs0 with
  | Ok (CS rf _ (Some dw) _) => Some (dw 29, rf 19 7, rf 19 8) | _ => None end =
  Some (rword crf 19 5, crf 19 7, 170).
Proof. vm_compute; reflexivity. Qed.
