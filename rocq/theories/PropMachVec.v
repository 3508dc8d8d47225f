(** * The V1 machine: the remaining vector instructions, property C80 *)
From Coq Require Import ZArith List Bool String Lia.
From Verif Require Import CInt LaneSpec VecModel VecSpec ConvModel ConvSpec MemModel MemSpec LogModel.
From Verif Require Import DecodeTypes DecodeTable DecodeModel DecodeSpec V2DecModel V1ScalModel TopModel MachModel MachSpec MachInvSpec MachVecSpec.
From Verif Require MachProofs7.
From Verif Require Import PropMach.
Import ListNotations.
Open Scope string_scope.
Open Scope list_scope.
Open Scope Z_scope.

Section Mach.
  Context {S : Type}.
  Notation arch := (arch (C := core S)).
  Variable d : decoder.
  Variable zbb : Z -> option act.
  Variable sys : act -> Z -> arch -> (Z -> Z) -> arch * (Z -> Z) * Z * option Z.
  Variable junk : Z -> Z -> vbytes.
  Variable ljunk : Z -> Z.
  Notation exec := (exec1 d zbb sys junk ljunk).

  (** vaddw, vsubw, vmulw: the even lanes of the operands go to the first group, the odd
      ones to the second. *)
  Theorem C80_widening w e a s m o Td Ts sc st :
    decoder_ok d -> parse d w = Some e -> meaning (e_name e) = Some (SmVec (VWiden o Td Ts) sc st) -> a_regs s 0 = 0 ->
    let N := nops (w_m w) in let f := exec w a s m in
    no_hazard N (f_vd w) (f_vs1 w) -> no_hazard N (f_vd w + N) (f_vs1 w) ->
    (w_form w <> 2 -> no_hazard N (f_vd w) (f_vs2 w) /\ no_hazard N (f_vd w + N) (f_vs2 w)) ->
    writes_v a s m f (f_vd w) (2 * N) /\
    forall k p i, 0 <= k < N -> p = 0 \/ p = 1 -> 0 <= i < nlanes Td ->
      w_spec o Td Ts (lane Ts (vbyte s (f_vs1 w + k)) (2 * i + p)) (arg2 Ts (vbyte s) (src2 w s) k (2 * i + p))
             (lane Td (vbyte (f_arch f) (f_vd w + p * N + k)) i).
  Proof. exact (MachProofs7.mach_widen d zbb sys junk ljunk w e a s m o Td Ts sc st). Qed.
  (** vacc. *)
  Theorem C80_accumulate w e a s m Td Ts sc st :
    decoder_ok d -> parse d w = Some e -> meaning (e_name e) = Some (SmVec (VAcc Td Ts) sc st) -> a_regs s 0 = 0 ->
    let N := nops (w_m w) in let f := exec w a s m in
    (forall p q, p = 0 \/ p = 1 -> q = 0 \/ q = 1 -> no_hazard N (f_vd w + p * N) (f_vs1 w + q * N)) ->
    (w_form w <> 2 -> no_hazard N (f_vd w) (f_vs2 w) /\ no_hazard N (f_vd w + N) (f_vs2 w)) ->
    writes_v a s m f (f_vd w) (2 * N) /\
    forall k p i, 0 <= k < N -> p = 0 \/ p = 1 -> 0 <= i < nlanes Td ->
      LaneSpec.is_mod (bits Td) (is_signed Td)
        (lane Td (vbyte s (f_vs1 w + p * N + k)) i + arg2 Ts (vbyte s) (src2 w s) k (2 * i + p))
        (lane Td (vbyte (f_arch f) (f_vd w + p * N + k)) i).
  Proof. exact (MachProofs7.mach_acc d zbb sys junk ljunk w e a s m Td Ts sc st). Qed.
  (** vpadd, vpsub. *)
  Theorem C80_pairwise w e a s m sub Td Ts sc st :
    decoder_ok d -> parse d w = Some e -> meaning (e_name e) = Some (SmVec (VPair sub Td Ts) sc st) -> a_regs s 0 = 0 ->
    let N := nops (w_m w) in let f := exec w a s m in
    no_hazard N (f_vd w) (f_vs1 w) ->
    writes_v a s m f (f_vd w) N /\
    forall k i, 0 <= k < N -> 0 <= i < nlanes Td ->
      w_spec (if sub then WSub else WAdd) Td Ts (lane Ts (vbyte s (f_vs1 w + k)) (2 * i)) (lane Ts (vbyte s (f_vs1 w + k)) (2 * i + 1))
             (lane Td (vbyte (f_arch f) (f_vd w + k)) i).
  Proof. exact (MachProofs7.mach_pair d zbb sys junk ljunk w e a s m sub Td Ts sc st). Qed.
  (** vnot, vmv, vclb, vclz, vcpop. *)
  Theorem C80_unary w e a s m o T sc st :
    decoder_ok d -> parse d w = Some e -> meaning (e_name e) = Some (SmVec (VUn o T) sc st) -> a_regs s 0 = 0 ->
    let N := nops (w_m w) in let f := exec w a s m in
    no_hazard N (f_vd w) (f_vs1 w) ->
    writes_v a s m f (f_vd w) N /\
    forall k i, 0 <= k < N -> 0 <= i < nlanes T -> un_spec o T (lane T (vbyte s (f_vs1 w + k)) i) (lane T (vbyte (f_arch f) (f_vd w + k)) i).
  Proof. exact (MachProofs7.mach_unary d zbb sys junk ljunk w e a s m o T sc st). Qed.
  (** vsrans, vsransu, vsraqs, vsraqsu. *)
  Theorem C80_narrowing w e a s m r Td Ts sc st :
    decoder_ok d -> parse d w = Some e -> meaning (e_name e) = Some (SmVec (VNarrow r Td Ts) sc st) -> a_regs s 0 = 0 ->
    let N := nops (w_m w) in let q := ratio Td Ts in let f := exec w a s m in
    (forall t, 0 <= t < q -> no_hazard N (f_vd w) (f_vs1 w + t * N)) -> (w_form w <> 2 -> no_hazard N (f_vd w) (f_vs2 w)) ->
    writes_v a s m f (f_vd w) N /\
    forall k i, 0 <= k < N -> 0 <= i < nlanes Td ->
      let sh := arg2 Td (vbyte s) (src2 w s) k i mod bits Ts in
      lane Td (vbyte (f_arch f) (f_vd w + k)) i =
      clamp (bits Td) (is_signed Td)
        ((lane Ts (vbyte s (f_vs1 w + narrow_reg q i * N + k)) (i / q) + (if r && (0 <? sh) then 2 ^ (sh - 1) else 0)) / 2 ^ sh).
  Proof. exact (MachProofs7.mach_narrow d zbb sys junk ljunk w e a s m r Td Ts sc st). Qed.
  (** Slides, vevn, vodd, vevnodd, vzip, vmvp. *)
  Theorem C80_permutation w e a s m p T sc st :
    decoder_ok d -> parse d w = Some e -> meaning (e_name e) = Some (SmVec (VPerm p T) sc st) -> a_regs s 0 = 0 ->
    let N := nops (w_m w) in let f := exec w a s m in
    apart N (f_vd w) (perm_regs p N) (f_vs1 w) N -> (w_form w <> 2 -> apart N (f_vd w) (perm_regs p N) (f_vs2 w) N) ->
    writes_v a s m f (f_vd w) (perm_regs p N) /\
    forall J, 0 <= J < perm_regs p N * nlanes T -> glane T (vbyte (f_arch f)) (f_vd w) J = perm_lane p T (vbyte s) N (f_vs1 w) (src2 w s) J.
  Proof. exact (MachProofs7.mach_perm d zbb sys junk ljunk w e a s m p T sc st). Qed.
  (** vdup. *)
  Theorem C80_duplicate w e a s m T st :
    decoder_ok d -> junk_ok junk -> parse d w = Some e -> meaning (e_name e) = Some (SmDup T st) -> a_regs s 0 = 0 ->
    let N := nops (w_m w) in let f := exec w a s m in
    writes_v a s m f (f_vd w) N /\
    forall k i, 0 <= k < N -> 0 <= i < nlanes T -> lane T (vbyte (f_arch f) (f_vd w + k)) i = trunc T (a_regs s (f_xs2 w)).
  Proof. exact (MachProofs7.mach_dup d zbb sys junk ljunk w e a s m T st). Qed.
  (** getvl, getmaxvl: the only vector instructions that write rd. *)
  Theorem C80_vector_length w e a s m T st r1 r2 :
    decoder_ok d -> parse d w = Some e -> meaning (e_name e) = Some (SmGetVl T st r1 r2) -> a_regs s 0 = 0 ->
    let f := exec w a s m in let cap := nops st * nlanes T in
    goes_on a s m f /\ same_acc s f /\ same_dw s f /\ same_v s f 0 0 /\
    forall i, i < 64 -> 0 <= i -> a_regs (f_arch f) i =
      if (i =? f_rd w) && negb (i =? 0)
      then Z.min cap (Z.min (if r1 then a_regs s (f_xs1 w) mod 2 ^ 32 else cap) (if r2 then a_regs s (f_xs2 w) mod 2 ^ 32 else cap))
      else a_regs s i.
  Proof. exact (MachProofs7.mach_getvl d zbb sys junk ljunk w e a s m T st r1 r2). Qed.
  (** acset and actr, in the encoding of the assembler. *)
  Theorem C80_set_accumulators w e a s m tr :
    decoder_ok d -> parse d w = Some e -> meaning (e_name e) = Some (SmAcSet tr) -> canonical w e -> a_regs s 0 = 0 ->
    let f := exec w a s m in
    goes_on a s m f /\ same_x s f /\ same_dw s f /\ same_v s f 0 0 /\ acc_wf (k_acc (a_csr (f_arch f))) /\
    forall r c, 0 <= r < 8 -> 0 <= c < 8 ->
      k_acc (a_csr (f_arch f)) r c = if tr then rword (vbyte s) (f_vs1 w + c) r else rword (vbyte s) (f_vs1 w + r) c.
  Proof. exact (MachProofs7.mach_acset d zbb sys junk ljunk w e a s m tr). Qed.
  (** vcget. *)
  Theorem C80_get_accumulators w e a s m :
    decoder_ok d -> parse d w = Some e -> meaning (e_name e) = Some SmVcGet -> a_regs s 0 = 0 -> acc_wf (k_acc (a_csr s)) ->
    let f := exec w a s m in
    goes_on a s m f /\ same_x s f /\ same_dw s f /\ same_v s f (f_vd w) 8 /\ acc_wf (k_acc (a_csr (f_arch f))) /\
    forall r c, 0 <= r < 8 -> 0 <= c < 8 ->
      k_acc (a_csr (f_arch f)) r c = 0 /\ rword (vbyte (f_arch f)) (f_vd w + r) c = k_acc (a_csr s) r c.
  Proof. exact (MachProofs7.mach_vcget d zbb sys junk ljunk w e a s m). Qed.
  (** adwinit, in the encoding of the assembler (C31); overlapping groups are C21. *)
  Theorem C80_depthwise_init w e a s m :
    decoder_ok d -> junk_ok junk -> parse d w = Some e -> meaning (e_name e) = Some SmADwInit -> canonical w e -> a_regs s 0 = 0 ->
    let f := exec w a s m in
    f_vd w <= f_vs1 w \/ f_vs1 w + 4 <= f_vd w ->
    goes_on a s m f /\ same_x s f /\ same_acc s f /\ same_v s f (f_vd w) 4 /\
    (exists dw, k_dw (a_csr (f_arch f)) = Some dw /\ dw_wf dw /\ forall k c, 0 <= k < 4 -> 0 <= c < 8 -> dw (8 * k + c) = rword (vbyte s) (f_vs1 w + k) c) /\
    forall k j, 0 <= k < 4 -> 0 <= j < 8 -> vbyte (f_arch f) (f_vd w + k) j = vbyte s (f_vs1 w + k) j.
  Proof. exact (MachProofs7.mach_adwinit d zbb sys junk ljunk w e a s m). Qed.
  (** adwconv, vdwconv: undefined before adwinit, for the reserved sparsity and when an
      accumulator overflows (C20). *)
  Theorem C80_depthwise w e a s m wa :
    decoder_ok d -> junk_ok junk -> parse d w = Some e -> meaning (e_name e) = Some (SmDwconv wa) -> a_regs s 0 = 0 ->
    let f := exec w a s m in let c := a_regs s (f_xs2 w) in
    (fld c 2 2 = 3 \/ k_dw (a_csr s) = None -> k_wrong (a_csr (f_arch f)) = true) /\
    forall dw, k_dw (a_csr s) = Some dw -> dw_wf dw -> fld c 2 2 <> 3 ->
      (~ dw_fits (vbyte s) (f_vs1 w) (f_vs3 w) c dw -> k_wrong (a_csr (f_arch f)) = true) /\
      (dw_fits (vbyte s) (f_vs1 w) (f_vs3 w) c dw ->
        goes_on a s m f /\ same_x s f /\ same_acc s f /\ same_v s f (f_vd w) (if wa then 4 else 0) /\
        exists dw', k_dw (a_csr (f_arch f)) = Some dw' /\
          (forall i, 0 <= i < 32 -> 0 <= dw' (dw_lane i) < 2 ^ 32 /\
             ConvSpec.s32 (dw' (dw_lane i)) = ConvSpec.s32 (dw (dw_lane i)) + sum 3 (fun r => dw_prod (vbyte s) (f_vs1 w) (f_vs3 w) c r i)) /\
          (wa = true -> forall k q, 0 <= k < 4 -> 0 <= q < 8 -> rword (vbyte (f_arch f)) (f_vd w + k) q = dw' (8 * k + q))).
  Proof. exact (MachProofs7.mach_dwconv d zbb sys junk ljunk w e a s m wa). Qed.
End Mach.
Print Assumptions C80_widening.
Print Assumptions C80_accumulate.
Print Assumptions C80_pairwise.
Print Assumptions C80_unary.
Print Assumptions C80_narrowing.
Print Assumptions C80_permutation.
Print Assumptions C80_duplicate.
Print Assumptions C80_vector_length.
Print Assumptions C80_set_accumulators.
Print Assumptions C80_get_accumulators.
Print Assumptions C80_depthwise_init.
Print Assumptions C80_depthwise.

(** ** Examples: one word of each kind, on the machine of PropMach.v *)
Definition takes (w : Z) : option (string * option sem) := option_map (fun e => (e_name e, meaning (e_name e))) (parse first_match w).
(** vaddw.h.u.vv v8, v1, v2 and vaddw.h.vx.m v8, v0, x7. *)
Example C80_widening_case :
  takes 0x14205210 = Some ("vaddw_h_u_vv", Some (SmVec (VWiden WAdd U16 U8) false false)) /\
  (f_vd 0x14205210, f_vs1 0x14205210, f_vs2 0x14205210, w_m 0x14205210) = (8, 1, 2, false) /\
  takes 0x10701232 = Some ("vaddw_h_vx_m", Some (SmVec (VWiden WAdd I16 I8) true true)) /\ (w_form 0x10701232, f_xs2 0x10701232, w_m 0x10701232) = (2, 7, true) /\
  (let f := m_at 0x14205210 8 [] in map (fun r => lane U16 (vbyte (f_arch f) r) 3) [8; 9; 10]) = [(5 + 6) + (10 + 6); (5 + 7) + (10 + 7); lane U16 (vbyte (m_arch0 []) 10) 3] /\
  (let f := m_at 0x10701232 8 [(7, 254)] in map (fun r => lane I16 (vbyte (f_arch f) r) 3) [9; 13]) = [(5 + 6) - 2; (5 + 7) - 2].
Proof. repeat apply conj; vm_compute; reflexivity. Qed.
(** vacc.h.u.vv v8, v2, v1. *)
Example C80_accumulate_case :
  takes 0x2c109210 = Some ("vacc_h_u_vv", Some (SmVec (VAcc U16 U8) false false)) /\
  (let f := m_at 0x2c109210 8 [] in map (fun r => lane U16 (vbyte (f_arch f) r) 3) [8; 9]) =
  [(10 + 6) + 256 * (10 + 7) + (5 + 6); (15 + 6) + 256 * (15 + 7) + (5 + 7)].
Proof. repeat apply conj; vm_compute; reflexivity. Qed.
(** vpsub.h.v.m v8, v0 and vclz.b.v v8, v3. *)
Example C80_unary_case :
  takes 0x38001232 = Some ("vpsub_h_v_m", Some (SmVec (VPair true I16 I8) false true)) /\
  takes 0x2400c206 = Some ("vclz_b_v", Some (SmVec (VUn UClz U8) false false)) /\
  (let f := m_at 0x38001232 8 [] in map (fun r => lane I16 (vbyte (f_arch f) r) 3) [8; 11; 12]) = [-1; -1; lane I16 (vbyte (m_arch0 []) 12) 3] /\
  (let f := m_at 0x2400c206 8 [] in map (vbyte (f_arch f) 8) [0; 1; 17]) = [4; 3; 2].
Proof. repeat apply conj; vm_compute; reflexivity. Qed.
(** vsraqs.b.r.vx v8, v0, x5 by 23: lanes 0-3 come from v0, v2, v1, v3. *)
Example C80_narrowing_case :
  takes 0x6850020a = Some ("vsraqs_b_r_vx", Some (SmVec (VNarrow true I8 I32) true false)) /\
  (let f := m_at 0x6850020a 8 [(5, 23)] in map (lane I8 (vbyte (f_arch f) 8)) [0; 1; 2; 3]) =
  map (fun b => clamp 8 true ((b + 2 ^ 22) / 2 ^ 23)) [0x03020100; 0x0d0c0b0a; 0x08070605; 0x1211100f] /\
  map (fun b => clamp 8 true ((b + 2 ^ 22) / 2 ^ 23)) [0x03020100; 0x0d0c0b0a; 0x08070605; 0x1211100f] = [6; 26; 16; 36].
Proof. repeat apply conj; vm_compute; reflexivity. Qed.
(** vzip.h.vv.m v8, v0, v4: eight registers. *)
Example C80_permutation_case :
  takes 0x70401238 = Some ("vzip_h_vv_m", Some (SmVec (VPerm PZip I16) false true)) /\ perm_regs PZip 4 = 8 /\ apart 4 8 8 0 4 /\ apart 4 8 8 4 4 /\
  (let f := m_at 0x70401238 8 [] in map (glane I16 (vbyte (f_arch f)) 8) [0; 1; 126; 127]) =
  map (fun p => lane I16 (vbyte (m_arch0 []) (fst p)) (snd p)) [(0, 0); (4, 0); (3, 15); (7, 15)].
Proof. split; [vm_compute; reflexivity|]. split; [reflexivity|]. split; [right; right; vm_compute; discriminate|]. split; [right; right; vm_compute; discriminate|]. vm_compute. reflexivity. Qed.
(** vdup.h.x.m v8, x7 and getvl.h.x.m x5, x6. *)
Example C80_duplicate_case :
  takes 0x4070123f = Some ("vdup_h_x_m", Some (SmDup I16 true)) /\ takes 0x1a0302f7 = Some ("getvl_h_x_m", Some (SmGetVl I16 true true false)) /\
  (let f := m_at 0x4070123f 8 [(7, 0x18002)] in map (fun r => lane I16 (vbyte (f_arch f) r) 15) [8; 11; 12]) = [-32766; -32766; lane I16 (vbyte (m_arch0 []) 12) 15] /\
  (xs (m_at 0x1a0302f7 8 [(6, 40)]) [5; 6], xs (m_at 0x1a0302f7 8 [(6, 100)]) [5]) = ([40; 40], [64]).
Proof. repeat apply conj; vm_compute; reflexivity. Qed.
(** actr v16, then vcget v48: word 5 of v50 is word 2 of v21. *)
Example C80_accumulators_case :
  let f := m_at 0x44040c06 8 [] in let g := m_exec 0x50000c1f 12 (f_arch f) (f_mem f) in
  takes 0x44040c06 = Some ("actr", Some (SmAcSet true)) /\ xbits 0x44040c06 0 5 = 6 /\ takes 0x50000c1f = Some ("vcget", Some SmVcGet) /\ f_vd 0x50000c1f = 48 /\
  (k_acc (a_csr (f_arch f)) 2 5, k_acc (a_csr (f_arch g)) 2 5, rword (vbyte (f_arch g)) 50 5) = (0x74737271, 0, 0x74737271) /\
  rword (vbyte (m_arch0 [])) 21 2 = 0x74737271.
Proof. cbv zeta. repeat apply conj; vm_compute; reflexivity. Qed.
(** adwinit v8, v4, then vdwconv v12, v0, x9, v32; and vdwconv without adwinit. *)
Lemma fits_dec rf v1 v3 c dw : forallb (fun i => forallb (fun n => (- 2 ^ 31 <=? dw_after rf v1 v3 c dw n (Z.of_nat i)) && (dw_after rf v1 v3 c dw n (Z.of_nat i) <? 2 ^ 31)) [1%nat; 2%nat; 3%nat]) (seq 0 32) = true ->
  dw_fits rf v1 v3 c dw.
Proof.
  intros H i n Hi Hn. pose proof (proj1 (forallb_forall _ _) H (Z.to_nat i) ltac:(apply in_seq; lia)) as K. cbv beta in K. rewrite Z2Nat.id in K by lia.
  pose proof (proj1 (forallb_forall _ _) K n ltac:(cbn [In]; lia)) as L. cbv beta in L. apply andb_true_iff in L as [L1 L2]. apply Z.leb_le in L1. apply Z.ltb_lt in L2. lia.
Qed.
Definition dwf : effect := m_at 0x48010206 8 [].
(** A machine whose accumulators hold multiples of 100. *)
Definition dws : arch (C := core unit) :=
  let s := m_arch0 [(9, 4 * 1 + 4096 * 509 + 2 ^ 22 * 5)] in Arch (a_regs s) (Core unit (fun _ _ => 7) (Some (fun i => 100 * i)) (LS [] [] []) 0 false tt).
Definition dwg : effect := m_exec 0x80902315 12 dws m_bytes.
Example C80_depthwise_init_case :
  takes 0x48010206 = Some ("adwinit", Some SmADwInit) /\ xbits 0x48010206 0 5 = 6 /\ (f_vd 0x48010206, f_vs1 0x48010206) = (8, 4) /\
  (match k_dw (a_csr (f_arch dwf)) with Some dw => dw (8 * 3 + 5) | None => 0 end) = rword (vbyte (m_arch0 [])) 7 5.
Proof. repeat apply conj; vm_compute; reflexivity. Qed.
Example C80_depthwise_case :
  takes 0x80902315 = Some ("vdwconv_vxv", Some (SmDwconv true)) /\ (f_vd 0x80902315, f_vs1 0x80902315, f_xs2 0x80902315, f_vs3 0x80902315) = (12, 0, 9, 32) /\
  dw_fits (vbyte dws) 0 32 (a_regs dws 9) (fun i => 100 * i) /\ dw_lane 23 = 29 /\
  rword (vbyte (f_arch dwg)) 15 5 = 2900 + 14515 /\ sum 3 (fun r => dw_prod (vbyte dws) 0 32 (a_regs dws 9) r 23) = 14515 /\
  (k_wrong (a_csr (f_arch dwg)), k_wrong (a_csr (f_arch (m_at 0x80902315 8 [])))) = (false, true).
Proof.
  do 2 (split; [vm_compute; reflexivity|]). split; [apply fits_dec; vm_compute; reflexivity|]. split; [reflexivity|]. repeat apply conj; vm_compute; reflexivity.
Qed.
