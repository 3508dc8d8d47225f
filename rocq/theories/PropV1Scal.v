(** * V1 scalar words and disassembly: properties C63-C66 *)
From Verif Require Import CInt DecodeTypes DecodeModel DecodeSpec LogModel LogSpec.
From Verif Require Import V2DecTypes V2DecModel V2DecSpec V1ScalModel V1ScalSpec.
From Verif Require LogProofs DecodeProofs4 V1ScalProofs V1ScalProofs2 V1ScalProofs3 V1ScalProofs4 PropDecode PropV2Dec.
Import ListNotations.
Open Scope string_scope.
Open Scope list_scope.
Open Scope Z_scope.

Definition at1 (w : Z) : option act := decode1 first_match w.
(** Entries of the manual a word meets. *)
Definition entries_of (w : Z) : list string := map m_name (filter (fun m => PropV2Dec.meetsb w (m_pat m)) manual1).

(** ** C63 *)
(** Every word of the manuals' table does what the manual says.  Missing: one
    word that does something else, and two families no row takes. *)
Theorem C63_manual_partial : forall d m w, decoder_ok d -> In m manual1 -> meets_pat w (m_pat m) -> V2DecSpec.word w ->
  w <> stray1 -> (forall p, In p holes1 -> ~ meets_pat w p) -> exists a, decode1 d w = Some a /\ does m w a.
Proof. exact V1ScalProofs.manual_words. Qed.
Print Assumptions C63_manual_partial.
(** beq x5, x6, -8; lw x1, -4(x10); csrrw x0, 0x305, x7; getvl.w.xx x5, x6, x7; jalr
    x0, 4(x2); addi x0, x0, 0. *)
Example C63_case :
  entries_of 0xfe628ce3 = ["beq"] /\ at1 0xfe628ce3 = Some (Act [Fn "RV32::RiscVIBeq" []] [PX 5; PX 6; PImm (-8)] [DNextPc] None) /\
  entries_of 0xffc52083 = ["lw"] /\
  at1 0xffc52083 = Some (Act [Fn "RV32::RiscVILw" []; Fn "RV32::RiscVILwChild" []] [PX 10; PImm (-4)] [] (Some ([], [DX 1]))) /\
  entries_of 0x30539073 = ["csrrw x0"] /\ at1 0x30539073 = Some (Act [Fn "RV32::RiscVZiCsrrwNr" []] [PX 7; PImm 0x305] [DCsr] None) /\
  entries_of 0x147302f7 = ["getvl.xx"] /\
  at1 0x147302f7 = Some (Act [Fn "coralnpu::CoralNPUGetVl<int32_t>" [0; 1; 1]] [PX 6; PX 7] [DX 5] None) /\
  entries_of 0x00410067 = ["jalr"] /\ at1 0x00410067 = Some (Act [Fn "RV32::RiscVIJalr" []] [PX 2; PImm 4] [DNextPc; DX0] None) /\
  entries_of 0x13 = ["addi"] /\ at1 0x13 = Some (Act [Fn "RiscVINop" []] [] [] None) /\
  length manual1 = 94%nat.
Proof. repeat split; vm_compute; reflexivity. Qed.
(** jalr x0, imm(x1) and addi x0, x0, imm with another immediate than 0 are illegal
    instructions in the simulator; words of Zbb pass all six groups of the repository. *)
Theorem C63_manual_refuted : forall d w p, decoder_ok d -> In p (holes1 ++ map m_pat zbb) -> meets_pat w p -> decode1 d w = None.
Proof. exact V1ScalProofs.rejects. Qed.
Print Assumptions C63_manual_refuted.
(** jalr x0, 4(x1); addi x0, x0, 1; both in the manual. *)
Example C63_refuted_case : entries_of 0x00408067 = ["jalr"] /\ at1 0x00408067 = None /\
  entries_of 0x00100013 = ["addi"] /\ at1 0x00100013 = None /\
  existsb (fun p => PropV2Dec.meetsb 0x00408067 p) holes1 = true /\ existsb (fun p => PropV2Dec.meetsb 0x00100013 p) holes1 = true.
Proof. repeat split; vm_compute; reflexivity. Qed.
(** addi x0, x0, 0x480, a HINT, is executed as adwinit v0, v0. *)
Theorem C63_hint_refuted : forall d, decoder_ok d -> entries_of stray1 = ["addi"] /\ parse d stray1 = Some (PropDecode.row "adwinit").
Proof.
  intros d Hd. split; [vm_compute; reflexivity|].
  apply (DecodeProofs4.only_in_group d stray1 [GInst; GArith; GConv] GMemory [GMul; GShift]); [exact Hd|reflexivity|vm_compute; reflexivity|vm_compute; reflexivity].
Qed.
Print Assumptions C63_hint_refuted.

(** ** C64 *)
(** A word the simulator takes is an instruction of the table, or not of the 32-bit
    encodings of RISC-V, or an acset, actr or adwinit in disguise. *)
Theorem C64_accepted_partial : forall d w e, decoder_ok d -> parse d w = Some e ->
  (exists m, In m manual1 /\ meets_pat w (m_pat m)) \/ at_ w 0 2 <> 3 \/ at_ w 0 5 = 31 \/
  (loose e /\ at_ w 5 1 = 0 /\ at_ w 20 6 = 0 /\ 16 <= at_ w 26 6 <= 18).
Proof. exact V1ScalProofs2.accepted_words. Qed.
Print Assumptions C64_accepted_partial.
Theorem C64_one_meaning : forall w m1 m2, In m1 manual1 -> In m2 manual1 -> meets_pat w (m_pat m1) -> meets_pat w (m_pat m2) -> m1 = m2.
Proof. exact V1ScalProofs2.one_entry. Qed.
Print Assumptions C64_one_meaning.
(** So a word of the opcodes of stores, operations, branches, jumps, lui, auipc and
    system is taken only if it is in the table. *)
Theorem C64_opcodes : forall d w e, decoder_ok d -> parse d w = Some e ->
  In (at_ w 0 7) [35; 51; 55; 99; 103; 111; 115; 119] -> exists m, In m manual1 /\ meets_pat w (m_pat m).
Proof.
  intros d w e Hd He Ho. destruct (V1ScalProofs2.accepted_words d w e Hd He) as [H|H]; [exact H|exfalso].
  assert (A : at_ w 0 2 = at_ w 0 7 mod 4 /\ at_ w 0 5 = at_ w 0 7 mod 32 /\ at_ w 5 1 = at_ w 0 7 / 32 mod 2).
  { unfold at_. clear. lia. }
  destruct A as (A1 & A2 & A3). rewrite A1, A2, A3 in H. clear A1 A2 A3. revert H.
  cbn [In] in Ho. destruct Ho as [<-|[<-|[<-|[<-|[<-|[<-|[<-|[<-|[]]]]]]]]]; intros H; destruct H as [H|[H|(_ & H & _)]];
    try (now apply H); discriminate H.
Qed.
Print Assumptions C64_opcodes.
(** sub x3, x1, x2 is taken; a reserved function of the same opcode is not, nor a
    load of a reserved width. *)
Example C64_case : option_map e_name (parse first_match 0x402081b3) = Some "sub" /\
  parse first_match 0x402091b3 = None /\ entries_of 0x402091b3 = [] /\ parse first_match 0x00003003 = None.
Proof. repeat split; vm_compute; reflexivity. Qed.
(** A load of doublewords, not in the set, is executed as acset v48, v0. *)
Theorem C64_accepted_refuted : forall d, decoder_ok d -> exists w, entries_of w = [] /\ at_ w 0 7 = 3 /\ at_ w 12 3 = 3 /\
  parse d w = Some (PropDecode.row "acset").
Proof.
  intros d Hd. exists 0x40003c03. split; [vm_compute; reflexivity|]. split; [vm_compute; reflexivity|]. split; [vm_compute; reflexivity|].
  apply (DecodeProofs4.only_in_group d _ [GInst; GArith; GConv] GMemory [GMul; GShift]); [exact Hd|reflexivity|vm_compute; reflexivity|vm_compute; reflexivity].
Qed.
Print Assumptions C64_accepted_refuted.

(** ** C65 *)
(** Two words with the same line of disassembly are the same instruction with the
    same operands and the same register groups, up to two ways to name x0.  Missing:
    the opcodes of [same_text], which share a text, and fence and fence.i, whose
    operand is not shown. *)
Theorem C65_text_partial : forall d w1 w2 e1 e2, decoder_ok d -> parse d w1 = Some e1 -> parse d w2 = Some e2 ->
  canonical w1 e1 -> canonical w2 e2 -> line1 e1 w1 = line1 e2 w2 ->
  (exists l, In l same_text /\ In (e_name e1) l /\ In (e_name e2) l /\ e1 <> e2) \/
  (e1 = e2 /\ (In (e_name e1) hides \/
    (map (fun o => x0_op (src_op e1 w1 o)) (e_src e1) = map (fun o => x0_op (src_op e2 w2 o)) (e_src e2) /\
     map (fun o => x0_op (dst_op e1 w1 o)) (e_dst e1 ++ e_child e1) = map (fun o => x0_op (dst_op e2 w2 o)) (e_dst e2 ++ e_child e2) /\
     x0_act (act1 e1 w1) = x0_act (act1 e2 w2)))).
Proof. exact V1ScalProofs3.text_tells. Qed.
Print Assumptions C65_text_partial.
(** Branches and jal show their target as an address, the pc plus the signed offset
    of the manual; no other text has such an address. *)
Theorem C65_targets : forall d w e, decoder_ok d -> parse d w = Some e ->
  (at_ w 0 7 = 99 -> exists f v, In (HOp true f (WNum v)) (snd (line1 e w)) /\ operand_is Bimm w (PImm v)) /\
  (at_ w 0 7 = 111 -> exists f v, In (HOp true f (WNum v)) (snd (line1 e w)) /\ operand_is Jimm w (PImm v)) /\
  (at_ w 0 7 <> 99 -> at_ w 0 7 <> 111 -> forall f o, ~ In (HOp true f o) (snd (line1 e w))).
Proof. exact V1ScalProofs4.targets. Qed.
Print Assumptions C65_targets.
Definition chr (n : nat) := HChr (Ascii.ascii_of_nat n).
Definition line_at (w : Z) : option (string * list shown) := option_map (fun e => line1 e w) (parse first_match w).
(** beq and vadd.w.vx v8, v4, x10; the second in two encodings that differ in a bit
    the instruction does not use. *)
Example C65_case :
  line_at 0xfe628ce3 = Some ("beq", [chr 32; HOp false "" (WX 5); chr 44; chr 32; HOp false "" (WX 6); chr 44; chr 32; HOp true "08x" (WNum (-8))]) /\
  line_at 0x00a12202 = Some ("vadd.w.vx", [chr 32; HOp false "" (WV 8); chr 44; chr 32; HOp false "" (WV 4); chr 44; chr 32; HOp false "" (WX 10)]) /\
  line_at 0x02a12202 = line_at 0x00a12202.
Proof. repeat split; vm_compute; reflexivity. Qed.
(** A store of words with post-increment is printed as a load; a strided quad store
    with post-increment as one without. *)
Theorem C65_store_refuted : forall d, decoder_ok d -> exists w1 w2 e1 e2, parse d w1 = Some e1 /\ parse d w2 = Some e2 /\
  line1 e1 w1 = line1 e2 w2 /\ (exists T a b c u v, e_sem e1 = SmLd T a b c u v) /\ (exists T a b c, e_sem e2 = SmSt T a b c).
Proof.
  intros d Hd. exists 0x1030a23f, 0x3030a23f, (PropDecode.row "vld_w_p_xx_m"), (PropDecode.row "vst_w_p_xx_m").
  split; [apply (DecodeProofs4.only_in_group d _ [GInst; GArith; GConv] GMemory [GMul; GShift]); [exact Hd|reflexivity|vm_compute; reflexivity|vm_compute; reflexivity]|].
  split; [apply (DecodeProofs4.only_in_group d _ [GInst; GArith; GConv] GMemory [GMul; GShift]); [exact Hd|reflexivity|vm_compute; reflexivity|vm_compute; reflexivity]|].
  split; [vm_compute; reflexivity|]. split; vm_compute; repeat eexists.
Qed.
Print Assumptions C65_store_refuted.
(** If 0 is printed as "0", csrrci x5, 0x340, 0, which only reads the csr, has the
    text of csrrwi x5, 0x340, 0, which clears it. *)
Theorem C65_csr_refuted : forall d pr, decoder_ok d -> pr false "" (WNum 0) = "0" -> exists w1 w2 e1 e2,
  parse d w1 = Some e1 /\ parse d w2 = Some e2 /\ text1 pr (line1 e1 w1) = text1 pr (line1 e2 w2) /\
  a_dst (act1 e1 w1) = [DX 5] /\ a_dst (act1 e2 w2) = [DX 5; DCsr].
Proof.
  intros d pr Hd H0. exists 0x340072f3, 0x340052f3, (PropDecode.row "csrrci_nw"), (PropDecode.row "csrrwi").
  split; [apply (DecodeProofs4.only_in_group d _ [] GInst [GArith; GConv; GMemory; GMul; GShift]); [exact Hd|reflexivity|vm_compute; reflexivity|vm_compute; reflexivity]|].
  split; [apply (DecodeProofs4.only_in_group d _ [] GInst [GArith; GConv; GMemory; GMul; GShift]); [exact Hd|reflexivity|vm_compute; reflexivity|vm_compute; reflexivity]|].
  split; [|split; vm_compute; reflexivity].
  transitivity (text1 pr ("csrwi", [chr 32; HOp false "" (WX 5); chr 44; chr 32; HOp false "" (WNum 0x340); chr 44; chr 32; chr 48])).
  - apply f_equal. vm_compute. reflexivity.
  - transitivity (text1 pr ("csrwi", [chr 32; HOp false "" (WX 5); chr 44; chr 32; HOp false "" (WNum 0x340); chr 44; chr 32; HOp false "" (WNum 0)])).
    + unfold text1. cbn [map snd]. rewrite H0. reflexivity.
    + apply f_equal. vm_compute. reflexivity.
Qed.
Print Assumptions C65_csr_refuted.

(** ** C66 *)
(** A word sb, sh or sw stores the low bytes of x[rs2], least significant first, at
    x[rs1] plus the sign-extended immediate, and changes no other byte. *)
Theorem C66_store_words : forall d w k T, decoder_ok d -> In (k, T) [(0, U8); (1, U16); (2, U32)] ->
  V2DecSpec.word w -> at_ w 0 7 = 35 -> at_ w 12 3 = k -> forall small x m,
  exists off m', operand_is Simm w (PImm off) /\ exec1 d small x w m = Some m' /\
    forall A, m' A = let a := store_addr small (reg_at x w 15) off in
      if (a <=? A) && (A <? a + opbytes T) then (reg_at x w 20 / 256 ^ (A - a)) mod 256 else m A.
Proof.
  intros d w k T Hd HT Hw H1 H2 small x m. destruct (V1ScalProofs2.store_words d w k T Hd HT Hw H1 H2 small x m) as (off & A & B).
  exists off, (exec_store T small (reg_at x w 15) off (reg_at x w 20) m). split; [exact A|]. split; [exact B|].
  apply LogProofs.store_ok. destruct HT as [E|[E|[E|[]]]]; injection E as _ <-; cbn; tauto.
Qed.
Print Assumptions C66_store_words.
(** sw x7, -8(x2); the immediate -8 is the only one the word stands for. *)
Example C66_case :
  option_map (fun m => map m [0xff7; 0xff8; 0xff9; 0xffa; 0xffb; 0xffc]) (exec1 first_match true (fun r => if r =? 7 then 0x12345678 else 0x1000) 0xfe712c23 (fun _ => 1))
  = Some [1; 0x78; 0x56; 0x34; 0x12; 1].
Proof. vm_compute. reflexivity. Qed.
