(** * What V1 scalar words mean, by the RISC-V manuals

    Encodings of RV32I, M, Zicsr, Zifencei as the unprivileged manual lists them, of
    the privileged instructions, and of CoralNPU's own mpause, cache, getvl and log
    instructions.  Entries are written as in V2DecSpec.v, by bit position; nothing
    here refers to the rows or formats of coralnpu_*.bin_fmt. *)
From Verif Require Import DecodeTypes DecodeModel.
From Verif Require Import CInt V2DecTypes V2DecModel V2DecSpec.
Import ListNotations.
Open Scope string_scope.
Open Scope list_scope.
Open Scope Z_scope.

Definition ld1 name f3 sem := M name (P [(0, 7, 3); (12, 3, f3)] []) [Fn ("RV32::" ++ sem) []; Fn ("RV32::" ++ sem ++ "Child") []] [KX 15; Iimm] [] (Some ([], [DKX 7])) [].
Definition st1 name f3 ty := M name (P [(0, 7, 35); (12, 3, f3)] []) [Fn ("coralnpu::CoralNPUIStore<" ++ ty ++ ">") []] [KX 15; Simm; KX 20] [] None [].
Definition word1 name v sem dst := M name (P [(0, 32, v)] []) sem [] dst None [].
Definition base1 : list ment := [
  M "lui" (P [(0, 7, 55)] []) (rv "RiscVILui") [Uimm] [DKX 7] None rd0;
  M "auipc" (P [(0, 7, 23)] []) (rv "RiscVIAuipc") [Uimm] [DKX 7] None rd0;
  M "jal" (P [(0, 7, 111)] []) (rv "RiscVIJal") [Jimm] [DKPc; DKX 7] None [];
  M "jalr" (P [(0, 7, 103); (12, 3, 0)] []) (rv "RiscVIJalr") [KX 15; Iimm] [DKPc; DKX 7] None [];
  br "beq" 0 "RiscVIBeq"; br "bne" 1 "RiscVIBne"; br "blt" 4 "RiscVIBlt";
  br "bge" 5 "RiscVIBge"; br "bltu" 6 "RiscVIBltu"; br "bgeu" 7 "RiscVIBgeu";
  ld1 "lb" 0 "RiscVILb"; ld1 "lh" 1 "RiscVILh"; ld1 "lw" 2 "RiscVILw"; ld1 "lbu" 4 "RiscVILbu"; ld1 "lhu" 5 "RiscVILhu";
  st1 "sb" 0 "uint8_t"; st1 "sh" 1 "uint16_t"; st1 "sw" 2 "uint32_t";
  ri "addi" 0 "RiscVIAdd"; ri "slti" 2 "RiscVISlt"; ri "sltiu" 3 "RiscVISltu";
  ri "xori" 4 "RiscVIXor"; ri "ori" 6 "RiscVIOr"; ri "andi" 7 "RiscVIAnd";
  sh "slli" 0 1 "RiscVISll"; sh "srli" 0 5 "RiscVISrl"; sh "srai" 32 5 "RiscVISra";
  rr "add" 0 0 "RiscVIAdd"; rr "sub" 32 0 "RiscVISub"; rr "sll" 0 1 "RiscVISll";
  rr "slt" 0 2 "RiscVISlt"; rr "sltu" 0 3 "RiscVISltu"; rr "xor" 0 4 "RiscVIXor";
  rr "srl" 0 5 "RiscVISrl"; rr "sra" 32 5 "RiscVISra"; rr "or" 0 6 "RiscVIOr"; rr "and" 0 7 "RiscVIAnd";
  (* fence.tso is the fence with fm = 8. *)
  M "fence" (P [(0, 7, 15); (12, 3, 0)] []) (fn "RiscVIFence") [Iimm] [] None [];
  M "fence.i" (P [(0, 7, 15); (12, 3, 1)] []) (fn "RiscVZFencei") [Iimm] [] None [];
  word1 "ecall" 0x73 (fn "RiscVIEcall") []; word1 "ebreak" 0x100073 (fn "RiscVIEbreak") [] ].
(** csrrw does not read the csr if rd is x0; csrrs and csrrc do not write it if rs1
    is x0 (or the immediate 0). *)
Definition zicsr1 : list ment := [
  csr_ "csrrw" 1 [] [(7, 5, 0)] "RiscVZiCsrrw" [KX 15; csr_src] [DKX 7; DKCsr];
  csr_ "csrrw x0" 1 [(7, 5, 0)] [] "RiscVZiCsrrwNr" [KX 15; csr_src] [DKCsr];
  csr_ "csrrs" 2 [] [(15, 5, 0)] "RiscVZiCsrrs" [KX 15; csr_src] [DKX 7; DKCsr];
  csr_ "csrr" 2 [(15, 5, 0)] [] "RiscVZiCsrrNw" [csr_src] [DKX 7];
  csr_ "csrrc" 3 [] [(15, 5, 0)] "RiscVZiCsrrc" [KX 15; csr_src] [DKX 7; DKCsr];
  csr_ "csrrc .. x0" 3 [(15, 5, 0)] [] "RiscVZiCsrrNw" [csr_src] [DKX 7];
  csr_ "csrrwi" 5 [] [(7, 5, 0)] "RiscVZiCsrrw" [Ufld 15 5; csr_src] [DKX 7; DKCsr];
  csr_ "csrrwi x0" 5 [(7, 5, 0)] [] "RiscVZiCsrrwNr" [Ufld 15 5; csr_src] [DKCsr];
  csr_ "csrrsi" 6 [] [(15, 5, 0)] "RiscVZiCsrrs" [Ufld 15 5; csr_src] [DKX 7; DKCsr];
  csr_ "csrrsi .. 0" 6 [(15, 5, 0)] [] "RiscVZiCsrrNw" [csr_src] [DKX 7];
  csr_ "csrrci" 7 [] [(15, 5, 0)] "RiscVZiCsrrc" [Ufld 15 5; csr_src] [DKX 7; DKCsr];
  csr_ "csrrci .. 0" 7 [(15, 5, 0)] [] "RiscVZiCsrrNw" [csr_src] [DKX 7] ].
(** Privileged manual; sfence.vma distinguishes x0 from other registers. *)
Definition sfence name eq ne sem := M name (P ([(0, 7, 115); (7, 5, 0); (12, 3, 0); (25, 7, 9)] ++ eq) ne) (fn sem) [KX 15; KX 20] [] None [].
Definition priv1 : list ment := [
  word1 "uret" 0x200073 (rv "RiscVPrivURet") [DKPc]; word1 "sret" 0x10200073 (rv "RiscVPrivSRet") [DKPc];
  word1 "mret" 0x30200073 (rv "RiscVPrivMRet") [DKPc]; word1 "wfi" 0x10500073 (fn "RiscVPrivWfi") [];
  sfence "sfence.vma x0,x0" [(15, 5, 0); (20, 5, 0)] [] "RiscVPrivSFenceVmaZZ";
  sfence "sfence.vma x0,r" [(15, 5, 0)] [(20, 5, 0)] "RiscVPrivSFenceVmaZN";
  sfence "sfence.vma r,x0" [(20, 5, 0)] [(15, 5, 0)] "RiscVPrivSFenceVmaNZ";
  sfence "sfence.vma r,r" [] [(15, 5, 0); (20, 5, 0)] "RiscVPrivSFenceVmaNN" ].
(** CoralNPU: mpause; major opcode 0x77.  getvl: bit 27 asks for four times the
    length, bits 25-26 give the lane width; the requests are the registers that are
    not x0. *)
Definition log1 (t : string * Z) := let '(n, k) := t in
  M n (P [(0, 7, 119); (7, 5, 0); (12, 3, k); (20, 12, 0x780)] [(15, 5, 0)]) [Fn "coralnpu::CoralNPULogInstruction" [k]] [KX 15] [] None [].
Definition getvl1 : list ment := flat_map (fun m => flat_map (fun t => let '(ty, sz) := t in
  let p eq ne := P ([(0, 7, 119); (12, 3, 0); (25, 2, sz); (27, 1, m); (28, 4, 1)] ++ eq) ((7, 5, 0) :: ne) in
  let f a b := [Fn ("coralnpu::CoralNPUGetVl<" ++ ty ++ ">") [m; a; b]] in
  [ M "getmaxvl" (p [(15, 5, 0); (20, 5, 0)] []) (f 0 0) [] [DKX 7] None [];
    M "getvl.x" (p [(20, 5, 0)] [(15, 5, 0)]) (f 1 0) [KX 15] [DKX 7] None [];
    M "getvl.xx" (p [] [(15, 5, 0); (20, 5, 0)]) (f 1 1) [KX 15; KX 20] [DKX 7] None [] ])
  [("int8_t", 0); ("int16_t", 1); ("int32_t", 2)]) [0; 1].
Definition coral1 : list ment := [
  word1 "mpause" 0x8000073 (fn "coralnpu::CoralNPUIMpause") [];
  word1 "flushall" 0x26000077 (fn "coralnpu::CoralNPUNopInstruction") [];
  M "flushat" (P [(0, 7, 119); (7, 5, 0); (12, 3, 0); (20, 12, 0x260)] [(15, 5, 0)]) (fn "coralnpu::CoralNPUNopInstruction") [KX 15] [] None [] ]
  ++ getvl1 ++ map log1 [("flog", 0); ("slog", 1); ("clog", 2); ("klog", 3)].
Definition manual1 : list ment := base1 ++ mul_div ++ zicsr1 ++ priv1 ++ coral1.

(** Words of the manual that do something else: addi x0, x0, 0x480, a HINT, is taken
    for adwinit v0, v0. *)
Definition stray1 : Z := 0x48000013.
(** Words of the manual no row takes: jalr x0, imm(x1) and the other addi x0, x0, imm,
    with a nonzero immediate. *)
Definition holes1 : list pat := [
  P [(0, 7, 103); (12, 3, 0); (7, 5, 0); (15, 5, 1)] [(20, 12, 0)];
  P [(0, 7, 19); (12, 3, 0); (7, 5, 0); (15, 5, 0)] [(20, 12, 0); (20, 12, 0x480)] ].

(** ** Stores: the register in a field; x0 reads as 0. *)
Definition reg_at (x : Z -> Z) (w lo : Z) : Z := if at_ w lo 5 =? 0 then 0 else x (at_ w lo 5).

(** ** Disassembly *)
(** Opcodes with one and the same text.  The forms of sfence.vma differ by their
    operands, which are shown; the others do different things. *)
Definition same_text : list (list string) := [
  ["sfence_vma_zz"; "sfence_vma_zn"; "sfence_vma_nz"; "sfence_vma_nn"];
  ["adwconv_vxv"; "vdwconv_vxv"]; ["vld_w_p_xx_m"; "vst_w_p_xx_m"];
  ["vstq_b_s_xx"; "vstq_b_sp_xx"]; ["vstq_h_s_xx"; "vstq_h_sp_xx"]; ["vstq_w_s_xx"; "vstq_w_sp_xx"];
  ["vstq_b_s_xx_m"; "vstq_b_sp_xx_m"]; ["vstq_h_s_xx_m"; "vstq_h_sp_xx_m"]; ["vstq_w_s_xx_m"; "vstq_w_sp_xx_m"] ].
(** Opcodes whose text leaves out an operand that can vary. *)
Definition hides : list string := ["fence"; "fencei"].
(** Operands up to the two ways to name x0: the register and the constant 0. *)
Definition x0_op (o : operand) : operand := match o with OZero => OReg 0 | _ => o end.
Definition x0_src (o : opnd) : opnd := match o with PZero => PX 0 | _ => o end.
Definition x0_dst (o : dopnd) : dopnd := match o with DX0 => DX 0 | _ => o end.
Definition x0_act (a : act) : act :=
  Act (a_sem a) (map x0_src (a_src a)) (map x0_dst (a_dst a))
      (option_map (fun c => (map x0_src (fst c), map x0_dst (snd c))) (a_child a)).
