(** * More columns of the V1 instruction tables

    Generated by /verif/tools/gen_v1aux.py; do not edit.  Keyed by opcode, with the
    lines of /repo/sim they come from. *)
From Verif Require Import V2DecTypes.
From Coq Require Import String List.
Import ListNotations.
Open Scope string_scope.
Open Scope Z_scope.

(** Semantic functions of the instruction and of its child. *)
Definition v1_sems : list (string * list fn2) := [
  (* coralnpu_base.isa:61 *) ("lui", [Fn "RV32::RiscVILui" []]);
  (* coralnpu_base.isa:65 *) ("auipc", [Fn "RV32::RiscVIAuipc" []]);
  (* coralnpu_base.isa:115 *) ("jal", [Fn "RV32::RiscVIJal" []]);
  (* coralnpu_base.isa:123 *) ("j", [Fn "RV32::RiscVIJal" []]);
  (* coralnpu_base.isa:119 *) ("jalr", [Fn "RV32::RiscVIJalr" []]);
  (* coralnpu_base.isa:127 *) ("jr", [Fn "RV32::RiscVIJalr" []]);
  (* coralnpu_base.isa:131 *) ("ret", [Fn "RV32::RiscVIJalr" []]);
  (* coralnpu_base.isa:135 *) ("beq", [Fn "RV32::RiscVIBeq" []]);
  (* coralnpu_base.isa:139 *) ("bne", [Fn "RV32::RiscVIBne" []]);
  (* coralnpu_base.isa:143 *) ("blt", [Fn "RV32::RiscVIBlt" []]);
  (* coralnpu_base.isa:151 *) ("bge", [Fn "RV32::RiscVIBge" []]);
  (* coralnpu_base.isa:147 *) ("bltu", [Fn "RV32::RiscVIBltu" []]);
  (* coralnpu_base.isa:155 *) ("bgeu", [Fn "RV32::RiscVIBgeu" []]);
  (* coralnpu_base.isa:171 *) ("lb", [Fn "RV32::RiscVILb" []; Fn "RV32::RiscVILbChild" []]);
  (* coralnpu_base.isa:163 *) ("lh", [Fn "RV32::RiscVILh" []; Fn "RV32::RiscVILhChild" []]);
  (* coralnpu_base.isa:21 *) ("li", [Fn "RV32::RiscVIAdd" []]);
  (* coralnpu_base.isa:159 *) ("lw", [Fn "RV32::RiscVILw" []; Fn "RV32::RiscVILwChild" []]);
  (* coralnpu_base.isa:175 *) ("lbu", [Fn "RV32::RiscVILbu" []; Fn "RV32::RiscVILbuChild" []]);
  (* coralnpu_base.isa:167 *) ("lhu", [Fn "RV32::RiscVILhu" []; Fn "RV32::RiscVILhuChild" []]);
  (* coralnpu_base.isa:25 *) ("mv", [Fn "RV32::RiscVIAdd" []]);
  (* coralnpu_base.isa:109 *) ("nop", [Fn "RiscVINop" []]);
  (* coralnpu_base.isa:187 *) ("sb", [Fn "coralnpu::CoralNPUIStore<uint8_t>" []]);
  (* coralnpu_base.isa:183 *) ("sh", [Fn "coralnpu::CoralNPUIStore<uint16_t>" []]);
  (* coralnpu_base.isa:179 *) ("sw", [Fn "coralnpu::CoralNPUIStore<uint32_t>" []]);
  (* coralnpu_base.isa:17 *) ("addi", [Fn "RV32::RiscVIAdd" []]);
  (* coralnpu_base.isa:29 *) ("slti", [Fn "RV32::RiscVISlt" []]);
  (* coralnpu_base.isa:33 *) ("sltiu", [Fn "RV32::RiscVISltu" []]);
  (* coralnpu_base.isa:45 *) ("xori", [Fn "RV32::RiscVIXor" []]);
  (* coralnpu_base.isa:41 *) ("ori", [Fn "RV32::RiscVIOr" []]);
  (* coralnpu_base.isa:37 *) ("andi", [Fn "RV32::RiscVIAnd" []]);
  (* coralnpu_base.isa:49 *) ("slli", [Fn "RV32::RiscVISll" []]);
  (* coralnpu_base.isa:53 *) ("srli", [Fn "RV32::RiscVISrl" []]);
  (* coralnpu_base.isa:57 *) ("srai", [Fn "RV32::RiscVISra" []]);
  (* coralnpu_base.isa:69 *) ("add", [Fn "RV32::RiscVIAdd" []]);
  (* coralnpu_base.isa:101 *) ("sub", [Fn "RV32::RiscVISub" []]);
  (* coralnpu_base.isa:93 *) ("sll", [Fn "RV32::RiscVISll" []]);
  (* coralnpu_base.isa:73 *) ("slt", [Fn "RV32::RiscVISlt" []]);
  (* coralnpu_base.isa:77 *) ("sltu", [Fn "RV32::RiscVISltu" []]);
  (* coralnpu_base.isa:89 *) ("xor", [Fn "RV32::RiscVIXor" []]);
  (* coralnpu_base.isa:97 *) ("srl", [Fn "RV32::RiscVISrl" []]);
  (* coralnpu_base.isa:105 *) ("sra", [Fn "RV32::RiscVISra" []]);
  (* coralnpu_base.isa:85 *) ("or", [Fn "RV32::RiscVIOr" []]);
  (* coralnpu_base.isa:81 *) ("and", [Fn "RV32::RiscVIAnd" []]);
  (* coralnpu_base.isa:191 *) ("fence", [Fn "RiscVIFence" []]);
  (* coralnpu_base.isa:194 *) ("ecall", [Fn "RiscVIEcall" []]);
  (* coralnpu_base.isa:197 *) ("ebreak", [Fn "RiscVIEbreak" []]);
  (* coralnpu_base.isa:330 *) ("fencei", [Fn "RiscVZFencei" []]);
  (* coralnpu_base.isa:212 *) ("mul", [Fn "RV32::MMul" []]);
  (* coralnpu_base.isa:216 *) ("mulh", [Fn "RV32::MMulh" []]);
  (* coralnpu_base.isa:224 *) ("mulhsu", [Fn "RV32::MMulhsu" []]);
  (* coralnpu_base.isa:220 *) ("mulhu", [Fn "RV32::MMulhu" []]);
  (* coralnpu_base.isa:228 *) ("div", [Fn "RV32::MDiv" []]);
  (* coralnpu_base.isa:232 *) ("divu", [Fn "RV32::MDivu" []]);
  (* coralnpu_base.isa:236 *) ("rem", [Fn "RV32::MRem" []]);
  (* coralnpu_base.isa:240 *) ("remu", [Fn "RV32::MRemu" []]);
  (* coralnpu_base.isa:255 *) ("csrrw", [Fn "RV32::RiscVZiCsrrw" []]);
  (* coralnpu_base.isa:259 *) ("csrrs", [Fn "RV32::RiscVZiCsrrs" []]);
  (* coralnpu_base.isa:263 *) ("csrrc", [Fn "RV32::RiscVZiCsrrc" []]);
  (* coralnpu_base.isa:267 *) ("csrrs_nr", [Fn "RV32::RiscVZiCsrrs" []]);
  (* coralnpu_base.isa:271 *) ("csrrc_nr", [Fn "RV32::RiscVZiCsrrc" []]);
  (* coralnpu_base.isa:275 *) ("csrrw_nr", [Fn "RV32::RiscVZiCsrrwNr" []]);
  (* coralnpu_base.isa:279 *) ("csrrs_nw", [Fn "RV32::RiscVZiCsrrNw" []]);
  (* coralnpu_base.isa:283 *) ("csrrc_nw", [Fn "RV32::RiscVZiCsrrNw" []]);
  (* coralnpu_base.isa:287 *) ("csrrwi", [Fn "RV32::RiscVZiCsrrw" []]);
  (* coralnpu_base.isa:291 *) ("csrrsi", [Fn "RV32::RiscVZiCsrrs" []]);
  (* coralnpu_base.isa:295 *) ("csrrci", [Fn "RV32::RiscVZiCsrrc" []]);
  (* coralnpu_base.isa:299 *) ("csrrsi_nr", [Fn "RV32::RiscVZiCsrrs" []]);
  (* coralnpu_base.isa:303 *) ("csrrci_nr", [Fn "RV32::RiscVZiCsrrc" []]);
  (* coralnpu_base.isa:307 *) ("csrrwi_nr", [Fn "RV32::RiscVZiCsrrwNr" []]);
  (* coralnpu_base.isa:311 *) ("csrrsi_nw", [Fn "RV32::RiscVZiCsrrNw" []]);
  (* coralnpu_base.isa:315 *) ("csrrci_nw", [Fn "RV32::RiscVZiCsrrNw" []]);
  (* coralnpu_base.isa:345 *) ("uret", [Fn "RV32::RiscVPrivURet" []]);
  (* coralnpu_base.isa:348 *) ("sret", [Fn "RV32::RiscVPrivSRet" []]);
  (* coralnpu_base.isa:351 *) ("mret", [Fn "RV32::RiscVPrivMRet" []]);
  (* coralnpu_base.isa:354 *) ("wfi", [Fn "RiscVPrivWfi" []]);
  (* coralnpu_base.isa:357 *) ("mpause", [Fn "coralnpu::CoralNPUIMpause" []]);
  (* coralnpu_base.isa:363 *) ("sfence_vma_zz", [Fn "RiscVPrivSFenceVmaZZ" []]);
  (* coralnpu_base.isa:367 *) ("sfence_vma_zn", [Fn "RiscVPrivSFenceVmaZN" []]);
  (* coralnpu_base.isa:371 *) ("sfence_vma_nz", [Fn "RiscVPrivSFenceVmaNZ" []]);
  (* coralnpu_base.isa:375 *) ("sfence_vma_nn", [Fn "RiscVPrivSFenceVmaNN" []]);
  (* coralnpu_memory.isa:14 *) ("flushall", [Fn "coralnpu::CoralNPUNopInstruction" []]);
  (* coralnpu_memory.isa:17 *) ("flushat", [Fn "coralnpu::CoralNPUNopInstruction" []]);
  (* coralnpu_memory.isa:36 *) ("getmaxvl_b", [Fn "coralnpu::CoralNPUGetVl<int8_t>" [0; 0; 0]]);
  (* coralnpu_memory.isa:40 *) ("getmaxvl_h", [Fn "coralnpu::CoralNPUGetVl<int16_t>" [0; 0; 0]]);
  (* coralnpu_memory.isa:44 *) ("getmaxvl_w", [Fn "coralnpu::CoralNPUGetVl<int32_t>" [0; 0; 0]]);
  (* coralnpu_memory.isa:48 *) ("getvl_b_x", [Fn "coralnpu::CoralNPUGetVl<int8_t>" [0; 1; 0]]);
  (* coralnpu_memory.isa:52 *) ("getvl_h_x", [Fn "coralnpu::CoralNPUGetVl<int16_t>" [0; 1; 0]]);
  (* coralnpu_memory.isa:56 *) ("getvl_w_x", [Fn "coralnpu::CoralNPUGetVl<int32_t>" [0; 1; 0]]);
  (* coralnpu_memory.isa:60 *) ("getvl_b_xx", [Fn "coralnpu::CoralNPUGetVl<int8_t>" [0; 1; 1]]);
  (* coralnpu_memory.isa:64 *) ("getvl_h_xx", [Fn "coralnpu::CoralNPUGetVl<int16_t>" [0; 1; 1]]);
  (* coralnpu_memory.isa:68 *) ("getvl_w_xx", [Fn "coralnpu::CoralNPUGetVl<int32_t>" [0; 1; 1]]);
  (* coralnpu_memory.isa:72 *) ("getmaxvl_b_m", [Fn "coralnpu::CoralNPUGetVl<int8_t>" [1; 0; 0]]);
  (* coralnpu_memory.isa:76 *) ("getmaxvl_h_m", [Fn "coralnpu::CoralNPUGetVl<int16_t>" [1; 0; 0]]);
  (* coralnpu_memory.isa:80 *) ("getmaxvl_w_m", [Fn "coralnpu::CoralNPUGetVl<int32_t>" [1; 0; 0]]);
  (* coralnpu_memory.isa:84 *) ("getvl_b_x_m", [Fn "coralnpu::CoralNPUGetVl<int8_t>" [1; 1; 0]]);
  (* coralnpu_memory.isa:88 *) ("getvl_h_x_m", [Fn "coralnpu::CoralNPUGetVl<int16_t>" [1; 1; 0]]);
  (* coralnpu_memory.isa:92 *) ("getvl_w_x_m", [Fn "coralnpu::CoralNPUGetVl<int32_t>" [1; 1; 0]]);
  (* coralnpu_memory.isa:96 *) ("getvl_b_xx_m", [Fn "coralnpu::CoralNPUGetVl<int8_t>" [1; 1; 1]]);
  (* coralnpu_memory.isa:100 *) ("getvl_h_xx_m", [Fn "coralnpu::CoralNPUGetVl<int16_t>" [1; 1; 1]]);
  (* coralnpu_memory.isa:104 *) ("getvl_w_xx_m", [Fn "coralnpu::CoralNPUGetVl<int32_t>" [1; 1; 1]]);
  (* coralnpu_base.isa:391 *) ("flog", [Fn "coralnpu::CoralNPULogInstruction" [0]]);
  (* coralnpu_base.isa:395 *) ("slog", [Fn "coralnpu::CoralNPULogInstruction" [1]]);
  (* coralnpu_base.isa:399 *) ("clog", [Fn "coralnpu::CoralNPULogInstruction" [2]]);
  (* coralnpu_base.isa:403 *) ("klog", [Fn "coralnpu::CoralNPULogInstruction" [3]])
].

(** Disassembly text: mnemonic, operands. *)
Definition v1_disasm : list (string * list string) := [
  (* coralnpu_base.isa:61 *) ("lui", ["lui"; "%rd, 0x%(U_imm20:08x)"]);
  (* coralnpu_base.isa:65 *) ("auipc", ["auipc"; "%rd, 0x%(U_imm20:08x)"]);
  (* coralnpu_base.isa:115 *) ("jal", ["jal"; "%rd, %(@+J_imm20:08x)"]);
  (* coralnpu_base.isa:123 *) ("j", ["j"; "%(@+J_imm20:08x)"]);
  (* coralnpu_base.isa:119 *) ("jalr", ["jalr"; "%rd, %rs1, %J_imm12"]);
  (* coralnpu_base.isa:127 *) ("jr", ["jr"; "%rs1, %J_imm12"]);
  (* coralnpu_base.isa:131 *) ("ret", ["ret"]);
  (* coralnpu_base.isa:135 *) ("beq", ["beq"; "%rs1, %rs2, %(@+B_imm12:08x)"]);
  (* coralnpu_base.isa:139 *) ("bne", ["bne"; "%rs1, %rs2, %(@+B_imm12:08x)"]);
  (* coralnpu_base.isa:143 *) ("blt", ["blt"; "%rs1, %rs2, %(@+B_imm12:08x)"]);
  (* coralnpu_base.isa:151 *) ("bge", ["bge"; "%rs1, %rs2, %(@+B_imm12:08x)"]);
  (* coralnpu_base.isa:147 *) ("bltu", ["bltu"; "%rs1, %rs2, %(@+B_imm12:08x)"]);
  (* coralnpu_base.isa:155 *) ("bgeu", ["bgeu"; "%rs1, %rs2, %(@+B_imm12:08x)"]);
  (* coralnpu_base.isa:171 *) ("lb", ["lb"; "%rd, %I_imm12(%rs1)"]);
  (* coralnpu_base.isa:163 *) ("lh", ["lh"; "%rd, %I_imm12(%rs1)"]);
  (* coralnpu_base.isa:21 *) ("li", ["li"; "%rd, %I_imm12"]);
  (* coralnpu_base.isa:159 *) ("lw", ["lw"; "%rd, %I_imm12(%rs1)"]);
  (* coralnpu_base.isa:175 *) ("lbu", ["lbu"; "%rd, %I_imm12(%rs1)"]);
  (* coralnpu_base.isa:167 *) ("lhu", ["lhu"; "%rd, %I_imm12(%rs1)"]);
  (* coralnpu_base.isa:25 *) ("mv", ["mv"; "%rd, %rs1"]);
  (* coralnpu_base.isa:109 *) ("nop", ["nop"]);
  (* coralnpu_base.isa:187 *) ("sb", ["sb"; "%rs2, %S_imm12(%rs1)"]);
  (* coralnpu_base.isa:183 *) ("sh", ["sh"; "%rs2, %S_imm12(%rs1)"]);
  (* coralnpu_base.isa:179 *) ("sw", ["sw"; "%rs2, %S_imm12(%rs1)"]);
  (* coralnpu_base.isa:17 *) ("addi", ["addi"; "%rd, %rs1, %I_imm12"]);
  (* coralnpu_base.isa:29 *) ("slti", ["slti"; "%rd, %rs1, %I_imm12"]);
  (* coralnpu_base.isa:33 *) ("sltiu", ["sltiu"; "%rd, %rs1, %I_imm12"]);
  (* coralnpu_base.isa:45 *) ("xori", ["xori"; "%rd, %rs1, %I_imm12"]);
  (* coralnpu_base.isa:41 *) ("ori", ["ori"; "%rd, %rs1, %I_imm12"]);
  (* coralnpu_base.isa:37 *) ("andi", ["andi"; "%rd, %rs1, %I_imm12"]);
  (* coralnpu_base.isa:49 *) ("slli", ["slli"; "%rd, %rs1, 0x%(I_uimm5:x)"]);
  (* coralnpu_base.isa:53 *) ("srli", ["srli"; "%rd  %rs1, 0x%(I_uimm5:x)"]);
  (* coralnpu_base.isa:57 *) ("srai", ["srai"; "%rd, %rs1, 0x%(I_uimm5:x)"]);
  (* coralnpu_base.isa:69 *) ("add", ["add"; "%rd, %rs1, %rs2"]);
  (* coralnpu_base.isa:101 *) ("sub", ["sub"; "%rd, %rs1, %rs2"]);
  (* coralnpu_base.isa:93 *) ("sll", ["sll"; "%rd, %rs1, %rs2"]);
  (* coralnpu_base.isa:73 *) ("slt", ["slt"; "%rd, %rs1, %rs2"]);
  (* coralnpu_base.isa:77 *) ("sltu", ["sltu"; "%rd, %rs1, %rs2"]);
  (* coralnpu_base.isa:89 *) ("xor", ["xor"; "%rd, %rs1, %rs2"]);
  (* coralnpu_base.isa:97 *) ("srl", ["srl"; "%rd, %rs1, %rs2"]);
  (* coralnpu_base.isa:105 *) ("sra", ["sra"; "%rd, %rs1, %rs2"]);
  (* coralnpu_base.isa:85 *) ("or", ["or"; "%rd, %rs1, %rs2"]);
  (* coralnpu_base.isa:81 *) ("and", ["and"; "%rd, %rs1, %rs2"]);
  (* coralnpu_base.isa:191 *) ("fence", ["fence"]);
  (* coralnpu_base.isa:194 *) ("ecall", ["ecall"]);
  (* coralnpu_base.isa:197 *) ("ebreak", ["ebreak"]);
  (* coralnpu_base.isa:330 *) ("fencei", ["fence.i"]);
  (* coralnpu_base.isa:212 *) ("mul", ["mul"; "%rd, %rs1, %rs2"]);
  (* coralnpu_base.isa:216 *) ("mulh", ["mulh"; "%rd, %rs1, %rs2"]);
  (* coralnpu_base.isa:224 *) ("mulhsu", ["mulhsu"; "%rd, %rs1, %rs2"]);
  (* coralnpu_base.isa:220 *) ("mulhu", ["mulhu"; "%rd, %rs1, %rs2"]);
  (* coralnpu_base.isa:228 *) ("div", ["div"; "%rd, %rs1, %rs2"]);
  (* coralnpu_base.isa:232 *) ("divu", ["divu"; "%rd, %rs1, %rs2"]);
  (* coralnpu_base.isa:236 *) ("rem", ["rem"; "%rd, %rs1, %rs2"]);
  (* coralnpu_base.isa:240 *) ("remu", ["remu"; "%rd, %rs1, %rs2"]);
  (* coralnpu_base.isa:255 *) ("csrrw", ["csrw"; "%rd, %csr, %rs1"]);
  (* coralnpu_base.isa:259 *) ("csrrs", ["csrs"; "%rd, %csr, %rs1"]);
  (* coralnpu_base.isa:263 *) ("csrrc", ["csrc"; "%rd, %csr, %rs1"]);
  (* coralnpu_base.isa:267 *) ("csrrs_nr", ["csrs"; "%csr, %rs1"]);
  (* coralnpu_base.isa:271 *) ("csrrc_nr", ["csrc"; "%csr, %rs1"]);
  (* coralnpu_base.isa:275 *) ("csrrw_nr", ["csrw"; "%csr, %rs1"]);
  (* coralnpu_base.isa:279 *) ("csrrs_nw", ["csrs"; "%rd, %csr"]);
  (* coralnpu_base.isa:283 *) ("csrrc_nw", ["csrc"; "%rd, %csr"]);
  (* coralnpu_base.isa:287 *) ("csrrwi", ["csrwi"; "%rd, %csr, %CSR_uimm5"]);
  (* coralnpu_base.isa:291 *) ("csrrsi", ["csrsi"; "%rd, %csr, %CSR_uimm5"]);
  (* coralnpu_base.isa:295 *) ("csrrci", ["csrci"; "%rd, %csr, %CSR_uimm5"]);
  (* coralnpu_base.isa:299 *) ("csrrsi_nr", ["csrsi"; "%csr, %CSR_uimm5"]);
  (* coralnpu_base.isa:303 *) ("csrrci_nr", ["csrci"; "%csr, %CSR_uimm5"]);
  (* coralnpu_base.isa:307 *) ("csrrwi_nr", ["csrrwi"; "%csr, %CSR_uimm5"]);
  (* coralnpu_base.isa:311 *) ("csrrsi_nw", ["csrsi"; "%rd, %csr, 0"]);
  (* coralnpu_base.isa:315 *) ("csrrci_nw", ["csrwi"; "%rd, %csr, 0"]);
  (* coralnpu_base.isa:345 *) ("uret", ["uret"]);
  (* coralnpu_base.isa:348 *) ("sret", ["sret"]);
  (* coralnpu_base.isa:351 *) ("mret", ["mret"]);
  (* coralnpu_base.isa:354 *) ("wfi", ["wfi"]);
  (* coralnpu_base.isa:357 *) ("mpause", ["mpause"]);
  (* coralnpu_base.isa:363 *) ("sfence_vma_zz", ["sfence.vma"; "%rs1, %rs2"]);
  (* coralnpu_base.isa:367 *) ("sfence_vma_zn", ["sfence.vma"; "%rs1, %rs2"]);
  (* coralnpu_base.isa:371 *) ("sfence_vma_nz", ["sfence.vma"; "%rs1, %rs2"]);
  (* coralnpu_base.isa:375 *) ("sfence_vma_nn", ["sfence.vma"; "%rs1, %rs2"]);
  (* coralnpu_memory.isa:14 *) ("flushall", ["flushall"]);
  (* coralnpu_memory.isa:17 *) ("flushat", ["flushat"; "%rs1"]);
  (* coralnpu_memory.isa:36 *) ("getmaxvl_b", ["getmaxvl.b"; "%rd"]);
  (* coralnpu_memory.isa:40 *) ("getmaxvl_h", ["getmaxvl.h"; "%rd"]);
  (* coralnpu_memory.isa:44 *) ("getmaxvl_w", ["getmaxvl.w"; "%rd"]);
  (* coralnpu_memory.isa:48 *) ("getvl_b_x", ["getvl.b.x"; "%rd, %rs1"]);
  (* coralnpu_memory.isa:52 *) ("getvl_h_x", ["getvl.h.x"; "%rd, %rs1"]);
  (* coralnpu_memory.isa:56 *) ("getvl_w_x", ["getvl.w.x"; "%rd, %rs1"]);
  (* coralnpu_memory.isa:60 *) ("getvl_b_xx", ["getvl.b.xx"; "%rd, %rs1, %rs2"]);
  (* coralnpu_memory.isa:64 *) ("getvl_h_xx", ["getvl.h.xx"; "%rd, %rs1, %rs2"]);
  (* coralnpu_memory.isa:68 *) ("getvl_w_xx", ["getvl.w.xx"; "%rd, %rs1, %rs2"]);
  (* coralnpu_memory.isa:72 *) ("getmaxvl_b_m", ["getmaxvl.b.m"; "%rd"]);
  (* coralnpu_memory.isa:76 *) ("getmaxvl_h_m", ["getmaxvl.h.m"; "%rd"]);
  (* coralnpu_memory.isa:80 *) ("getmaxvl_w_m", ["getmaxvl.w.m"; "%rd"]);
  (* coralnpu_memory.isa:84 *) ("getvl_b_x_m", ["getvl.b.x.m"; "%rd, %rs1"]);
  (* coralnpu_memory.isa:88 *) ("getvl_h_x_m", ["getvl.h.x.m"; "%rd, %rs1"]);
  (* coralnpu_memory.isa:92 *) ("getvl_w_x_m", ["getvl.w.x.m"; "%rd, %rs1"]);
  (* coralnpu_memory.isa:96 *) ("getvl_b_xx_m", ["getvl.b.xx.m"; "%rd, %rs1, %rs2"]);
  (* coralnpu_memory.isa:100 *) ("getvl_h_xx_m", ["getvl.h.xx.m"; "%rd, %rs1, %rs2"]);
  (* coralnpu_memory.isa:104 *) ("getvl_w_xx_m", ["getvl.w.xx.m"; "%rd, %rs1, %rs2"]);
  (* coralnpu_base.isa:391 *) ("flog", ["flog"; "%rs1"]);
  (* coralnpu_base.isa:395 *) ("slog", ["slog"; "%rs1"]);
  (* coralnpu_base.isa:399 *) ("clog", ["clog"; "%rs1"]);
  (* coralnpu_base.isa:403 *) ("klog", ["klog"; "%rs1"]);
  (* coralnpu_arith.isa:20 *) ("vadd_b_vv", ["vadd.b.vv"; "%vd, %vs1, %vs2"]);
  (* coralnpu_arith.isa:38 *) ("vadd_b_vx", ["vadd.b.vx"; "%vd, %vs1, %vs2"]);
  (* coralnpu_arith.isa:23 *) ("vadd_b_vv_m", ["vadd.b.vv.m"; "%vd, %vs1, %vs2"]);
  (* coralnpu_arith.isa:41 *) ("vadd_b_vx_m", ["vadd.b.vx.m"; "%vd, %vs1, %vs2"]);
  (* coralnpu_arith.isa:26 *) ("vadd_h_vv", ["vadd.h.vv"; "%vd, %vs1, %vs2"]);
  (* coralnpu_arith.isa:44 *) ("vadd_h_vx", ["vadd.h.vx"; "%vd, %vs1, %vs2"]);
  (* coralnpu_arith.isa:29 *) ("vadd_h_vv_m", ["vadd.h.vv.m"; "%vd, %vs1, %vs2"]);
  (* coralnpu_arith.isa:47 *) ("vadd_h_vx_m", ["vadd.h.vx.m"; "%vd, %vs1, %vs2"]);
  (* coralnpu_arith.isa:32 *) ("vadd_w_vv", ["vadd.w.vv"; "%vd, %vs1, %vs2"]);
  (* coralnpu_arith.isa:50 *) ("vadd_w_vx", ["vadd.w.vx"; "%vd, %vs1, %vs2"]);
  (* coralnpu_arith.isa:35 *) ("vadd_w_vv_m", ["vadd.w.vv.m"; "%vd, %vs1, %vs2"]);
  (* coralnpu_arith.isa:53 *) ("vadd_w_vx_m", ["vadd.w.vx.m"; "%vd, %vs1, %vs2"]);
  (* coralnpu_arith.isa:57 *) ("vsub_b_vv", ["vsub.b.vv"; "%vd, %vs1, %vs2"]);
  (* coralnpu_arith.isa:75 *) ("vsub_b_vx", ["vsub.b.vx"; "%vd, %vs1, %vs2"]);
  (* coralnpu_arith.isa:60 *) ("vsub_b_vv_m", ["vsub.b.vv.m"; "%vd, %vs1, %vs2"]);
  (* coralnpu_arith.isa:78 *) ("vsub_b_vx_m", ["vsub.b.vx.m"; "%vd, %vs1, %vs2"]);
  (* coralnpu_arith.isa:63 *) ("vsub_h_vv", ["vsub.h.vv"; "%vd, %vs1, %vs2"]);
  (* coralnpu_arith.isa:81 *) ("vsub_h_vx", ["vsub.h.vx"; "%vd, %vs1, %vs2"]);
  (* coralnpu_arith.isa:66 *) ("vsub_h_vv_m", ["vsub.h.vv.m"; "%vd, %vs1, %vs2"]);
  (* coralnpu_arith.isa:84 *) ("vsub_h_vx_m", ["vsub.h.vx.m"; "%vd, %vs1, %vs2"]);
  (* coralnpu_arith.isa:69 *) ("vsub_w_vv", ["vsub.w.vv"; "%vd, %vs1, %vs2"]);
  (* coralnpu_arith.isa:87 *) ("vsub_w_vx", ["vsub.w.vx"; "%vd, %vs1, %vs2"]);
  (* coralnpu_arith.isa:72 *) ("vsub_w_vv_m", ["vsub.w.vv.m"; "%vd, %vs1, %vs2"]);
  (* coralnpu_arith.isa:90 *) ("vsub_w_vx_m", ["vsub.w.vx.m"; "%vd, %vs1, %vs2"]);
  (* coralnpu_arith.isa:94 *) ("vrsub_b_vv", ["vrsub.b.vv"; "%vd, %vs1, %vs2"]);
  (* coralnpu_arith.isa:112 *) ("vrsub_b_vx", ["vrsub.b.vx"; "%vd, %vs1, %vs2"]);
  (* coralnpu_arith.isa:97 *) ("vrsub_b_vv_m", ["vrsub.b.vv.m"; "%vd, %vs1, %vs2"]);
  (* coralnpu_arith.isa:115 *) ("vrsub_b_vx_m", ["vrsub.b.vx.m"; "%vd, %vs1, %vs2"]);
  (* coralnpu_arith.isa:100 *) ("vrsub_h_vv", ["vrsub.h.vv"; "%vd, %vs1, %vs2"]);
  (* coralnpu_arith.isa:118 *) ("vrsub_h_vx", ["vrsub.h.vx"; "%vd, %vs1, %vs2"]);
  (* coralnpu_arith.isa:103 *) ("vrsub_h_vv_m", ["vrsub.h.vv.m"; "%vd, %vs1, %vs2"]);
  (* coralnpu_arith.isa:121 *) ("vrsub_h_vx_m", ["vrsub.h.vx.m"; "%vd, %vs1, %vs2"]);
  (* coralnpu_arith.isa:106 *) ("vrsub_w_vv", ["vrsub.w.vv"; "%vd, %vs1, %vs2"]);
  (* coralnpu_arith.isa:124 *) ("vrsub_w_vx", ["vrsub.w.vx"; "%vd, %vs1, %vs2"]);
  (* coralnpu_arith.isa:109 *) ("vrsub_w_vv_m", ["vrsub.w.vv.m"; "%vd, %vs1, %vs2"]);
  (* coralnpu_arith.isa:127 *) ("vrsub_w_vx_m", ["vrsub.w.vx.m"; "%vd, %vs1, %vs2"]);
  (* coralnpu_arith.isa:131 *) ("veq_b_vv", ["veq.b.vv"; "%vd, %vs1, %vs2"]);
  (* coralnpu_arith.isa:149 *) ("veq_b_vx", ["veq.b.vx"; "%vd, %vs1, %vs2"]);
  (* coralnpu_arith.isa:134 *) ("veq_b_vv_m", ["veq.b.vv.m"; "%vd, %vs1, %vs2"]);
  (* coralnpu_arith.isa:152 *) ("veq_b_vx_m", ["veq.b.vx.m"; "%vd, %vs1, %vs2"]);
  (* coralnpu_arith.isa:137 *) ("veq_h_vv", ["veq.h.vv"; "%vd, %vs1, %vs2"]);
  (* coralnpu_arith.isa:155 *) ("veq_h_vx", ["veq.h.vx"; "%vd, %vs1, %vs2"]);
  (* coralnpu_arith.isa:140 *) ("veq_h_vv_m", ["veq.h.vv.m"; "%vd, %vs1, %vs2"]);
  (* coralnpu_arith.isa:158 *) ("veq_h_vx_m", ["veq.h.vx.m"; "%vd, %vs1, %vs2"]);
  (* coralnpu_arith.isa:143 *) ("veq_w_vv", ["veq.w.vv"; "%vd, %vs1, %vs2"]);
  (* coralnpu_arith.isa:161 *) ("veq_w_vx", ["veq.w.vx"; "%vd, %vs1, %vs2"]);
  (* coralnpu_arith.isa:146 *) ("veq_w_vv_m", ["veq.w.vv.m"; "%vd, %vs1, %vs2"]);
  (* coralnpu_arith.isa:164 *) ("veq_w_vx_m", ["veq.w.vx.m"; "%vd, %vs1, %vs2"]);
  (* coralnpu_arith.isa:168 *) ("vne_b_vv", ["vne.b.vv"; "%vd, %vs1, %vs2"]);
  (* coralnpu_arith.isa:186 *) ("vne_b_vx", ["vne.b.vx"; "%vd, %vs1, %vs2"]);
  (* coralnpu_arith.isa:171 *) ("vne_b_vv_m", ["vne.b.vv.m"; "%vd, %vs1, %vs2"]);
  (* coralnpu_arith.isa:189 *) ("vne_b_vx_m", ["vne.b.vx.m"; "%vd, %vs1, %vs2"]);
  (* coralnpu_arith.isa:174 *) ("vne_h_vv", ["vne.h.vv"; "%vd, %vs1, %vs2"]);
  (* coralnpu_arith.isa:192 *) ("vne_h_vx", ["vne.h.vx"; "%vd, %vs1, %vs2"]);
  (* coralnpu_arith.isa:177 *) ("vne_h_vv_m", ["vne.h.vv.m"; "%vd, %vs1, %vs2"]);
  (* coralnpu_arith.isa:195 *) ("vne_h_vx_m", ["vne.h.vx.m"; "%vd, %vs1, %vs2"]);
  (* coralnpu_arith.isa:180 *) ("vne_w_vv", ["vne.w.vv"; "%vd, %vs1, %vs2"]);
  (* coralnpu_arith.isa:198 *) ("vne_w_vx", ["vne.w.vx"; "%vd, %vs1, %vs2"]);
  (* coralnpu_arith.isa:183 *) ("vne_w_vv_m", ["vne.w.vv.m"; "%vd, %vs1, %vs2"]);
  (* coralnpu_arith.isa:201 *) ("vne_w_vx_m", ["vne.w.vx.m"; "%vd, %vs1, %vs2"]);
  (* coralnpu_arith.isa:205 *) ("vlt_b_vv", ["vlt.b.vv"; "%vd, %vs1, %vs2"]);
  (* coralnpu_arith.isa:223 *) ("vlt_b_vx", ["vlt.b.vx"; "%vd, %vs1, %vs2"]);
  (* coralnpu_arith.isa:208 *) ("vlt_b_vv_m", ["vlt.b.vv.m"; "%vd, %vs1, %vs2"]);
  (* coralnpu_arith.isa:226 *) ("vlt_b_vx_m", ["vlt.b.vx.m"; "%vd, %vs1, %vs2"]);
  (* coralnpu_arith.isa:211 *) ("vlt_h_vv", ["vlt.h.vv"; "%vd, %vs1, %vs2"]);
  (* coralnpu_arith.isa:229 *) ("vlt_h_vx", ["vlt.h.vx"; "%vd, %vs1, %vs2"]);
  (* coralnpu_arith.isa:214 *) ("vlt_h_vv_m", ["vlt.h.vv.m"; "%vd, %vs1, %vs2"]);
  (* coralnpu_arith.isa:232 *) ("vlt_h_vx_m", ["vlt.h.vx.m"; "%vd, %vs1, %vs2"]);
  (* coralnpu_arith.isa:217 *) ("vlt_w_vv", ["vlt.w.vv"; "%vd, %vs1, %vs2"]);
  (* coralnpu_arith.isa:235 *) ("vlt_w_vx", ["vlt.w.vx"; "%vd, %vs1, %vs2"]);
  (* coralnpu_arith.isa:220 *) ("vlt_w_vv_m", ["vlt.w.vv.m"; "%vd, %vs1, %vs2"]);
  (* coralnpu_arith.isa:238 *) ("vlt_w_vx_m", ["vlt.w.vx.m"; "%vd, %vs1, %vs2"]);
  (* coralnpu_arith.isa:242 *) ("vlt_u_b_vv", ["vlt.b.u.vv"; "%vd, %vs1, %vs2"]);
  (* coralnpu_arith.isa:260 *) ("vlt_u_b_vx", ["vlt.b.u.vx"; "%vd, %vs1, %vs2"]);
  (* coralnpu_arith.isa:245 *) ("vlt_u_b_vv_m", ["vlt.b.u.vv.m"; "%vd, %vs1, %vs2"]);
  (* coralnpu_arith.isa:263 *) ("vlt_u_b_vx_m", ["vlt.b.u.vx.m"; "%vd, %vs1, %vs2"]);
  (* coralnpu_arith.isa:248 *) ("vlt_u_h_vv", ["vlt.h.u.vv"; "%vd, %vs1, %vs2"]);
  (* coralnpu_arith.isa:266 *) ("vlt_u_h_vx", ["vlt.h.u.vx"; "%vd, %vs1, %vs2"]);
  (* coralnpu_arith.isa:251 *) ("vlt_u_h_vv_m", ["vlt.h.u.vv.m"; "%vd, %vs1, %vs2"]);
  (* coralnpu_arith.isa:269 *) ("vlt_u_h_vx_m", ["vlt.h.u.vx.m"; "%vd, %vs1, %vs2"]);
  (* coralnpu_arith.isa:254 *) ("vlt_u_w_vv", ["vlt.w.u.vv"; "%vd, %vs1, %vs2"]);
  (* coralnpu_arith.isa:272 *) ("vlt_u_w_vx", ["vlt.w.u.vx"; "%vd, %vs1, %vs2"]);
  (* coralnpu_arith.isa:257 *) ("vlt_u_w_vv_m", ["vlt.w.u.vv.m"; "%vd, %vs1, %vs2"]);
  (* coralnpu_arith.isa:275 *) ("vlt_u_w_vx_m", ["vlt.w.u.vx.m"; "%vd, %vs1,V %vs2"]);
  (* coralnpu_arith.isa:279 *) ("vle_b_vv", ["vle.b.vv"; "%vd, %vs1, %vs2"]);
  (* coralnpu_arith.isa:297 *) ("vle_b_vx", ["vle.b.vx"; "%vd, %vs1, %vs2"]);
  (* coralnpu_arith.isa:282 *) ("vle_b_vv_m", ["vle.b.vv.m"; "%vd, %vs1, %vs2"]);
  (* coralnpu_arith.isa:300 *) ("vle_b_vx_m", ["vle.b.vx.m"; "%vd, %vs1, %vs2"]);
  (* coralnpu_arith.isa:285 *) ("vle_h_vv", ["vle.h.vv"; "%vd, %vs1, %vs2"]);
  (* coralnpu_arith.isa:303 *) ("vle_h_vx", ["vle.h.vx"; "%vd, %vs1, %vs2"]);
  (* coralnpu_arith.isa:288 *) ("vle_h_vv_m", ["vle.h.vv.m"; "%vd, %vs1, %vs2"]);
  (* coralnpu_arith.isa:306 *) ("vle_h_vx_m", ["vle.h.vx.m"; "%vd, %vs1, %vs2"]);
  (* coralnpu_arith.isa:291 *) ("vle_w_vv", ["vle.w.vv"; "%vd, %vs1, %vs2"]);
  (* coralnpu_arith.isa:309 *) ("vle_w_vx", ["vle.w.vx"; "%vd, %vs1, %vs2"]);
  (* coralnpu_arith.isa:294 *) ("vle_w_vv_m", ["vle.w.vv.m"; "%vd, %vs1, %vs2"]);
  (* coralnpu_arith.isa:312 *) ("vle_w_vx_m", ["vle.w.vx.m"; "%vd, %vs1, %vs2"]);
  (* coralnpu_arith.isa:316 *) ("vle_u_b_vv", ["vle.b.u.vv"; "%vd, %vs1, %vs2"]);
  (* coralnpu_arith.isa:334 *) ("vle_u_b_vx", ["vle.b.u.vx"; "%vd, %vs1, %vs2"]);
  (* coralnpu_arith.isa:319 *) ("vle_u_b_vv_m", ["vle.b.u.vv.m"; "%vd, %vs1, %vs2"]);
  (* coralnpu_arith.isa:337 *) ("vle_u_b_vx_m", ["vle.b.u.vx.m"; "%vd, %vs1, %vs2"]);
  (* coralnpu_arith.isa:322 *) ("vle_u_h_vv", ["vle.h.u.vv"; "%vd, %vs1, %vs2"]);
  (* coralnpu_arith.isa:340 *) ("vle_u_h_vx", ["vle.h.u.vx"; "%vd, %vs1, %vs2"]);
  (* coralnpu_arith.isa:325 *) ("vle_u_h_vv_m", ["vle.h.u.vv.m"; "%vd, %vs1, %vs2"]);
  (* coralnpu_arith.isa:343 *) ("vle_u_h_vx_m", ["vle.h.u.vx.m"; "%vd, %vs1, %vs2"]);
  (* coralnpu_arith.isa:328 *) ("vle_u_w_vv", ["vle.w.u.vv"; "%vd, %vs1, %vs2"]);
  (* coralnpu_arith.isa:346 *) ("vle_u_w_vx", ["vle.w.u.vx"; "%vd, %vs1, %vs2"]);
  (* coralnpu_arith.isa:331 *) ("vle_u_w_vv_m", ["vle.w.u.vv.m"; "%vd, %vs1, %vs2"]);
  (* coralnpu_arith.isa:349 *) ("vle_u_w_vx_m", ["vle.w.u.vx.m"; "%vd, %vs1,V %vs2"]);
  (* coralnpu_arith.isa:353 *) ("vgt_b_vv", ["vgt.b.vv"; "%vd, %vs1, %vs2"]);
  (* coralnpu_arith.isa:371 *) ("vgt_b_vx", ["vgt.b.vx"; "%vd, %vs1, %vs2"]);
  (* coralnpu_arith.isa:356 *) ("vgt_b_vv_m", ["vgt.b.vv.m"; "%vd, %vs1, %vs2"]);
  (* coralnpu_arith.isa:374 *) ("vgt_b_vx_m", ["vgt.b.vx.m"; "%vd, %vs1, %vs2"]);
  (* coralnpu_arith.isa:359 *) ("vgt_h_vv", ["vgt.h.vv"; "%vd, %vs1, %vs2"]);
  (* coralnpu_arith.isa:377 *) ("vgt_h_vx", ["vgt.h.vx"; "%vd, %vs1, %vs2"]);
  (* coralnpu_arith.isa:362 *) ("vgt_h_vv_m", ["vgt.h.vv.m"; "%vd, %vs1, %vs2"]);
  (* coralnpu_arith.isa:380 *) ("vgt_h_vx_m", ["vgt.h.vx.m"; "%vd, %vs1, %vs2"]);
  (* coralnpu_arith.isa:365 *) ("vgt_w_vv", ["vgt.w.vv"; "%vd, %vs1, %vs2"]);
  (* coralnpu_arith.isa:383 *) ("vgt_w_vx", ["vgt.w.vx"; "%vd, %vs1, %vs2"]);
  (* coralnpu_arith.isa:368 *) ("vgt_w_vv_m", ["vgt.w.vv.m"; "%vd, %vs1, %vs2"]);
  (* coralnpu_arith.isa:386 *) ("vgt_w_vx_m", ["vgt.w.vx.m"; "%vd, %vs1, %vs2"]);
  (* coralnpu_arith.isa:390 *) ("vgt_u_b_vv", ["vgt.b.u.vv"; "%vd, %vs1, %vs2"]);
  (* coralnpu_arith.isa:408 *) ("vgt_u_b_vx", ["vgt.b.u.vx"; "%vd, %vs1, %vs2"]);
  (* coralnpu_arith.isa:393 *) ("vgt_u_b_vv_m", ["vgt.b.u.vv.m"; "%vd, %vs1, %vs2"]);
  (* coralnpu_arith.isa:411 *) ("vgt_u_b_vx_m", ["vgt.b.u.vx.m"; "%vd, %vs1, %vs2"]);
  (* coralnpu_arith.isa:396 *) ("vgt_u_h_vv", ["vgt.h.u.vv"; "%vd, %vs1, %vs2"]);
  (* coralnpu_arith.isa:414 *) ("vgt_u_h_vx", ["vgt.h.u.vx"; "%vd, %vs1, %vs2"]);
  (* coralnpu_arith.isa:399 *) ("vgt_u_h_vv_m", ["vgt.h.u.vv.m"; "%vd, %vs1, %vs2"]);
  (* coralnpu_arith.isa:417 *) ("vgt_u_h_vx_m", ["vgt.h.u.vx.m"; "%vd, %vs1, %vs2"]);
  (* coralnpu_arith.isa:402 *) ("vgt_u_w_vv", ["vgt.w.u.vv"; "%vd, %vs1, %vs2"]);
  (* coralnpu_arith.isa:420 *) ("vgt_u_w_vx", ["vgt.w.u.vx"; "%vd, %vs1, %vs2"]);
  (* coralnpu_arith.isa:405 *) ("vgt_u_w_vv_m", ["vgt.w.u.vv.m"; "%vd, %vs1, %vs2"]);
  (* coralnpu_arith.isa:423 *) ("vgt_u_w_vx_m", ["vgt.w.u.vx.m"; "%vd, %vs1,V %vs2"]);
  (* coralnpu_arith.isa:427 *) ("vge_b_vv", ["vge.b.vv"; "%vd, %vs1, %vs2"]);
  (* coralnpu_arith.isa:445 *) ("vge_b_vx", ["vge.b.vx"; "%vd, %vs1, %vs2"]);
  (* coralnpu_arith.isa:430 *) ("vge_b_vv_m", ["vge.b.vv.m"; "%vd, %vs1, %vs2"]);
  (* coralnpu_arith.isa:448 *) ("vge_b_vx_m", ["vge.b.vx.m"; "%vd, %vs1, %vs2"]);
  (* coralnpu_arith.isa:433 *) ("vge_h_vv", ["vge.h.vv"; "%vd, %vs1, %vs2"]);
  (* coralnpu_arith.isa:451 *) ("vge_h_vx", ["vge.h.vx"; "%vd, %vs1, %vs2"]);
  (* coralnpu_arith.isa:436 *) ("vge_h_vv_m", ["vge.h.vv.m"; "%vd, %vs1, %vs2"]);
  (* coralnpu_arith.isa:454 *) ("vge_h_vx_m", ["vge.h.vx.m"; "%vd, %vs1, %vs2"]);
  (* coralnpu_arith.isa:439 *) ("vge_w_vv", ["vge.w.vv"; "%vd, %vs1, %vs2"]);
  (* coralnpu_arith.isa:457 *) ("vge_w_vx", ["vge.w.vx"; "%vd, %vs1, %vs2"]);
  (* coralnpu_arith.isa:442 *) ("vge_w_vv_m", ["vge.w.vv.m"; "%vd, %vs1, %vs2"]);
  (* coralnpu_arith.isa:460 *) ("vge_w_vx_m", ["vge.w.vx.m"; "%vd, %vs1, %vs2"]);
  (* coralnpu_arith.isa:464 *) ("vge_u_b_vv", ["vge.b.u.vv"; "%vd, %vs1, %vs2"]);
  (* coralnpu_arith.isa:482 *) ("vge_u_b_vx", ["vge.b.u.vx"; "%vd, %vs1, %vs2"]);
  (* coralnpu_arith.isa:467 *) ("vge_u_b_vv_m", ["vge.b.u.vv.m"; "%vd, %vs1, %vs2"]);
  (* coralnpu_arith.isa:485 *) ("vge_u_b_vx_m", ["vge.b.u.vx.m"; "%vd, %vs1, %vs2"]);
  (* coralnpu_arith.isa:470 *) ("vge_u_h_vv", ["vge.h.u.vv"; "%vd, %vs1, %vs2"]);
  (* coralnpu_arith.isa:488 *) ("vge_u_h_vx", ["vge.h.u.vx"; "%vd, %vs1, %vs2"]);
  (* coralnpu_arith.isa:473 *) ("vge_u_h_vv_m", ["vge.h.u.vv.m"; "%vd, %vs1, %vs2"]);
  (* coralnpu_arith.isa:491 *) ("vge_u_h_vx_m", ["vge.h.u.vx.m"; "%vd, %vs1, %vs2"]);
  (* coralnpu_arith.isa:476 *) ("vge_u_w_vv", ["vge.w.u.vv"; "%vd, %vs1, %vs2"]);
  (* coralnpu_arith.isa:494 *) ("vge_u_w_vx", ["vge.w.u.vx"; "%vd, %vs1, %vs2"]);
  (* coralnpu_arith.isa:479 *) ("vge_u_w_vv_m", ["vge.w.u.vv.m"; "%vd, %vs1, %vs2"]);
  (* coralnpu_arith.isa:497 *) ("vge_u_w_vx_m", ["vge.w.u.vx.m"; "%vd, %vs1,V %vs2"]);
  (* coralnpu_arith.isa:501 *) ("vabsd_b_vv", ["vabsd.b.vv"; "%vd, %vs1, %vs2"]);
  (* coralnpu_arith.isa:519 *) ("vabsd_b_vx", ["vabsd.b.vx"; "%vd, %vs1, %vs2"]);
  (* coralnpu_arith.isa:504 *) ("vabsd_b_vv_m", ["vabsd.b.vv.m"; "%vd, %vs1, %vs2"]);
  (* coralnpu_arith.isa:522 *) ("vabsd_b_vx_m", ["vabsd.b.vx.m"; "%vd, %vs1, %vs2"]);
  (* coralnpu_arith.isa:507 *) ("vabsd_h_vv", ["vabsd.h.vv"; "%vd, %vs1, %vs2"]);
  (* coralnpu_arith.isa:525 *) ("vabsd_h_vx", ["vabsd.h.vx"; "%vd, %vs1, %vs2"]);
  (* coralnpu_arith.isa:510 *) ("vabsd_h_vv_m", ["vabsd.h.vv.m"; "%vd, %vs1, %vs2"]);
  (* coralnpu_arith.isa:528 *) ("vabsd_h_vx_m", ["vabsd.h.vx.m"; "%vd, %vs1, %vs2"]);
  (* coralnpu_arith.isa:513 *) ("vabsd_w_vv", ["vabsd.w.vv"; "%vd, %vs1, %vs2"]);
  (* coralnpu_arith.isa:531 *) ("vabsd_w_vx", ["vabsd.w.vx"; "%vd, %vs1, %vs2"]);
  (* coralnpu_arith.isa:516 *) ("vabsd_w_vv_m", ["vabsd.w.vv.m"; "%vd, %vs1, %vs2"]);
  (* coralnpu_arith.isa:534 *) ("vabsd_w_vx_m", ["vabsd.w.vx.m"; "%vd, %vs1, %vs2"]);
  (* coralnpu_arith.isa:538 *) ("vabsd_u_b_vv", ["vabsd.b.u.vv"; "%vd, %vs1, %vs2"]);
  (* coralnpu_arith.isa:556 *) ("vabsd_u_b_vx", ["vabsd.b.u.vx"; "%vd, %vs1, %vs2"]);
  (* coralnpu_arith.isa:541 *) ("vabsd_u_b_vv_m", ["vabsd.b.u.vv.m"; "%vd, %vs1, %vs2"]);
  (* coralnpu_arith.isa:559 *) ("vabsd_u_b_vx_m", ["vabsd.b.u.vx.m"; "%vd, %vs1, %vs2"]);
  (* coralnpu_arith.isa:544 *) ("vabsd_u_h_vv", ["vabsd.h.u.vv"; "%vd, %vs1, %vs2"]);
  (* coralnpu_arith.isa:562 *) ("vabsd_u_h_vx", ["vabsd.h.u.vx"; "%vd, %vs1, %vs2"]);
  (* coralnpu_arith.isa:547 *) ("vabsd_u_h_vv_m", ["vabsd.h.u.vv.m"; "%vd, %vs1, %vs2"]);
  (* coralnpu_arith.isa:565 *) ("vabsd_u_h_vx_m", ["vabsd.h.u.vx.m"; "%vd, %vs1, %vs2"]);
  (* coralnpu_arith.isa:550 *) ("vabsd_u_w_vv", ["vabsd.w.u.vv"; "%vd, %vs1, %vs2"]);
  (* coralnpu_arith.isa:568 *) ("vabsd_u_w_vx", ["vabsd.w.u.vx"; "%vd, %vs1, %vs2"]);
  (* coralnpu_arith.isa:553 *) ("vabsd_u_w_vv_m", ["vabsd.w.u.vv.m"; "%vd, %vs1, %vs2"]);
  (* coralnpu_arith.isa:571 *) ("vabsd_u_w_vx_m", ["vabsd.w.u.vx.m"; "%vd, %vs1,V %vs2"]);
  (* coralnpu_arith.isa:575 *) ("vmax_b_vv", ["vmax.b.vv"; "%vd, %vs1, %vs2"]);
  (* coralnpu_arith.isa:593 *) ("vmax_b_vx", ["vmax.b.vx"; "%vd, %vs1, %vs2"]);
  (* coralnpu_arith.isa:578 *) ("vmax_b_vv_m", ["vmax.b.vv.m"; "%vd, %vs1, %vs2"]);
  (* coralnpu_arith.isa:596 *) ("vmax_b_vx_m", ["vmax.b.vx.m"; "%vd, %vs1, %vs2"]);
  (* coralnpu_arith.isa:581 *) ("vmax_h_vv", ["vmax.h.vv"; "%vd, %vs1, %vs2"]);
  (* coralnpu_arith.isa:599 *) ("vmax_h_vx", ["vmax.h.vx"; "%vd, %vs1, %vs2"]);
  (* coralnpu_arith.isa:584 *) ("vmax_h_vv_m", ["vmax.h.vv.m"; "%vd, %vs1, %vs2"]);
  (* coralnpu_arith.isa:602 *) ("vmax_h_vx_m", ["vmax.h.vx.m"; "%vd, %vs1, %vs2"]);
  (* coralnpu_arith.isa:587 *) ("vmax_w_vv", ["vmax.w.vv"; "%vd, %vs1, %vs2"]);
  (* coralnpu_arith.isa:605 *) ("vmax_w_vx", ["vmax.w.vx"; "%vd, %vs1, %vs2"]);
  (* coralnpu_arith.isa:590 *) ("vmax_w_vv_m", ["vmax.w.vv.m"; "%vd, %vs1, %vs2"]);
  (* coralnpu_arith.isa:608 *) ("vmax_w_vx_m", ["vmax.w.vx.m"; "%vd, %vs1, %vs2"]);
  (* coralnpu_arith.isa:612 *) ("vmax_u_b_vv", ["vmax.b.u.vv"; "%vd, %vs1, %vs2"]);
  (* coralnpu_arith.isa:630 *) ("vmax_u_b_vx", ["vmax.b.u.vx"; "%vd, %vs1, %vs2"]);
  (* coralnpu_arith.isa:615 *) ("vmax_u_b_vv_m", ["vmax.b.u.vv.m"; "%vd, %vs1, %vs2"]);
  (* coralnpu_arith.isa:633 *) ("vmax_u_b_vx_m", ["vmax.b.u.vx.m"; "%vd, %vs1, %vs2"]);
  (* coralnpu_arith.isa:618 *) ("vmax_u_h_vv", ["vmax.h.u.vv"; "%vd, %vs1, %vs2"]);
  (* coralnpu_arith.isa:636 *) ("vmax_u_h_vx", ["vmax.h.u.vx"; "%vd, %vs1, %vs2"]);
  (* coralnpu_arith.isa:621 *) ("vmax_u_h_vv_m", ["vmax.h.u.vv.m"; "%vd, %vs1, %vs2"]);
  (* coralnpu_arith.isa:639 *) ("vmax_u_h_vx_m", ["vmax.h.u.vx.m"; "%vd, %vs1, %vs2"]);
  (* coralnpu_arith.isa:624 *) ("vmax_u_w_vv", ["vmax.w.u.vv"; "%vd, %vs1, %vs2"]);
  (* coralnpu_arith.isa:642 *) ("vmax_u_w_vx", ["vmax.w.u.vx"; "%vd, %vs1, %vs2"]);
  (* coralnpu_arith.isa:627 *) ("vmax_u_w_vv_m", ["vmax.w.u.vv.m"; "%vd, %vs1, %vs2"]);
  (* coralnpu_arith.isa:645 *) ("vmax_u_w_vx_m", ["vmax.w.u.vx.m"; "%vd, %vs1,V %vs2"]);
  (* coralnpu_arith.isa:649 *) ("vmin_b_vv", ["vmin.b.vv"; "%vd, %vs1, %vs2"]);
  (* coralnpu_arith.isa:667 *) ("vmin_b_vx", ["vmin.b.vx"; "%vd, %vs1, %vs2"]);
  (* coralnpu_arith.isa:652 *) ("vmin_b_vv_m", ["vmin.b.vv.m"; "%vd, %vs1, %vs2"]);
  (* coralnpu_arith.isa:670 *) ("vmin_b_vx_m", ["vmin.b.vx.m"; "%vd, %vs1, %vs2"]);
  (* coralnpu_arith.isa:655 *) ("vmin_h_vv", ["vmin.h.vv"; "%vd, %vs1, %vs2"]);
  (* coralnpu_arith.isa:673 *) ("vmin_h_vx", ["vmin.h.vx"; "%vd, %vs1, %vs2"]);
  (* coralnpu_arith.isa:658 *) ("vmin_h_vv_m", ["vmin.h.vv.m"; "%vd, %vs1, %vs2"]);
  (* coralnpu_arith.isa:676 *) ("vmin_h_vx_m", ["vmin.h.vx.m"; "%vd, %vs1, %vs2"]);
  (* coralnpu_arith.isa:661 *) ("vmin_w_vv", ["vmin.w.vv"; "%vd, %vs1, %vs2"]);
  (* coralnpu_arith.isa:679 *) ("vmin_w_vx", ["vmin.w.vx"; "%vd, %vs1, %vs2"]);
  (* coralnpu_arith.isa:664 *) ("vmin_w_vv_m", ["vmin.w.vv.m"; "%vd, %vs1, %vs2"]);
  (* coralnpu_arith.isa:682 *) ("vmin_w_vx_m", ["vmin.w.vx.m"; "%vd, %vs1, %vs2"]);
  (* coralnpu_arith.isa:686 *) ("vmin_u_b_vv", ["vmin.b.u.vv"; "%vd, %vs1, %vs2"]);
  (* coralnpu_arith.isa:704 *) ("vmin_u_b_vx", ["vmin.b.u.vx"; "%vd, %vs1, %vs2"]);
  (* coralnpu_arith.isa:689 *) ("vmin_u_b_vv_m", ["vmin.b.u.vv.m"; "%vd, %vs1, %vs2"]);
  (* coralnpu_arith.isa:707 *) ("vmin_u_b_vx_m", ["vmin.b.u.vx.m"; "%vd, %vs1, %vs2"]);
  (* coralnpu_arith.isa:692 *) ("vmin_u_h_vv", ["vmin.h.u.vv"; "%vd, %vs1, %vs2"]);
  (* coralnpu_arith.isa:710 *) ("vmin_u_h_vx", ["vmin.h.u.vx"; "%vd, %vs1, %vs2"]);
  (* coralnpu_arith.isa:695 *) ("vmin_u_h_vv_m", ["vmin.h.u.vv.m"; "%vd, %vs1, %vs2"]);
  (* coralnpu_arith.isa:713 *) ("vmin_u_h_vx_m", ["vmin.h.u.vx.m"; "%vd, %vs1, %vs2"]);
  (* coralnpu_arith.isa:698 *) ("vmin_u_w_vv", ["vmin.w.u.vv"; "%vd, %vs1, %vs2"]);
  (* coralnpu_arith.isa:716 *) ("vmin_u_w_vx", ["vmin.w.u.vx"; "%vd, %vs1, %vs2"]);
  (* coralnpu_arith.isa:701 *) ("vmin_u_w_vv_m", ["vmin.w.u.vv.m"; "%vd, %vs1, %vs2"]);
  (* coralnpu_arith.isa:719 *) ("vmin_u_w_vx_m", ["vmin.w.u.vx.m"; "%vd, %vs1,V %vs2"]);
  (* coralnpu_arith.isa:723 *) ("vadd3_b_vv", ["vadd3.b.vv"; "%vd, %vs1, %vs2"]);
  (* coralnpu_arith.isa:741 *) ("vadd3_b_vx", ["vadd3.b.vx"; "%vd, %vs1, %vs2"]);
  (* coralnpu_arith.isa:726 *) ("vadd3_b_vv_m", ["vadd3.b.vv.m"; "%vd, %vs1, %vs2"]);
  (* coralnpu_arith.isa:744 *) ("vadd3_b_vx_m", ["vadd3.b.vx.m"; "%vd, %vs1, %vs2"]);
  (* coralnpu_arith.isa:729 *) ("vadd3_h_vv", ["vadd3.h.vv"; "%vd, %vs1, %vs2"]);
  (* coralnpu_arith.isa:747 *) ("vadd3_h_vx", ["vadd3.h.vx"; "%vd, %vs1, %vs2"]);
  (* coralnpu_arith.isa:732 *) ("vadd3_h_vv_m", ["vadd3.h.vv.m"; "%vd, %vs1, %vs2"]);
  (* coralnpu_arith.isa:750 *) ("vadd3_h_vx_m", ["vadd3.h.vx.m"; "%vd, %vs1, %vs2"]);
  (* coralnpu_arith.isa:735 *) ("vadd3_w_vv", ["vadd3.w.vv"; "%vd, %vs1, %vs2"]);
  (* coralnpu_arith.isa:753 *) ("vadd3_w_vx", ["vadd3.w.vx"; "%vd, %vs1, %vs2"]);
  (* coralnpu_arith.isa:738 *) ("vadd3_w_vv_m", ["vadd3.w.vv.m"; "%vd, %vs1, %vs2"]);
  (* coralnpu_arith.isa:756 *) ("vadd3_w_vx_m", ["vadd3.w.vx.m"; "%vd, %vs1, %vs2"]);
  (* coralnpu_arith.isa:761 *) ("vadds_b_vv", ["vadds.b.vv"; "%vd, %vs1, %vs2"]);
  (* coralnpu_arith.isa:779 *) ("vadds_b_vx", ["vadds.b.vx"; "%vd, %vs1, %vs2"]);
  (* coralnpu_arith.isa:764 *) ("vadds_b_vv_m", ["vadds.b.vv.m"; "%vd, %vs1, %vs2"]);
  (* coralnpu_arith.isa:782 *) ("vadds_b_vx_m", ["vadds.b.vx.m"; "%vd, %vs1, %vs2"]);
  (* coralnpu_arith.isa:767 *) ("vadds_h_vv", ["vadds.h.vv"; "%vd, %vs1, %vs2"]);
  (* coralnpu_arith.isa:785 *) ("vadds_h_vx", ["vadds.h.vx"; "%vd, %vs1, %vs2"]);
  (* coralnpu_arith.isa:770 *) ("vadds_h_vv_m", ["vadds.h.vv.m"; "%vd, %vs1, %vs2"]);
  (* coralnpu_arith.isa:788 *) ("vadds_h_vx_m", ["vadds.h.vx.m"; "%vd, %vs1, %vs2"]);
  (* coralnpu_arith.isa:773 *) ("vadds_w_vv", ["vadds.w.vv"; "%vd, %vs1, %vs2"]);
  (* coralnpu_arith.isa:791 *) ("vadds_w_vx", ["vadds.w.vx"; "%vd, %vs1, %vs2"]);
  (* coralnpu_arith.isa:776 *) ("vadds_w_vv_m", ["vadds.w.vv.m"; "%vd, %vs1, %vs2"]);
  (* coralnpu_arith.isa:794 *) ("vadds_w_vx_m", ["vadds.w.vx.m"; "%vd, %vs1, %vs2"]);
  (* coralnpu_arith.isa:799 *) ("vadds_u_b_vv", ["vadds.b.u.vv"; "%vd, %vs1, %vs2"]);
  (* coralnpu_arith.isa:817 *) ("vadds_u_b_vx", ["vadds.b.u.vx"; "%vd, %vs1, %vs2"]);
  (* coralnpu_arith.isa:802 *) ("vadds_u_b_vv_m", ["vadds.b.u.vv.m"; "%vd, %vs1, %vs2"]);
  (* coralnpu_arith.isa:820 *) ("vadds_u_b_vx_m", ["vadds.b.u.vx.m"; "%vd, %vs1, %vs2"]);
  (* coralnpu_arith.isa:805 *) ("vadds_u_h_vv", ["vadds.h.u.vv"; "%vd, %vs1, %vs2"]);
  (* coralnpu_arith.isa:823 *) ("vadds_u_h_vx", ["vadds.h.u.vx"; "%vd, %vs1, %vs2"]);
  (* coralnpu_arith.isa:808 *) ("vadds_u_h_vv_m", ["vadds.h.u.vv.m"; "%vd, %vs1, %vs2"]);
  (* coralnpu_arith.isa:826 *) ("vadds_u_h_vx_m", ["vadds.h.u.vx.m"; "%vd, %vs1, %vs2"]);
  (* coralnpu_arith.isa:811 *) ("vadds_u_w_vv", ["vadds.w.u.vv"; "%vd, %vs1, %vs2"]);
  (* coralnpu_arith.isa:829 *) ("vadds_u_w_vx", ["vadds.w.u.vx"; "%vd, %vs1, %vs2"]);
  (* coralnpu_arith.isa:814 *) ("vadds_u_w_vv_m", ["vadds.w.u.vv.m"; "%vd, %vs1, %vs2"]);
  (* coralnpu_arith.isa:832 *) ("vadds_u_w_vx_m", ["vadds.w.u.vx.m"; "%vd, %vs1, %vs2"]);
  (* coralnpu_arith.isa:837 *) ("vsubs_b_vv", ["vsubs.b.vv"; "%vd, %vs1, %vs2"]);
  (* coralnpu_arith.isa:855 *) ("vsubs_b_vx", ["vsubs.b.vx"; "%vd, %vs1, %vs2"]);
  (* coralnpu_arith.isa:840 *) ("vsubs_b_vv_m", ["vsubs.b.vv.m"; "%vd, %vs1, %vs2"]);
  (* coralnpu_arith.isa:858 *) ("vsubs_b_vx_m", ["vsubs.b.vx.m"; "%vd, %vs1, %vs2"]);
  (* coralnpu_arith.isa:843 *) ("vsubs_h_vv", ["vsubs.h.vv"; "%vd, %vs1, %vs2"]);
  (* coralnpu_arith.isa:861 *) ("vsubs_h_vx", ["vsubs.h.vx"; "%vd, %vs1, %vs2"]);
  (* coralnpu_arith.isa:846 *) ("vsubs_h_vv_m", ["vsubs.h.vv.m"; "%vd, %vs1, %vs2"]);
  (* coralnpu_arith.isa:864 *) ("vsubs_h_vx_m", ["vsubs.h.vx.m"; "%vd, %vs1, %vs2"]);
  (* coralnpu_arith.isa:849 *) ("vsubs_w_vv", ["vsubs.w.vv"; "%vd, %vs1, %vs2"]);
  (* coralnpu_arith.isa:867 *) ("vsubs_w_vx", ["vsubs.w.vx"; "%vd, %vs1, %vs2"]);
  (* coralnpu_arith.isa:852 *) ("vsubs_w_vv_m", ["vsubs.w.vv.m"; "%vd, %vs1, %vs2"]);
  (* coralnpu_arith.isa:870 *) ("vsubs_w_vx_m", ["vsubs.w.vx.m"; "%vd, %vs1, %vs2"]);
  (* coralnpu_arith.isa:875 *) ("vsubs_u_b_vv", ["vsubs.b.u.vv"; "%vd, %vs1, %vs2"]);
  (* coralnpu_arith.isa:893 *) ("vsubs_u_b_vx", ["vsubs.b.u.vx"; "%vd, %vs1, %vs2"]);
  (* coralnpu_arith.isa:878 *) ("vsubs_u_b_vv_m", ["vsubs.b.u.vv.m"; "%vd, %vs1, %vs2"]);
  (* coralnpu_arith.isa:896 *) ("vsubs_u_b_vx_m", ["vsubs.b.u.vx.m"; "%vd, %vs1, %vs2"]);
  (* coralnpu_arith.isa:881 *) ("vsubs_u_h_vv", ["vsubs.h.u.vv"; "%vd, %vs1, %vs2"]);
  (* coralnpu_arith.isa:899 *) ("vsubs_u_h_vx", ["vsubs.h.u.vx"; "%vd, %vs1, %vs2"]);
  (* coralnpu_arith.isa:884 *) ("vsubs_u_h_vv_m", ["vsubs.h.u.vv.m"; "%vd, %vs1, %vs2"]);
  (* coralnpu_arith.isa:902 *) ("vsubs_u_h_vx_m", ["vsubs.h.u.vx.m"; "%vd, %vs1, %vs2"]);
  (* coralnpu_arith.isa:887 *) ("vsubs_u_w_vv", ["vsubs.w.u.vv"; "%vd, %vs1, %vs2"]);
  (* coralnpu_arith.isa:905 *) ("vsubs_u_w_vx", ["vsubs.w.u.vx"; "%vd, %vs1, %vs2"]);
  (* coralnpu_arith.isa:890 *) ("vsubs_u_w_vv_m", ["vsubs.w.u.vv.m"; "%vd, %vs1, %vs2"]);
  (* coralnpu_arith.isa:908 *) ("vsubs_u_w_vx_m", ["vsubs.w.u.vx.m"; "%vd, %vs1, %vs2"]);
  (* coralnpu_arith.isa:913 *) ("vaddw_h_vv", ["vaddw.h.vv"; "%vd, %vs1, %vs2"]);
  (* coralnpu_arith.isa:925 *) ("vaddw_h_vx", ["vaddw.h.vx"; "%vd, %vs1, %vs2"]);
  (* coralnpu_arith.isa:916 *) ("vaddw_h_vv_m", ["vaddw.h.vv.m"; "%vd, %vs1, %vs2"]);
  (* coralnpu_arith.isa:928 *) ("vaddw_h_vx_m", ["vaddw.h.vx.m"; "%vd, %vs1, %vs2"]);
  (* coralnpu_arith.isa:919 *) ("vaddw_w_vv", ["vaddw.w.vv"; "%vd, %vs1, %vs2"]);
  (* coralnpu_arith.isa:931 *) ("vaddw_w_vx", ["vaddw.w.vx"; "%vd, %vs1, %vs2"]);
  (* coralnpu_arith.isa:922 *) ("vaddw_w_vv_m", ["vaddw.w.vv.m"; "%vd, %vs1, %vs2"]);
  (* coralnpu_arith.isa:934 *) ("vaddw_w_vx_m", ["vaddw.w.vx.m"; "%vd, %vs1, %vs2"]);
  (* coralnpu_arith.isa:939 *) ("vaddw_h_u_vv", ["vaddw.h.u.vv"; "%vd, %vs1, %vs2"]);
  (* coralnpu_arith.isa:951 *) ("vaddw_h_u_vx", ["vaddw.h.u.vx"; "%vd, %vs1, %vs2"]);
  (* coralnpu_arith.isa:942 *) ("vaddw_h_u_vv_m", ["vaddw.h.u.vv.m"; "%vd, %vs1, %vs2"]);
  (* coralnpu_arith.isa:954 *) ("vaddw_h_u_vx_m", ["vaddw.h.u.vx.m"; "%vd, %vs1, %vs2"]);
  (* coralnpu_arith.isa:945 *) ("vaddw_w_u_vv", ["vaddw.w.u.vv"; "%vd, %vs1, %vs2"]);
  (* coralnpu_arith.isa:957 *) ("vaddw_w_u_vx", ["vaddw.w.u.vx"; "%vd, %vs1, %vs2"]);
  (* coralnpu_arith.isa:948 *) ("vaddw_w_u_vv_m", ["vaddw.w.u.vv.m"; "%vd, %vs1, %vs2"]);
  (* coralnpu_arith.isa:960 *) ("vaddw_w_u_vx_m", ["vaddw.w.u.vx.m"; "%vd, %vs1, %vs2"]);
  (* coralnpu_arith.isa:965 *) ("vsubw_h_vv", ["vsubw.h.vv"; "%vd, %vs1, %vs2"]);
  (* coralnpu_arith.isa:977 *) ("vsubw_h_vx", ["vsubw.h.vx"; "%vd, %vs1, %vs2"]);
  (* coralnpu_arith.isa:968 *) ("vsubw_h_vv_m", ["vsubw.h.vv.m"; "%vd, %vs1, %vs2"]);
  (* coralnpu_arith.isa:980 *) ("vsubw_h_vx_m", ["vsubw.h.vx.m"; "%vd, %vs1, %vs2"]);
  (* coralnpu_arith.isa:971 *) ("vsubw_w_vv", ["vsubw.w.vv"; "%vd, %vs1, %vs2"]);
  (* coralnpu_arith.isa:983 *) ("vsubw_w_vx", ["vsubw.w.vx"; "%vd, %vs1, %vs2"]);
  (* coralnpu_arith.isa:974 *) ("vsubw_w_vv_m", ["vsubw.w.vv.m"; "%vd, %vs1, %vs2"]);
  (* coralnpu_arith.isa:986 *) ("vsubw_w_vx_m", ["vsubw.w.vx.m"; "%vd, %vs1, %vs2"]);
  (* coralnpu_arith.isa:991 *) ("vsubw_h_u_vv", ["vsubw.h.u.vv"; "%vd, %vs1, %vs2"]);
  (* coralnpu_arith.isa:1003 *) ("vsubw_h_u_vx", ["vsubw.h.u.vx"; "%vd, %vs1, %vs2"]);
  (* coralnpu_arith.isa:994 *) ("vsubw_h_u_vv_m", ["vsubw.h.u.vv.m"; "%vd, %vs1, %vs2"]);
  (* coralnpu_arith.isa:1006 *) ("vsubw_h_u_vx_m", ["vsubw.h.u.vx.m"; "%vd, %vs1, %vs2"]);
  (* coralnpu_arith.isa:997 *) ("vsubw_w_u_vv", ["vsubw.w.u.vv"; "%vd, %vs1, %vs2"]);
  (* coralnpu_arith.isa:1009 *) ("vsubw_w_u_vx", ["vsubw.w.u.vx"; "%vd, %vs1, %vs2"]);
  (* coralnpu_arith.isa:1000 *) ("vsubw_w_u_vv_m", ["vsubw.w.u.vv.m"; "%vd, %vs1, %vs2"]);
  (* coralnpu_arith.isa:1012 *) ("vsubw_w_u_vx_m", ["vsubw.w.u.vx.m"; "%vd, %vs1, %vs2"]);
  (* coralnpu_arith.isa:1017 *) ("vacc_h_vv", ["vacc.h.vv"; "%vd, %vs1, %vs2"]);
  (* coralnpu_arith.isa:1029 *) ("vacc_h_vx", ["vacc.h.vx"; "%vd, %vs1, %vs2"]);
  (* coralnpu_arith.isa:1020 *) ("vacc_h_vv_m", ["vacc.h.vv.m"; "%vd, %vs1, %vs2"]);
  (* coralnpu_arith.isa:1032 *) ("vacc_h_vx_m", ["vacc.h.vx.m"; "%vd, %vs1, %vs2"]);
  (* coralnpu_arith.isa:1023 *) ("vacc_w_vv", ["vacc.w.vv"; "%vd, %vs1, %vs2"]);
  (* coralnpu_arith.isa:1035 *) ("vacc_w_vx", ["vacc.w.vx"; "%vd, %vs1, %vs2"]);
  (* coralnpu_arith.isa:1026 *) ("vacc_w_vv_m", ["vacc.w.vv.m"; "%vd, %vs1, %vs2"]);
  (* coralnpu_arith.isa:1038 *) ("vacc_w_vx_m", ["vacc.w.vx.m"; "%vd, %vs1, %vs2"]);
  (* coralnpu_arith.isa:1043 *) ("vacc_h_u_vv", ["vacc.h.u.vv"; "%vd, %vs1, %vs2"]);
  (* coralnpu_arith.isa:1055 *) ("vacc_h_u_vx", ["vacc.h.u.vx"; "%vd, %vs1, %vs2"]);
  (* coralnpu_arith.isa:1046 *) ("vacc_h_u_vv_m", ["vacc.h.u.vv.m"; "%vd, %vs1, %vs2"]);
  (* coralnpu_arith.isa:1058 *) ("vacc_h_u_vx_m", ["vacc.h.u.vx.m"; "%vd, %vs1, %vs2"]);
  (* coralnpu_arith.isa:1049 *) ("vacc_w_u_vv", ["vacc.w.u.vv"; "%vd, %vs1, %vs2"]);
  (* coralnpu_arith.isa:1061 *) ("vacc_w_u_vx", ["vacc.w.u.vx"; "%vd, %vs1, %vs2"]);
  (* coralnpu_arith.isa:1052 *) ("vacc_w_u_vv_m", ["vacc.w.u.vv.m"; "%vd, %vs1, %vs2"]);
  (* coralnpu_arith.isa:1064 *) ("vacc_w_u_vx_m", ["vacc.w.u.vx.m"; "%vd, %vs1, %vs2"]);
  (* coralnpu_arith.isa:1069 *) ("vpadd_h_v", ["vpadd.h.v"; "%vd, %vs1"]);
  (* coralnpu_arith.isa:1072 *) ("vpadd_h_v_m", ["vpadd.h.v.m"; "%vd, %vs1"]);
  (* coralnpu_arith.isa:1075 *) ("vpadd_w_v", ["vpadd.w.v"; "%vd, %vs1"]);
  (* coralnpu_arith.isa:1078 *) ("vpadd_w_v_m", ["vpadd.w.v.m"; "%vd, %vs1"]);
  (* coralnpu_arith.isa:1083 *) ("vpadd_h_u_v", ["vpadd.h.u.v"; "%vd, %vs1"]);
  (* coralnpu_arith.isa:1086 *) ("vpadd_h_u_v_m", ["vpadd.h.u.v.m"; "%vd, %vs1"]);
  (* coralnpu_arith.isa:1089 *) ("vpadd_w_u_v", ["vpadd.w.u.v"; "%vd, %vs1"]);
  (* coralnpu_arith.isa:1092 *) ("vpadd_w_u_v_m", ["vpadd.w.u.v.m"; "%vd, %vs1"]);
  (* coralnpu_arith.isa:1097 *) ("vpsub_h_v", ["vpsub.h.v"; "%vd, %vs1"]);
  (* coralnpu_arith.isa:1100 *) ("vpsub_h_v_m", ["vpsub.h.v.m"; "%vd, %vs1"]);
  (* coralnpu_arith.isa:1103 *) ("vpsub_w_v", ["vpsub.w.v"; "%vd, %vs1"]);
  (* coralnpu_arith.isa:1106 *) ("vpsub_w_v_m", ["vpsub.w.v.m"; "%vd, %vs1"]);
  (* coralnpu_arith.isa:1111 *) ("vpsub_h_u_v", ["vpsub.h.u.v"; "%vd, %vs1"]);
  (* coralnpu_arith.isa:1114 *) ("vpsub_h_u_v_m", ["vpsub.h.u.v.m"; "%vd, %vs1"]);
  (* coralnpu_arith.isa:1117 *) ("vpsub_w_u_v", ["vpsub.w.u.v"; "%vd, %vs1"]);
  (* coralnpu_arith.isa:1120 *) ("vpsub_w_u_v_m", ["vpsub.w.u.v.m"; "%vd, %vs1"]);
  (* coralnpu_arith.isa:1125 *) ("vhadd_b_vv", ["vhadd.b.vv"; "%vd, %vs1, %vs2"]);
  (* coralnpu_arith.isa:1143 *) ("vhadd_b_vx", ["vhadd.b.vx"; "%vd, %vs1, %vs2"]);
  (* coralnpu_arith.isa:1128 *) ("vhadd_b_vv_m", ["vhadd.b.vv.m"; "%vd, %vs1, %vs2"]);
  (* coralnpu_arith.isa:1146 *) ("vhadd_b_vx_m", ["vhadd.b.vx.m"; "%vd, %vs1, %vs2"]);
  (* coralnpu_arith.isa:1131 *) ("vhadd_h_vv", ["vhadd.h.vv"; "%vd, %vs1, %vs2"]);
  (* coralnpu_arith.isa:1149 *) ("vhadd_h_vx", ["vhadd.h.vx"; "%vd, %vs1, %vs2"]);
  (* coralnpu_arith.isa:1134 *) ("vhadd_h_vv_m", ["vhadd.h.vv.m"; "%vd, %vs1, %vs2"]);
  (* coralnpu_arith.isa:1152 *) ("vhadd_h_vx_m", ["vhadd.h.vx.m"; "%vd, %vs1, %vs2"]);
  (* coralnpu_arith.isa:1137 *) ("vhadd_w_vv", ["vhadd.w.vv"; "%vd, %vs1, %vs2"]);
  (* coralnpu_arith.isa:1155 *) ("vhadd_w_vx", ["vhadd.w.vx"; "%vd, %vs1, %vs2"]);
  (* coralnpu_arith.isa:1140 *) ("vhadd_w_vv_m", ["vhadd.w.vv.m"; "%vd, %vs1, %vs2"]);
  (* coralnpu_arith.isa:1158 *) ("vhadd_w_vx_m", ["vhadd.w.vx.m"; "%vd, %vs1, %vs2"]);
  (* coralnpu_arith.isa:1163 *) ("vhadd_b_r_vv", ["vhadd.b.r.vv"; "%vd, %vs1, %vs2"]);
  (* coralnpu_arith.isa:1181 *) ("vhadd_b_r_vx", ["vhadd.b.r.vx"; "%vd, %vs1, %vs2"]);
  (* coralnpu_arith.isa:1166 *) ("vhadd_b_r_vv_m", ["vhadd.b.r.vv.m"; "%vd, %vs1, %vs2"]);
  (* coralnpu_arith.isa:1184 *) ("vhadd_b_r_vx_m", ["vhadd.b.r.vx.m"; "%vd, %vs1, %vs2"]);
  (* coralnpu_arith.isa:1169 *) ("vhadd_h_r_vv", ["vhadd.h.r.vv"; "%vd, %vs1, %vs2"]);
  (* coralnpu_arith.isa:1187 *) ("vhadd_h_r_vx", ["vhadd.h.r.vx"; "%vd, %vs1, %vs2"]);
  (* coralnpu_arith.isa:1172 *) ("vhadd_h_r_vv_m", ["vhadd.h.r.vv.m"; "%vd, %vs1, %vs2"]);
  (* coralnpu_arith.isa:1190 *) ("vhadd_h_r_vx_m", ["vhadd.h.r.vx.m"; "%vd, %vs1, %vs2"]);
  (* coralnpu_arith.isa:1175 *) ("vhadd_w_r_vv", ["vhadd.w.r.vv"; "%vd, %vs1, %vs2"]);
  (* coralnpu_arith.isa:1193 *) ("vhadd_w_r_vx", ["vhadd.w.r.vx"; "%vd, %vs1, %vs2"]);
  (* coralnpu_arith.isa:1178 *) ("vhadd_w_r_vv_m", ["vhadd.w.r.vv.m"; "%vd, %vs1, %vs2"]);
  (* coralnpu_arith.isa:1196 *) ("vhadd_w_r_vx_m", ["vhadd.w.r.vx.m"; "%vd, %vs1, %vs2"]);
  (* coralnpu_arith.isa:1201 *) ("vhadd_b_u_vv", ["vhadd.b.u.vv"; "%vd, %vs1, %vs2"]);
  (* coralnpu_arith.isa:1219 *) ("vhadd_b_u_vx", ["vhadd.b.u.vx"; "%vd, %vs1, %vs2"]);
  (* coralnpu_arith.isa:1204 *) ("vhadd_b_u_vv_m", ["vhadd.b.u.vv.m"; "%vd, %vs1, %vs2"]);
  (* coralnpu_arith.isa:1222 *) ("vhadd_b_u_vx_m", ["vhadd.b.u.vx.m"; "%vd, %vs1, %vs2"]);
  (* coralnpu_arith.isa:1207 *) ("vhadd_h_u_vv", ["vhadd.h.u.vv"; "%vd, %vs1, %vs2"]);
  (* coralnpu_arith.isa:1225 *) ("vhadd_h_u_vx", ["vhadd.h.u.vx"; "%vd, %vs1, %vs2"]);
  (* coralnpu_arith.isa:1210 *) ("vhadd_h_u_vv_m", ["vhadd.h.u.vv.m"; "%vd, %vs1, %vs2"]);
  (* coralnpu_arith.isa:1228 *) ("vhadd_h_u_vx_m", ["vhadd.h.u.vx.m"; "%vd, %vs1, %vs2"]);
  (* coralnpu_arith.isa:1213 *) ("vhadd_w_u_vv", ["vhadd.w.u.vv"; "%vd, %vs1, %vs2"]);
  (* coralnpu_arith.isa:1231 *) ("vhadd_w_u_vx", ["vhadd.w.u.vx"; "%vd, %vs1, %vs2"]);
  (* coralnpu_arith.isa:1216 *) ("vhadd_w_u_vv_m", ["vhadd.w.u.vv.m"; "%vd, %vs1, %vs2"]);
  (* coralnpu_arith.isa:1234 *) ("vhadd_w_u_vx_m", ["vhadd.w.u.vx.m"; "%vd, %vs1, %vs2"]);
  (* coralnpu_arith.isa:1239 *) ("vhadd_b_ur_vv", ["vhadd.b.ur.vv"; "%vd, %vs1, %vs2"]);
  (* coralnpu_arith.isa:1257 *) ("vhadd_b_ur_vx", ["vhadd.b.ur.vx"; "%vd, %vs1, %vs2"]);
  (* coralnpu_arith.isa:1242 *) ("vhadd_b_ur_vv_m", ["vhadd.b.ur.vv.m"; "%vd, %vs1, %vs2"]);
  (* coralnpu_arith.isa:1260 *) ("vhadd_b_ur_vx_m", ["vhadd.b.ur.vx.m"; "%vd, %vs1, %vs2"]);
  (* coralnpu_arith.isa:1245 *) ("vhadd_h_ur_vv", ["vhadd.h.ur.vv"; "%vd, %vs1, %vs2"]);
  (* coralnpu_arith.isa:1263 *) ("vhadd_h_ur_vx", ["vhadd.h.ur.vx"; "%vd, %vs1, %vs2"]);
  (* coralnpu_arith.isa:1248 *) ("vhadd_h_ur_vv_m", ["vhadd.h.ur.vv.m"; "%vd, %vs1, %vs2"]);
  (* coralnpu_arith.isa:1266 *) ("vhadd_h_ur_vx_m", ["vhadd.h.ur.vx.m"; "%vd, %vs1, %vs2"]);
  (* coralnpu_arith.isa:1251 *) ("vhadd_w_ur_vv", ["vhadd.w.ur.vv"; "%vd, %vs1, %vs2"]);
  (* coralnpu_arith.isa:1269 *) ("vhadd_w_ur_vx", ["vhadd.w.ur.vx"; "%vd, %vs1, %vs2"]);
  (* coralnpu_arith.isa:1254 *) ("vhadd_w_ur_vv_m", ["vhadd.w.ur.vv.m"; "%vd, %vs1, %vs2"]);
  (* coralnpu_arith.isa:1272 *) ("vhadd_w_ur_vx_m", ["vhadd.w.ur.vx.m"; "%vd, %vs1, %vs2"]);
  (* coralnpu_arith.isa:1277 *) ("vhsub_b_vv", ["vhsub.b.vv"; "%vd, %vs1, %vs2"]);
  (* coralnpu_arith.isa:1295 *) ("vhsub_b_vx", ["vhsub.b.vx"; "%vd, %vs1, %vs2"]);
  (* coralnpu_arith.isa:1280 *) ("vhsub_b_vv_m", ["vhsub.b.vv.m"; "%vd, %vs1, %vs2"]);
  (* coralnpu_arith.isa:1298 *) ("vhsub_b_vx_m", ["vhsub.b.vx.m"; "%vd, %vs1, %vs2"]);
  (* coralnpu_arith.isa:1283 *) ("vhsub_h_vv", ["vhsub.h.vv"; "%vd, %vs1, %vs2"]);
  (* coralnpu_arith.isa:1301 *) ("vhsub_h_vx", ["vhsub.h.vx"; "%vd, %vs1, %vs2"]);
  (* coralnpu_arith.isa:1286 *) ("vhsub_h_vv_m", ["vhsub.h.vv.m"; "%vd, %vs1, %vs2"]);
  (* coralnpu_arith.isa:1304 *) ("vhsub_h_vx_m", ["vhsub.h.vx.m"; "%vd, %vs1, %vs2"]);
  (* coralnpu_arith.isa:1289 *) ("vhsub_w_vv", ["vhsub.w.vv"; "%vd, %vs1, %vs2"]);
  (* coralnpu_arith.isa:1307 *) ("vhsub_w_vx", ["vhsub.w.vx"; "%vd, %vs1, %vs2"]);
  (* coralnpu_arith.isa:1292 *) ("vhsub_w_vv_m", ["vhsub.w.vv.m"; "%vd, %vs1, %vs2"]);
  (* coralnpu_arith.isa:1310 *) ("vhsub_w_vx_m", ["vhsub.w.vx.m"; "%vd, %vs1, %vs2"]);
  (* coralnpu_arith.isa:1315 *) ("vhsub_b_r_vv", ["vhsub.b.r.vv"; "%vd, %vs1, %vs2"]);
  (* coralnpu_arith.isa:1333 *) ("vhsub_b_r_vx", ["vhsub.b.r.vx"; "%vd, %vs1, %vs2"]);
  (* coralnpu_arith.isa:1318 *) ("vhsub_b_r_vv_m", ["vhsub.b.r.vv.m"; "%vd, %vs1, %vs2"]);
  (* coralnpu_arith.isa:1336 *) ("vhsub_b_r_vx_m", ["vhsub.b.r.vx.m"; "%vd, %vs1, %vs2"]);
  (* coralnpu_arith.isa:1321 *) ("vhsub_h_r_vv", ["vhsub.h.r.vv"; "%vd, %vs1, %vs2"]);
  (* coralnpu_arith.isa:1339 *) ("vhsub_h_r_vx", ["vhsub.h.r.vx"; "%vd, %vs1, %vs2"]);
  (* coralnpu_arith.isa:1324 *) ("vhsub_h_r_vv_m", ["vhsub.h.r.vv.m"; "%vd, %vs1, %vs2"]);
  (* coralnpu_arith.isa:1342 *) ("vhsub_h_r_vx_m", ["vhsub.h.r.vx.m"; "%vd, %vs1, %vs2"]);
  (* coralnpu_arith.isa:1327 *) ("vhsub_w_r_vv", ["vhsub.w.r.vv"; "%vd, %vs1, %vs2"]);
  (* coralnpu_arith.isa:1345 *) ("vhsub_w_r_vx", ["vhsub.w.r.vx"; "%vd, %vs1, %vs2"]);
  (* coralnpu_arith.isa:1330 *) ("vhsub_w_r_vv_m", ["vhsub.w.r.vv.m"; "%vd, %vs1, %vs2"]);
  (* coralnpu_arith.isa:1348 *) ("vhsub_w_r_vx_m", ["vhsub.w.r.vx.m"; "%vd, %vs1, %vs2"]);
  (* coralnpu_arith.isa:1353 *) ("vhsub_b_u_vv", ["vhsub.b.u.vv"; "%vd, %vs1, %vs2"]);
  (* coralnpu_arith.isa:1371 *) ("vhsub_b_u_vx", ["vhsub.b.u.vx"; "%vd, %vs1, %vs2"]);
  (* coralnpu_arith.isa:1356 *) ("vhsub_b_u_vv_m", ["vhsub.b.u.vv.m"; "%vd, %vs1, %vs2"]);
  (* coralnpu_arith.isa:1374 *) ("vhsub_b_u_vx_m", ["vhsub.b.u.vx.m"; "%vd, %vs1, %vs2"]);
  (* coralnpu_arith.isa:1359 *) ("vhsub_h_u_vv", ["vhsub.h.u.vv"; "%vd, %vs1, %vs2"]);
  (* coralnpu_arith.isa:1377 *) ("vhsub_h_u_vx", ["vhsub.h.u.vx"; "%vd, %vs1, %vs2"]);
  (* coralnpu_arith.isa:1362 *) ("vhsub_h_u_vv_m", ["vhsub.h.u.vv.m"; "%vd, %vs1, %vs2"]);
  (* coralnpu_arith.isa:1380 *) ("vhsub_h_u_vx_m", ["vhsub.h.u.vx.m"; "%vd, %vs1, %vs2"]);
  (* coralnpu_arith.isa:1365 *) ("vhsub_w_u_vv", ["vhsub.w.u.vv"; "%vd, %vs1, %vs2"]);
  (* coralnpu_arith.isa:1383 *) ("vhsub_w_u_vx", ["vhsub.w.u.vx"; "%vd, %vs1, %vs2"]);
  (* coralnpu_arith.isa:1368 *) ("vhsub_w_u_vv_m", ["vhsub.w.u.vv.m"; "%vd, %vs1, %vs2"]);
  (* coralnpu_arith.isa:1386 *) ("vhsub_w_u_vx_m", ["vhsub.w.u.vx.m"; "%vd, %vs1, %vs2"]);
  (* coralnpu_arith.isa:1391 *) ("vhsub_b_ur_vv", ["vhsub.b.ur.vv"; "%vd, %vs1, %vs2"]);
  (* coralnpu_arith.isa:1409 *) ("vhsub_b_ur_vx", ["vhsub.b.ur.vx"; "%vd, %vs1, %vs2"]);
  (* coralnpu_arith.isa:1394 *) ("vhsub_b_ur_vv_m", ["vhsub.b.ur.vv.m"; "%vd, %vs1, %vs2"]);
  (* coralnpu_arith.isa:1412 *) ("vhsub_b_ur_vx_m", ["vhsub.b.ur.vx.m"; "%vd, %vs1, %vs2"]);
  (* coralnpu_arith.isa:1397 *) ("vhsub_h_ur_vv", ["vhsub.h.ur.vv"; "%vd, %vs1, %vs2"]);
  (* coralnpu_arith.isa:1415 *) ("vhsub_h_ur_vx", ["vhsub.h.ur.vx"; "%vd, %vs1, %vs2"]);
  (* coralnpu_arith.isa:1400 *) ("vhsub_h_ur_vv_m", ["vhsub.h.ur.vv.m"; "%vd, %vs1, %vs2"]);
  (* coralnpu_arith.isa:1418 *) ("vhsub_h_ur_vx_m", ["vhsub.h.ur.vx.m"; "%vd, %vs1, %vs2"]);
  (* coralnpu_arith.isa:1403 *) ("vhsub_w_ur_vv", ["vhsub.w.ur.vv"; "%vd, %vs1, %vs2"]);
  (* coralnpu_arith.isa:1421 *) ("vhsub_w_ur_vx", ["vhsub.w.ur.vx"; "%vd, %vs1, %vs2"]);
  (* coralnpu_arith.isa:1406 *) ("vhsub_w_ur_vv_m", ["vhsub.w.ur.vv.m"; "%vd, %vs1, %vs2"]);
  (* coralnpu_arith.isa:1424 *) ("vhsub_w_ur_vx_m", ["vhsub.w.ur.vx.m"; "%vd, %vs1, %vs2"]);
  (* coralnpu_arith.isa:1429 *) ("vand_vv", ["vand.vv"; "%vd, %vs1, %vs2"]);
  (* coralnpu_arith.isa:1432 *) ("vand_vv_m", ["vand.vv.m"; "%vd, %vs1, %vs2"]);
  (* coralnpu_arith.isa:1435 *) ("vand_b_vx", ["vand.b.vx"; "%vd, %vs1, %vs2"]);
  (* coralnpu_arith.isa:1438 *) ("vand_b_vx_m", ["vand.b.vx.m"; "%vd, %vs1, %vs2"]);
  (* coralnpu_arith.isa:1441 *) ("vand_h_vx", ["vand.h.vx"; "%vd, %vs1, %vs2"]);
  (* coralnpu_arith.isa:1444 *) ("vand_h_vx_m", ["vand.h.vx.m"; "%vd, %vs1, %vs2"]);
  (* coralnpu_arith.isa:1447 *) ("vand_w_vx", ["vand.w.vx"; "%vd, %vs1, %vs2"]);
  (* coralnpu_arith.isa:1450 *) ("vand_w_vx_m", ["vand.w.vx.m"; "%vd, %vs1, %vs2"]);
  (* coralnpu_arith.isa:1455 *) ("vor_vv", ["vor.vv"; "%vd, %vs1, %vs2"]);
  (* coralnpu_arith.isa:1458 *) ("vor_vv_m", ["vor.vv.m"; "%vd, %vs1, %vs2"]);
  (* coralnpu_arith.isa:1461 *) ("vor_b_vx", ["vor.b.vx"; "%vd, %vs1, %vs2"]);
  (* coralnpu_arith.isa:1464 *) ("vor_b_vx_m", ["vor.b.vx.m"; "%vd, %vs1, %vs2"]);
  (* coralnpu_arith.isa:1467 *) ("vor_h_vx", ["vor.h.vx"; "%vd, %vs1, %vs2"]);
  (* coralnpu_arith.isa:1470 *) ("vor_h_vx_m", ["vor.h.vx.m"; "%vd, %vs1, %vs2"]);
  (* coralnpu_arith.isa:1473 *) ("vor_w_vx", ["vor.w.vx"; "%vd, %vs1, %vs2"]);
  (* coralnpu_arith.isa:1476 *) ("vor_w_vx_m", ["vor.w.vx.m"; "%vd, %vs1, %vs2"]);
  (* coralnpu_arith.isa:1481 *) ("vxor_vv", ["vxor.vv"; "%vd, %vs1, %vs2"]);
  (* coralnpu_arith.isa:1484 *) ("vxor_vv_m", ["vxor.vv.m"; "%vd, %vs1, %vs2"]);
  (* coralnpu_arith.isa:1487 *) ("vxor_b_vx", ["vxor.b.vx"; "%vd, %vs1, %vs2"]);
  (* coralnpu_arith.isa:1490 *) ("vxor_b_vx_m", ["vxor.b.vx.m"; "%vd, %vs1, %vs2"]);
  (* coralnpu_arith.isa:1493 *) ("vxor_h_vx", ["vxor.h.vx"; "%vd, %vs1, %vs2"]);
  (* coralnpu_arith.isa:1496 *) ("vxor_h_vx_m", ["vxor.h.vx.m"; "%vd, %vs1, %vs2"]);
  (* coralnpu_arith.isa:1499 *) ("vxor_w_vx", ["vxor.w.vx"; "%vd, %vs1, %vs2"]);
  (* coralnpu_arith.isa:1502 *) ("vxor_w_vx_m", ["vxor.w.vx.m"; "%vd, %vs1, %vs2"]);
  (* coralnpu_arith.isa:1507 *) ("vrev_b_vv", ["vrev.b.vv"; "%vd, %vs1, %vs2"]);
  (* coralnpu_arith.isa:1510 *) ("vrev_b_vx", ["vrev.b.vx"; "%vd, %vs1, %vs2"]);
  (* coralnpu_arith.isa:1513 *) ("vrev_b_vv_m", ["vrev.b.vv.m"; "%vd, %vs1, %vs2"]);
  (* coralnpu_arith.isa:1516 *) ("vrev_b_vx_m", ["vrev.b.vx.m"; "%vd, %vs1, %vs2"]);
  (* coralnpu_arith.isa:1519 *) ("vrev_h_vv", ["vrev.h.vv"; "%vd, %vs1, %vs2"]);
  (* coralnpu_arith.isa:1522 *) ("vrev_h_vx", ["vrev.h.vx"; "%vd, %vs1, %vs2"]);
  (* coralnpu_arith.isa:1525 *) ("vrev_h_vv_m", ["vrev.h.vv.m"; "%vd, %vs1, %vs2"]);
  (* coralnpu_arith.isa:1528 *) ("vrev_h_vx_m", ["vrev.h.vx.m"; "%vd, %vs1, %vs2"]);
  (* coralnpu_arith.isa:1531 *) ("vrev_w_vv", ["vrev.w.vv"; "%vd, %vs1, %vs2"]);
  (* coralnpu_arith.isa:1534 *) ("vrev_w_vx", ["vrev.w.vx"; "%vd, %vs1, %vs2"]);
  (* coralnpu_arith.isa:1537 *) ("vrev_w_vv_m", ["vrev.w.vv.m"; "%vd, %vs1, %vs2"]);
  (* coralnpu_arith.isa:1540 *) ("vrev_w_vx_m", ["vrev.w.vx.m"; "%vd, %vs1, %vs2"]);
  (* coralnpu_arith.isa:1545 *) ("vror_b_vv", ["vror.b.vv"; "%vd, %vs1, %vs2"]);
  (* coralnpu_arith.isa:1548 *) ("vror_b_vx", ["vror.b.vx"; "%vd, %vs1, %vs2"]);
  (* coralnpu_arith.isa:1551 *) ("vror_b_vv_m", ["vror.b.vv.m"; "%vd, %vs1, %vs2"]);
  (* coralnpu_arith.isa:1554 *) ("vror_b_vx_m", ["vror.b.vx.m"; "%vd, %vs1, %vs2"]);
  (* coralnpu_arith.isa:1557 *) ("vror_h_vv", ["vror.h.vv"; "%vd, %vs1, %vs2"]);
  (* coralnpu_arith.isa:1560 *) ("vror_h_vx", ["vror.h.vx"; "%vd, %vs1, %vs2"]);
  (* coralnpu_arith.isa:1563 *) ("vror_h_vv_m", ["vror.h.vv.m"; "%vd, %vs1, %vs2"]);
  (* coralnpu_arith.isa:1566 *) ("vror_h_vx_m", ["vror.h.vx.m"; "%vd, %vs1, %vs2"]);
  (* coralnpu_arith.isa:1569 *) ("vror_w_vv", ["vror.w.vv"; "%vd, %vs1, %vs2"]);
  (* coralnpu_arith.isa:1572 *) ("vror_w_vx", ["vror.w.vx"; "%vd, %vs1, %vs2"]);
  (* coralnpu_arith.isa:1575 *) ("vror_w_vv_m", ["vror.w.vv.m"; "%vd, %vs1, %vs2"]);
  (* coralnpu_arith.isa:1578 *) ("vror_w_vx_m", ["vror.w.vx.m"; "%vd, %vs1, %vs2"]);
  (* coralnpu_arith.isa:1583 *) ("vmvp_vv", ["vmvp.vv"; "%vd, %vs1, %vs2"]);
  (* coralnpu_arith.isa:1586 *) ("vmvp_vv_m", ["vmvp.vv.m"; "%vd, %vs1, %vs2"]);
  (* coralnpu_arith.isa:1589 *) ("vmvp_b_vx", ["vmvp.b.vx"; "%vd, %vs1, %vs2"]);
  (* coralnpu_arith.isa:1592 *) ("vmvp_b_vx_m", ["vmvp.b.vx.m"; "%vd, %vs1, %vs2"]);
  (* coralnpu_arith.isa:1595 *) ("vmvp_h_vx", ["vmvp.h.vx"; "%vd, %vs1, %vs2"]);
  (* coralnpu_arith.isa:1598 *) ("vmvp_h_vx_m", ["vmvp.h.vx.m"; "%vd, %vs1, %vs2"]);
  (* coralnpu_arith.isa:1601 *) ("vmvp_w_vx", ["vmvp.w.vx"; "%vd, %vs1, %vs2"]);
  (* coralnpu_arith.isa:1604 *) ("vmvp_w_vx_m", ["vmvp.w.vx.m"; "%vd, %vs1, %vs2"]);
  (* coralnpu_mul.isa:537 *) ("aconv_vxv", ["aconv.vxv"; "%vd, %vs1, %vs2, %vs3"]);
  (* coralnpu_mul.isa:541 *) ("adwconv_vxv", ["adwconv.vxv"; "%vd, %vs1, %rs2, %vs3"]);
  (* coralnpu_mul.isa:545 *) ("vdwconv_vxv", ["adwconv.vxv"; "%vd, %vs1, %rs2, %vs3"]);
  (* coralnpu_memory.isa:110 *) ("vld_b_x", ["vld.b.x"; "%vd, %vs1"]);
  (* coralnpu_memory.isa:114 *) ("vld_h_x", ["vld.h.x"; "%vd, %vs1"]);
  (* coralnpu_memory.isa:118 *) ("vld_w_x", ["vld.w.x"; "%vd, %vs1"]);
  (* coralnpu_memory.isa:134 *) ("vld_b_p_x", ["vld.b.p.x"; "%vd, %vs1"]);
  (* coralnpu_memory.isa:138 *) ("vld_h_p_x", ["vld.h.p.x"; "%vd, %vs1"]);
  (* coralnpu_memory.isa:142 *) ("vld_w_p_x", ["vld.w.p.x"; "%vd, %vs1"]);
  (* coralnpu_memory.isa:122 *) ("vld_b_x_m", ["vld.b.x.m"; "%vd, %vs1"]);
  (* coralnpu_memory.isa:126 *) ("vld_h_x_m", ["vld.h.x.m"; "%vd, %vs1"]);
  (* coralnpu_memory.isa:130 *) ("vld_w_x_m", ["vld.w.x.m"; "%vd, %vs1"]);
  (* coralnpu_memory.isa:146 *) ("vld_b_p_x_m", ["vld.b.p.x.m"; "%vd, %vs1"]);
  (* coralnpu_memory.isa:150 *) ("vld_h_p_x_m", ["vld.h.p.x.m"; "%vd, %vs1"]);
  (* coralnpu_memory.isa:154 *) ("vld_w_p_x_m", ["vld.w.p.x.m"; "%vd, %vs1"]);
  (* coralnpu_memory.isa:158 *) ("vld_b_p_xx", ["vld.b.p.xx"; "%vd, %vs1, %vs2"]);
  (* coralnpu_memory.isa:162 *) ("vld_h_p_xx", ["vld.h.p.xx"; "%vd, %vs1, %vs2"]);
  (* coralnpu_memory.isa:166 *) ("vld_w_p_xx", ["vld.w.p.xx"; "%vd, %vs1, %vs2"]);
  (* coralnpu_memory.isa:170 *) ("vld_b_p_xx_m", ["vld.b.p.xx.m"; "%vd, %vs1, %vs2"]);
  (* coralnpu_memory.isa:174 *) ("vld_h_p_xx_m", ["vld.h.p.xx.m"; "%vd, %vs1, %vs2"]);
  (* coralnpu_memory.isa:178 *) ("vld_w_p_xx_m", ["vld.w.p.xx.m"; "%vd, %vs1, %vs2"]);
  (* coralnpu_memory.isa:182 *) ("vld_b_l_xx", ["vld.b.l.xx"; "%vd, %vs1, %vs2"]);
  (* coralnpu_memory.isa:186 *) ("vld_h_l_xx", ["vld.h.l.xx"; "%vd, %vs1, %vs2"]);
  (* coralnpu_memory.isa:190 *) ("vld_w_l_xx", ["vld.w.l.xx"; "%vd, %vs1, %vs2"]);
  (* coralnpu_memory.isa:206 *) ("vld_b_lp_xx", ["vld.b.lp.xx"; "%vd, %vs1, %vs2"]);
  (* coralnpu_memory.isa:210 *) ("vld_h_lp_xx", ["vld.h.lp.xx"; "%vd, %vs1, %vs2"]);
  (* coralnpu_memory.isa:214 *) ("vld_w_lp_xx", ["vld.w.lp.xx"; "%vd, %vs1, %vs2"]);
  (* coralnpu_memory.isa:194 *) ("vld_b_l_xx_m", ["vld.b.l.xx.m"; "%vd, %vs1, %vs2"]);
  (* coralnpu_memory.isa:198 *) ("vld_h_l_xx_m", ["vld.h.l.xx.m"; "%vd, %vs1, %vs2"]);
  (* coralnpu_memory.isa:202 *) ("vld_w_l_xx_m", ["vld.w.l.xx.m"; "%vd, %vs1, %vs2"]);
  (* coralnpu_memory.isa:218 *) ("vld_b_lp_xx_m", ["vld.b.lp.xx.m"; "%vd, %vs1, %vs2"]);
  (* coralnpu_memory.isa:222 *) ("vld_h_lp_xx_m", ["vld.h.lp.xx.m"; "%vd, %vs1, %vs2"]);
  (* coralnpu_memory.isa:226 *) ("vld_w_lp_xx_m", ["vld.w.lp.xx.m"; "%vd, %vs1, %vs2"]);
  (* coralnpu_memory.isa:230 *) ("vld_b_s_xx", ["vld.b.s.xx"; "%vd, %vs1, %vs2"]);
  (* coralnpu_memory.isa:234 *) ("vld_h_s_xx", ["vld.h.s.xx"; "%vd, %vs1, %vs2"]);
  (* coralnpu_memory.isa:238 *) ("vld_w_s_xx", ["vld.w.s.xx"; "%vd, %vs1, %vs2"]);
  (* coralnpu_memory.isa:254 *) ("vld_b_sp_xx", ["vld.b.sp.xx"; "%vd, %vs1, %vs2"]);
  (* coralnpu_memory.isa:258 *) ("vld_h_sp_xx", ["vld.h.sp.xx"; "%vd, %vs1, %vs2"]);
  (* coralnpu_memory.isa:262 *) ("vld_w_sp_xx", ["vld.w.sp.xx"; "%vd, %vs1, %vs2"]);
  (* coralnpu_memory.isa:242 *) ("vld_b_s_xx_m", ["vld.b.s.xx.m"; "%vd, %vs1, %vs2"]);
  (* coralnpu_memory.isa:246 *) ("vld_h_s_xx_m", ["vld.h.s.xx.m"; "%vd, %vs1, %vs2"]);
  (* coralnpu_memory.isa:250 *) ("vld_w_s_xx_m", ["vld.w.s.xx.m"; "%vd, %vs1, %vs2"]);
  (* coralnpu_memory.isa:266 *) ("vld_b_sp_xx_m", ["vld.b.sp.xx.m"; "%vd, %vs1, %vs2"]);
  (* coralnpu_memory.isa:270 *) ("vld_h_sp_xx_m", ["vld.h.sp.xx.m"; "%vd, %vs1, %vs2"]);
  (* coralnpu_memory.isa:274 *) ("vld_w_sp_xx_m", ["vld.w.sp.xx.m"; "%vd, %vs1, %vs2"]);
  (* coralnpu_memory.isa:278 *) ("vld_b_tp_xx", ["vld.b.tp.xx"; "%vd, %vs1, %vs2"]);
  (* coralnpu_memory.isa:282 *) ("vld_h_tp_xx", ["vld.h.tp.xx"; "%vd, %vs1, %vs2"]);
  (* coralnpu_memory.isa:286 *) ("vld_w_tp_xx", ["vld.w.tp.xx"; "%vd, %vs1, %vs2"]);
  (* coralnpu_memory.isa:290 *) ("vld_b_tp_xx_m", ["vld.b.tp.xx.m"; "%vd, %vs1, %vs2"]);
  (* coralnpu_memory.isa:294 *) ("vld_h_tp_xx_m", ["vld.h.tp.xx.m"; "%vd, %vs1, %vs2"]);
  (* coralnpu_memory.isa:298 *) ("vld_w_tp_xx_m", ["vld.w.tp.xx.m"; "%vd, %vs1, %vs2"]);
  (* coralnpu_memory.isa:304 *) ("vst_b_x", ["vst.b.x"; "%vd, %vs1"]);
  (* coralnpu_memory.isa:307 *) ("vst_h_x", ["vst.h.x"; "%vd, %vs1"]);
  (* coralnpu_memory.isa:310 *) ("vst_w_x", ["vst.w.x"; "%vd, %vs1"]);
  (* coralnpu_memory.isa:322 *) ("vst_b_p_x", ["vst.b.p.x"; "%vd, %vs1"]);
  (* coralnpu_memory.isa:325 *) ("vst_h_p_x", ["vst.h.p.x"; "%vd, %vs1"]);
  (* coralnpu_memory.isa:328 *) ("vst_w_p_x", ["vst.w.p.x"; "%vd, %vs1"]);
  (* coralnpu_memory.isa:313 *) ("vst_b_x_m", ["vst.b.x.m"; "%vd, %vs1"]);
  (* coralnpu_memory.isa:316 *) ("vst_h_x_m", ["vst.h.x.m"; "%vd, %vs1"]);
  (* coralnpu_memory.isa:319 *) ("vst_w_x_m", ["vst.w.x.m"; "%vd, %vs1"]);
  (* coralnpu_memory.isa:331 *) ("vst_b_p_x_m", ["vst.b.p.x.m"; "%vd, %vs1"]);
  (* coralnpu_memory.isa:334 *) ("vst_h_p_x_m", ["vst.h.p.x.m"; "%vd, %vs1"]);
  (* coralnpu_memory.isa:337 *) ("vst_w_p_x_m", ["vst.w.p.x.m"; "%vd, %vs1"]);
  (* coralnpu_memory.isa:340 *) ("vst_b_p_xx", ["vst.b.p.xx"; "%vd, %vs1, %vs2"]);
  (* coralnpu_memory.isa:343 *) ("vst_h_p_xx", ["vst.h.p.xx"; "%vd, %vs1, %vs2"]);
  (* coralnpu_memory.isa:346 *) ("vst_w_p_xx", ["vst.w.p.xx"; "%vd, %vs1, %vs2"]);
  (* coralnpu_memory.isa:349 *) ("vst_b_p_xx_m", ["vst.b.p.xx.m"; "%vd, %vs1, %vs2"]);
  (* coralnpu_memory.isa:352 *) ("vst_h_p_xx_m", ["vst.h.p.xx.m"; "%vd, %vs1, %vs2"]);
  (* coralnpu_memory.isa:355 *) ("vst_w_p_xx_m", ["vld.w.p.xx.m"; "%vd, %vs1, %vs2"]);
  (* coralnpu_memory.isa:358 *) ("vst_b_l_xx", ["vst.b.l.xx"; "%vd, %vs1, %vs2"]);
  (* coralnpu_memory.isa:361 *) ("vst_h_l_xx", ["vst.h.l.xx"; "%vd, %vs1, %vs2"]);
  (* coralnpu_memory.isa:364 *) ("vst_w_l_xx", ["vst.w.l.xx"; "%vd, %vs1, %vs2"]);
  (* coralnpu_memory.isa:376 *) ("vst_b_lp_xx", ["vst.b.lp.xx"; "%vd, %vs1, %vs2"]);
  (* coralnpu_memory.isa:379 *) ("vst_h_lp_xx", ["vst.h.lp.xx"; "%vd, %vs1, %vs2"]);
  (* coralnpu_memory.isa:382 *) ("vst_w_lp_xx", ["vst.w.lp.xx"; "%vd, %vs1, %vs2"]);
  (* coralnpu_memory.isa:367 *) ("vst_b_l_xx_m", ["vst.b.l.xx.m"; "%vd, %vs1, %vs2"]);
  (* coralnpu_memory.isa:370 *) ("vst_h_l_xx_m", ["vst.h.l.xx.m"; "%vd, %vs1, %vs2"]);
  (* coralnpu_memory.isa:373 *) ("vst_w_l_xx_m", ["vst.w.l.xx.m"; "%vd, %vs1, %vs2"]);
  (* coralnpu_memory.isa:385 *) ("vst_b_lp_xx_m", ["vst.b.lp.xx.m"; "%vd, %vs1, %vs2"]);
  (* coralnpu_memory.isa:388 *) ("vst_h_lp_xx_m", ["vst.h.lp.xx.m"; "%vd, %vs1, %vs2"]);
  (* coralnpu_memory.isa:391 *) ("vst_w_lp_xx_m", ["vst.w.lp.xx.m"; "%vd, %vs1, %vs2"]);
  (* coralnpu_memory.isa:394 *) ("vst_b_s_xx", ["vst.b.s.xx"; "%vd, %vs1, %vs2"]);
  (* coralnpu_memory.isa:397 *) ("vst_h_s_xx", ["vst.h.s.xx"; "%vd, %vs1, %vs2"]);
  (* coralnpu_memory.isa:400 *) ("vst_w_s_xx", ["vst.w.s.xx"; "%vd, %vs1, %vs2"]);
  (* coralnpu_memory.isa:412 *) ("vst_b_sp_xx", ["vst.b.sp.xx"; "%vd, %vs1, %vs2"]);
  (* coralnpu_memory.isa:415 *) ("vst_h_sp_xx", ["vst.h.sp.xx"; "%vd, %vs1, %vs2"]);
  (* coralnpu_memory.isa:418 *) ("vst_w_sp_xx", ["vst.w.sp.xx"; "%vd, %vs1, %vs2"]);
  (* coralnpu_memory.isa:403 *) ("vst_b_s_xx_m", ["vst.b.s.xx.m"; "%vd, %vs1, %vs2"]);
  (* coralnpu_memory.isa:406 *) ("vst_h_s_xx_m", ["vst.h.s.xx.m"; "%vd, %vs1, %vs2"]);
  (* coralnpu_memory.isa:409 *) ("vst_w_s_xx_m", ["vst.w.s.xx.m"; "%vd, %vs1, %vs2"]);
  (* coralnpu_memory.isa:421 *) ("vst_b_sp_xx_m", ["vst.b.sp.xx.m"; "%vd, %vs1, %vs2"]);
  (* coralnpu_memory.isa:424 *) ("vst_h_sp_xx_m", ["vst.h.sp.xx.m"; "%vd, %vs1, %vs2"]);
  (* coralnpu_memory.isa:427 *) ("vst_w_sp_xx_m", ["vst.w.sp.xx.m"; "%vd, %vs1, %vs2"]);
  (* coralnpu_memory.isa:430 *) ("vst_b_tp_xx", ["vst.b.tp.xx"; "%vd, %vs1, %vs2"]);
  (* coralnpu_memory.isa:433 *) ("vst_h_tp_xx", ["vst.h.tp.xx"; "%vd, %vs1, %vs2"]);
  (* coralnpu_memory.isa:436 *) ("vst_w_tp_xx", ["vst.w.tp.xx"; "%vd, %vs1, %vs2"]);
  (* coralnpu_memory.isa:439 *) ("vst_b_tp_xx_m", ["vst.b.tp.xx.m"; "%vd, %vs1, %vs2"]);
  (* coralnpu_memory.isa:442 *) ("vst_h_tp_xx_m", ["vst.h.tp.xx.m"; "%vd, %vs1, %vs2"]);
  (* coralnpu_memory.isa:445 *) ("vst_w_tp_xx_m", ["vst.w.tp.xx.m"; "%vd, %vs1, %vs2"]);
  (* coralnpu_memory.isa:448 *) ("vstq_b_s_xx", ["vstq.b.s.xx"; "%vd, %vs1, %vs2"]);
  (* coralnpu_memory.isa:451 *) ("vstq_h_s_xx", ["vstq.h.s.xx"; "%vd, %vs1, %vs2"]);
  (* coralnpu_memory.isa:454 *) ("vstq_w_s_xx", ["vstq.w.s.xx"; "%vd, %vs1, %vs2"]);
  (* coralnpu_memory.isa:457 *) ("vstq_b_sp_xx", ["vstq.b.s.xx"; "%vd, %vs1, %vs2"]);
  (* coralnpu_memory.isa:460 *) ("vstq_h_sp_xx", ["vstq.h.s.xx"; "%vd, %vs1, %vs2"]);
  (* coralnpu_memory.isa:463 *) ("vstq_w_sp_xx", ["vstq.w.s.xx"; "%vd, %vs1, %vs2"]);
  (* coralnpu_memory.isa:466 *) ("vstq_b_s_xx_m", ["vstq.b.s.xx.m"; "%vd, %vs1, %vs2"]);
  (* coralnpu_memory.isa:469 *) ("vstq_h_s_xx_m", ["vstq.h.s.xx.m"; "%vd, %vs1, %vs2"]);
  (* coralnpu_memory.isa:472 *) ("vstq_w_s_xx_m", ["vstq.w.s.xx.m"; "%vd, %vs1, %vs2"]);
  (* coralnpu_memory.isa:475 *) ("vstq_b_sp_xx_m", ["vstq.b.s.xx.m"; "%vd, %vs1, %vs2"]);
  (* coralnpu_memory.isa:478 *) ("vstq_h_sp_xx_m", ["vstq.h.s.xx.m"; "%vd, %vs1, %vs2"]);
  (* coralnpu_memory.isa:481 *) ("vstq_w_sp_xx_m", ["vstq.w.s.xx.m"; "%vd, %vs1, %vs2"]);
  (* coralnpu_memory.isa:484 *) ("vdup_b_x", ["vdup.b.x"; "%vd, %vs2"]);
  (* coralnpu_memory.isa:487 *) ("vdup_h_x", ["vdup.h.x"; "%vd, %vs2"]);
  (* coralnpu_memory.isa:490 *) ("vdup_w_x", ["vdup.w.x"; "%vd, %vs2"]);
  (* coralnpu_memory.isa:493 *) ("vdup_b_x_m", ["vdup.b.x.m"; "%vd, %vs2"]);
  (* coralnpu_memory.isa:496 *) ("vdup_h_x_m", ["vdup.h.x.m"; "%vd, %vs2"]);
  (* coralnpu_memory.isa:499 *) ("vdup_w_x_m", ["vdup.w.x.m"; "%vd, %vs2"]);
  (* coralnpu_memory.isa:504 *) ("vcget", ["vcget"; "%vd"]);
  (* coralnpu_memory.isa:509 *) ("acset", ["acset.v"; "%vd, %vs1"]);
  (* coralnpu_memory.isa:512 *) ("actr", ["actr.v"; "%vd, %vs1"]);
  (* coralnpu_memory.isa:515 *) ("adwinit", ["adwinit.v"; "%vd, %vs1"]);
  (* coralnpu_mul.isa:19 *) ("vmul_b_vv", ["vmul.b.vv"; "%vd, %vs1, %vs2"]);
  (* coralnpu_mul.isa:37 *) ("vmul_b_vx", ["vmul.b.vx"; "%vd, %vs1, %vs2"]);
  (* coralnpu_mul.isa:22 *) ("vmul_b_vv_m", ["vmul.b.vv.m"; "%vd, %vs1, %vs2"]);
  (* coralnpu_mul.isa:40 *) ("vmul_b_vx_m", ["vmul.b.vx.m"; "%vd, %vs1, %vs2"]);
  (* coralnpu_mul.isa:25 *) ("vmul_h_vv", ["vmul.h.vv"; "%vd, %vs1, %vs2"]);
  (* coralnpu_mul.isa:43 *) ("vmul_h_vx", ["vmul.h.vx"; "%vd, %vs1, %vs2"]);
  (* coralnpu_mul.isa:28 *) ("vmul_h_vv_m", ["vmul.h.vv.m"; "%vd, %vs1, %vs2"]);
  (* coralnpu_mul.isa:46 *) ("vmul_h_vx_m", ["vmul.h.vx.m"; "%vd, %vs1, %vs2"]);
  (* coralnpu_mul.isa:31 *) ("vmul_w_vv", ["vmul.w.vv"; "%vd, %vs1, %vs2"]);
  (* coralnpu_mul.isa:49 *) ("vmul_w_vx", ["vmul.w.vx"; "%vd, %vs1, %vs2"]);
  (* coralnpu_mul.isa:34 *) ("vmul_w_vv_m", ["vmul.w.vv.m"; "%vd, %vs1, %vs2"]);
  (* coralnpu_mul.isa:52 *) ("vmul_w_vx_m", ["vmul.w.vx.m"; "%vd, %vs1, %vs2"]);
  (* coralnpu_mul.isa:57 *) ("vmuls_b_vv", ["vmuls.b.vv"; "%vd, %vs1, %vs2"]);
  (* coralnpu_mul.isa:75 *) ("vmuls_b_vx", ["vmuls.b.vx"; "%vd, %vs1, %vs2"]);
  (* coralnpu_mul.isa:60 *) ("vmuls_b_vv_m", ["vmuls.b.vv.m"; "%vd, %vs1, %vs2"]);
  (* coralnpu_mul.isa:78 *) ("vmuls_b_vx_m", ["vmuls.b.vx.m"; "%vd, %vs1, %vs2"]);
  (* coralnpu_mul.isa:63 *) ("vmuls_h_vv", ["vmuls.h.vv"; "%vd, %vs1, %vs2"]);
  (* coralnpu_mul.isa:81 *) ("vmuls_h_vx", ["vmuls.h.vx"; "%vd, %vs1, %vs2"]);
  (* coralnpu_mul.isa:66 *) ("vmuls_h_vv_m", ["vmuls.h.vv.m"; "%vd, %vs1, %vs2"]);
  (* coralnpu_mul.isa:84 *) ("vmuls_h_vx_m", ["vmuls.h.vx.m"; "%vd, %vs1, %vs2"]);
  (* coralnpu_mul.isa:69 *) ("vmuls_w_vv", ["vmuls.w.vv"; "%vd, %vs1, %vs2"]);
  (* coralnpu_mul.isa:87 *) ("vmuls_w_vx", ["vmuls.w.vx"; "%vd, %vs1, %vs2"]);
  (* coralnpu_mul.isa:72 *) ("vmuls_w_vv_m", ["vmuls.w.vv.m"; "%vd, %vs1, %vs2"]);
  (* coralnpu_mul.isa:90 *) ("vmuls_w_vx_m", ["vmuls.w.vx.m"; "%vd, %vs1, %vs2"]);
  (* coralnpu_mul.isa:95 *) ("vmulsu_b_vv", ["vmulsu.b.vv"; "%vd, %vs1, %vs2"]);
  (* coralnpu_mul.isa:113 *) ("vmulsu_b_vx", ["vmulsu.b.vx"; "%vd, %vs1, %vs2"]);
  (* coralnpu_mul.isa:98 *) ("vmulsu_b_vv_m", ["vmulsu.b.vv.m"; "%vd, %vs1, %vs2"]);
  (* coralnpu_mul.isa:116 *) ("vmulsu_b_vx_m", ["vmulsu.b.vx.m"; "%vd, %vs1, %vs2"]);
  (* coralnpu_mul.isa:101 *) ("vmulsu_h_vv", ["vmulsu.h.vv"; "%vd, %vs1, %vs2"]);
  (* coralnpu_mul.isa:119 *) ("vmulsu_h_vx", ["vmulsu.h.vx"; "%vd, %vs1, %vs2"]);
  (* coralnpu_mul.isa:104 *) ("vmulsu_h_vv_m", ["vmulsu.h.vv.m"; "%vd, %vs1, %vs2"]);
  (* coralnpu_mul.isa:122 *) ("vmulsu_h_vx_m", ["vmulsu.h.vx.m"; "%vd, %vs1, %vs2"]);
  (* coralnpu_mul.isa:107 *) ("vmulsu_w_vv", ["vmulsu.w.vv"; "%vd, %vs1, %vs2"]);
  (* coralnpu_mul.isa:125 *) ("vmulsu_w_vx", ["vmulsu.w.vx"; "%vd, %vs1, %vs2"]);
  (* coralnpu_mul.isa:110 *) ("vmulsu_w_vv_m", ["vmulsu.w.vv.m"; "%vd, %vs1, %vs2"]);
  (* coralnpu_mul.isa:128 *) ("vmulsu_w_vx_m", ["vmulsu.w.vx.m"; "%vd, %vs1, %vs2"]);
  (* coralnpu_mul.isa:133 *) ("vmulw_h_vv", ["vmulw.h.vv"; "%vd, %vs1, %vs2"]);
  (* coralnpu_mul.isa:145 *) ("vmulw_h_vx", ["vmulw.h.vx"; "%vd, %vs1, %vs2"]);
  (* coralnpu_mul.isa:136 *) ("vmulw_h_vv_m", ["vmulw.h.vv.m"; "%vd, %vs1, %vs2"]);
  (* coralnpu_mul.isa:148 *) ("vmulw_h_vx_m", ["vmulw.h.vx.m"; "%vd, %vs1, %vs2"]);
  (* coralnpu_mul.isa:139 *) ("vmulw_w_vv", ["vmulw.w.vv"; "%vd, %vs1, %vs2"]);
  (* coralnpu_mul.isa:151 *) ("vmulw_w_vx", ["vmulw.w.vx"; "%vd, %vs1, %vs2"]);
  (* coralnpu_mul.isa:142 *) ("vmulw_w_vv_m", ["vmulw.w.vv.m"; "%vd, %vs1, %vs2"]);
  (* coralnpu_mul.isa:154 *) ("vmulw_w_vx_m", ["vmulw.w.vx.m"; "%vd, %vs1, %vs2"]);
  (* coralnpu_mul.isa:159 *) ("vmulw_h_u_vv", ["vmulw.h.u.vv"; "%vd, %vs1, %vs2"]);
  (* coralnpu_mul.isa:171 *) ("vmulw_h_u_vx", ["vmulw.h.u.vx"; "%vd, %vs1, %vs2"]);
  (* coralnpu_mul.isa:162 *) ("vmulw_h_u_vv_m", ["vmulw.h.u.vv.m"; "%vd, %vs1, %vs2"]);
  (* coralnpu_mul.isa:174 *) ("vmulw_h_u_vx_m", ["vmulw.h.u.vx.m"; "%vd, %vs1, %vs2"]);
  (* coralnpu_mul.isa:165 *) ("vmulw_w_u_vv", ["vmulw.w.u.vv"; "%vd, %vs1, %vs2"]);
  (* coralnpu_mul.isa:177 *) ("vmulw_w_u_vx", ["vmulw.w.u.vx"; "%vd, %vs1, %vs2"]);
  (* coralnpu_mul.isa:168 *) ("vmulw_w_u_vv_m", ["vmulw.w.u.vv.m"; "%vd, %vs1, %vs2"]);
  (* coralnpu_mul.isa:180 *) ("vmulw_w_u_vx_m", ["vmulw.w.u.vx.m"; "%vd, %vs1, %vs2"]);
  (* coralnpu_mul.isa:185 *) ("vmulh_b_vv", ["vmulh.b.vv"; "%vd, %vs1, %vs2"]);
  (* coralnpu_mul.isa:203 *) ("vmulh_b_vx", ["vmulh.b.vx"; "%vd, %vs1, %vs2"]);
  (* coralnpu_mul.isa:188 *) ("vmulh_b_vv_m", ["vmulh.b.vv.m"; "%vd, %vs1, %vs2"]);
  (* coralnpu_mul.isa:206 *) ("vmulh_b_vx_m", ["vmulh.b.vx.m"; "%vd, %vs1, %vs2"]);
  (* coralnpu_mul.isa:191 *) ("vmulh_h_vv", ["vmulh.h.vv"; "%vd, %vs1, %vs2"]);
  (* coralnpu_mul.isa:209 *) ("vmulh_h_vx", ["vmulh.h.vx"; "%vd, %vs1, %vs2"]);
  (* coralnpu_mul.isa:194 *) ("vmulh_h_vv_m", ["vmulh.h.vv.m"; "%vd, %vs1, %vs2"]);
  (* coralnpu_mul.isa:212 *) ("vmulh_h_vx_m", ["vmulh.h.vx.m"; "%vd, %vs1, %vs2"]);
  (* coralnpu_mul.isa:197 *) ("vmulh_w_vv", ["vmulh.w.vv"; "%vd, %vs1, %vs2"]);
  (* coralnpu_mul.isa:215 *) ("vmulh_w_vx", ["vmulh.w.vx"; "%vd, %vs1, %vs2"]);
  (* coralnpu_mul.isa:200 *) ("vmulh_w_vv_m", ["vmulh.w.vv.m"; "%vd, %vs1, %vs2"]);
  (* coralnpu_mul.isa:218 *) ("vmulh_w_vx_m", ["vmulh.w.vx.m"; "%vd, %vs1, %vs2"]);
  (* coralnpu_mul.isa:223 *) ("vmulh_b_r_vv", ["vmulh.b.r.vv"; "%vd, %vs1, %vs2"]);
  (* coralnpu_mul.isa:241 *) ("vmulh_b_r_vx", ["vmulh.b.r.vx"; "%vd, %vs1, %vs2"]);
  (* coralnpu_mul.isa:226 *) ("vmulh_b_r_vv_m", ["vmulh.b.r.vv.m"; "%vd, %vs1, %vs2"]);
  (* coralnpu_mul.isa:244 *) ("vmulh_b_r_vx_m", ["vmulh.b.r.vx.m"; "%vd, %vs1, %vs2"]);
  (* coralnpu_mul.isa:229 *) ("vmulh_h_r_vv", ["vmulh.h.r.vv"; "%vd, %vs1, %vs2"]);
  (* coralnpu_mul.isa:247 *) ("vmulh_h_r_vx", ["vmulh.h.r.vx"; "%vd, %vs1, %vs2"]);
  (* coralnpu_mul.isa:232 *) ("vmulh_h_r_vv_m", ["vmulh.h.r.vv.m"; "%vd, %vs1, %vs2"]);
  (* coralnpu_mul.isa:250 *) ("vmulh_h_r_vx_m", ["vmulh.h.r.vx.m"; "%vd, %vs1, %vs2"]);
  (* coralnpu_mul.isa:235 *) ("vmulh_w_r_vv", ["vmulh.w.r.vv"; "%vd, %vs1, %vs2"]);
  (* coralnpu_mul.isa:253 *) ("vmulh_w_r_vx", ["vmulh.w.r.vx"; "%vd, %vs1, %vs2"]);
  (* coralnpu_mul.isa:238 *) ("vmulh_w_r_vv_m", ["vmulh.w.r.vv.m"; "%vd, %vs1, %vs2"]);
  (* coralnpu_mul.isa:256 *) ("vmulh_w_r_vx_m", ["vmulh.w.r.vx.m"; "%vd, %vs1, %vs2"]);
  (* coralnpu_mul.isa:261 *) ("vmulh_b_u_vv", ["vmulh.b.u.vv"; "%vd, %vs1, %vs2"]);
  (* coralnpu_mul.isa:279 *) ("vmulh_b_u_vx", ["vmulh.b.u.vx"; "%vd, %vs1, %vs2"]);
  (* coralnpu_mul.isa:264 *) ("vmulh_b_u_vv_m", ["vmulh.b.u.vv.m"; "%vd, %vs1, %vs2"]);
  (* coralnpu_mul.isa:282 *) ("vmulh_b_u_vx_m", ["vmulh.b.u.vx.m"; "%vd, %vs1, %vs2"]);
  (* coralnpu_mul.isa:267 *) ("vmulh_h_u_vv", ["vmulh.h.u.vv"; "%vd, %vs1, %vs2"]);
  (* coralnpu_mul.isa:285 *) ("vmulh_h_u_vx", ["vmulh.h.u.vx"; "%vd, %vs1, %vs2"]);
  (* coralnpu_mul.isa:270 *) ("vmulh_h_u_vv_m", ["vmulh.h.u.vv.m"; "%vd, %vs1, %vs2"]);
  (* coralnpu_mul.isa:288 *) ("vmulh_h_u_vx_m", ["vmulh.h.u.vx.m"; "%vd, %vs1, %vs2"]);
  (* coralnpu_mul.isa:273 *) ("vmulh_w_u_vv", ["vmulh.w.u.vv"; "%vd, %vs1, %vs2"]);
  (* coralnpu_mul.isa:291 *) ("vmulh_w_u_vx", ["vmulh.w.u.vx"; "%vd, %vs1, %vs2"]);
  (* coralnpu_mul.isa:276 *) ("vmulh_w_u_vv_m", ["vmulh.w.u.vv.m"; "%vd, %vs1, %vs2"]);
  (* coralnpu_mul.isa:294 *) ("vmulh_w_u_vx_m", ["vmulh.w.u.vx.m"; "%vd, %vs1, %vs2"]);
  (* coralnpu_mul.isa:299 *) ("vmulh_b_ur_vv", ["vmulh.b.ur.vv"; "%vd, %vs1, %vs2"]);
  (* coralnpu_mul.isa:317 *) ("vmulh_b_ur_vx", ["vmulh.b.ur.vx"; "%vd, %vs1, %vs2"]);
  (* coralnpu_mul.isa:302 *) ("vmulh_b_ur_vv_m", ["vmulh.b.ur.vv.m"; "%vd, %vs1, %vs2"]);
  (* coralnpu_mul.isa:320 *) ("vmulh_b_ur_vx_m", ["vmulh.b.ur.vx.m"; "%vd, %vs1, %vs2"]);
  (* coralnpu_mul.isa:305 *) ("vmulh_h_ur_vv", ["vmulh.h.ur.vv"; "%vd, %vs1, %vs2"]);
  (* coralnpu_mul.isa:323 *) ("vmulh_h_ur_vx", ["vmulh.h.ur.vx"; "%vd, %vs1, %vs2"]);
  (* coralnpu_mul.isa:308 *) ("vmulh_h_ur_vv_m", ["vmulh.h.ur.vv.m"; "%vd, %vs1, %vs2"]);
  (* coralnpu_mul.isa:326 *) ("vmulh_h_ur_vx_m", ["vmulh.h.ur.vx.m"; "%vd, %vs1, %vs2"]);
  (* coralnpu_mul.isa:311 *) ("vmulh_w_ur_vv", ["vmulh.w.ur.vv"; "%vd, %vs1, %vs2"]);
  (* coralnpu_mul.isa:329 *) ("vmulh_w_ur_vx", ["vmulh.w.ur.vx"; "%vd, %vs1, %vs2"]);
  (* coralnpu_mul.isa:314 *) ("vmulh_w_ur_vv_m", ["vmulh.w.ur.vv.m"; "%vd, %vs1, %vs2"]);
  (* coralnpu_mul.isa:332 *) ("vmulh_w_ur_vx_m", ["vmulh.w.ur.vx.m"; "%vd, %vs1, %vs2"]);
  (* coralnpu_mul.isa:337 *) ("vdmulh_b_vv", ["vdmulh.b.vv"; "%vd, %vs1, %vs2"]);
  (* coralnpu_mul.isa:355 *) ("vdmulh_b_vx", ["vdmulh.b.vx"; "%vd, %vs1, %vs2"]);
  (* coralnpu_mul.isa:340 *) ("vdmulh_b_vv_m", ["vdmulh.b.vv.m"; "%vd, %vs1, %vs2"]);
  (* coralnpu_mul.isa:358 *) ("vdmulh_b_vx_m", ["vdmulh.b.vx.m"; "%vd, %vs1, %vs2"]);
  (* coralnpu_mul.isa:343 *) ("vdmulh_h_vv", ["vdmulh.h.vv"; "%vd, %vs1, %vs2"]);
  (* coralnpu_mul.isa:361 *) ("vdmulh_h_vx", ["vdmulh.h.vx"; "%vd, %vs1, %vs2"]);
  (* coralnpu_mul.isa:346 *) ("vdmulh_h_vv_m", ["vdmulh.h.vv.m"; "%vd, %vs1, %vs2"]);
  (* coralnpu_mul.isa:364 *) ("vdmulh_h_vx_m", ["vdmulh.h.vx.m"; "%vd, %vs1, %vs2"]);
  (* coralnpu_mul.isa:349 *) ("vdmulh_w_vv", ["vdmulh.w.vv"; "%vd, %vs1, %vs2"]);
  (* coralnpu_mul.isa:367 *) ("vdmulh_w_vx", ["vdmulh.w.vx"; "%vd, %vs1, %vs2"]);
  (* coralnpu_mul.isa:352 *) ("vdmulh_w_vv_m", ["vdmulh.w.vv.m"; "%vd, %vs1, %vs2"]);
  (* coralnpu_mul.isa:370 *) ("vdmulh_w_vx_m", ["vdmulh.w.vx.m"; "%vd, %vs1, %vs2"]);
  (* coralnpu_mul.isa:375 *) ("vdmulh_b_r_vv", ["vdmulh.b.r.vv"; "%vd, %vs1, %vs2"]);
  (* coralnpu_mul.isa:393 *) ("vdmulh_b_r_vx", ["vdmulh.b.r.vx"; "%vd, %vs1, %vs2"]);
  (* coralnpu_mul.isa:378 *) ("vdmulh_b_r_vv_m", ["vdmulh.b.r.vv.m"; "%vd, %vs1, %vs2"]);
  (* coralnpu_mul.isa:396 *) ("vdmulh_b_r_vx_m", ["vdmulh.b.r.vx.m"; "%vd, %vs1, %vs2"]);
  (* coralnpu_mul.isa:381 *) ("vdmulh_h_r_vv", ["vdmulh.h.r.vv"; "%vd, %vs1, %vs2"]);
  (* coralnpu_mul.isa:399 *) ("vdmulh_h_r_vx", ["vdmulh.h.r.vx"; "%vd, %vs1, %vs2"]);
  (* coralnpu_mul.isa:384 *) ("vdmulh_h_r_vv_m", ["vdmulh.h.r.vv.m"; "%vd, %vs1, %vs2"]);
  (* coralnpu_mul.isa:402 *) ("vdmulh_h_r_vx_m", ["vdmulh.h.r.vx.m"; "%vd, %vs1, %vs2"]);
  (* coralnpu_mul.isa:387 *) ("vdmulh_w_r_vv", ["vdmulh.w.r.vv"; "%vd, %vs1, %vs2"]);
  (* coralnpu_mul.isa:405 *) ("vdmulh_w_r_vx", ["vdmulh.w.r.vx"; "%vd, %vs1, %vs2"]);
  (* coralnpu_mul.isa:390 *) ("vdmulh_w_r_vv_m", ["vdmulh.w.r.vv.m"; "%vd, %vs1, %vs2"]);
  (* coralnpu_mul.isa:408 *) ("vdmulh_w_r_vx_m", ["vdmulh.w.r.vx.m"; "%vd, %vs1, %vs2"]);
  (* coralnpu_mul.isa:413 *) ("vdmulh_b_rn_vv", ["vdmulh.b.rn.vv"; "%vd, %vs1, %vs2"]);
  (* coralnpu_mul.isa:431 *) ("vdmulh_b_rn_vx", ["vdmulh.b.rn.vx"; "%vd, %vs1, %vs2"]);
  (* coralnpu_mul.isa:416 *) ("vdmulh_b_rn_vv_m", ["vdmulh.b.rn.vv.m"; "%vd, %vs1, %vs2"]);
  (* coralnpu_mul.isa:434 *) ("vdmulh_b_rn_vx_m", ["vdmulh.b.rn.vx.m"; "%vd, %vs1, %vs2"]);
  (* coralnpu_mul.isa:419 *) ("vdmulh_h_rn_vv", ["vdmulh.h.rn.vv"; "%vd, %vs1, %vs2"]);
  (* coralnpu_mul.isa:437 *) ("vdmulh_h_rn_vx", ["vdmulh.h.rn.vx"; "%vd, %vs1, %vs2"]);
  (* coralnpu_mul.isa:422 *) ("vdmulh_h_rn_vv_m", ["vdmulh.h.rn.vv.m"; "%vd, %vs1, %vs2"]);
  (* coralnpu_mul.isa:440 *) ("vdmulh_h_rn_vx_m", ["vdmulh.h.rn.vx.m"; "%vd, %vs1, %vs2"]);
  (* coralnpu_mul.isa:425 *) ("vdmulh_w_rn_vv", ["vdmulh.w.rn.vv"; "%vd, %vs1, %vs2"]);
  (* coralnpu_mul.isa:443 *) ("vdmulh_w_rn_vx", ["vdmulh.w.rn.vx"; "%vd, %vs1, %vs2"]);
  (* coralnpu_mul.isa:428 *) ("vdmulh_w_rn_vv_m", ["vdmulh.w.rn.vv.m"; "%vd, %vs1, %vs2"]);
  (* coralnpu_mul.isa:446 *) ("vdmulh_w_rn_vx_m", ["vdmulh.w.rn.vx.m"; "%vd, %vs1, %vs2"]);
  (* coralnpu_mul.isa:451 *) ("vmacc_b_vv", ["vmacc.b.vv"; "%vd, %vs1, %vs2"]);
  (* coralnpu_mul.isa:469 *) ("vmacc_b_vx", ["vmacc.b.vx"; "%vd, %vs1, %vs2"]);
  (* coralnpu_mul.isa:454 *) ("vmacc_b_vv_m", ["vmacc.b.vv.m"; "%vd, %vs1, %vs2"]);
  (* coralnpu_mul.isa:472 *) ("vmacc_b_vx_m", ["vmacc.b.vx.m"; "%vd, %vs1, %vs2"]);
  (* coralnpu_mul.isa:457 *) ("vmacc_h_vv", ["vmacc.h.vv"; "%vd, %vs1, %vs2"]);
  (* coralnpu_mul.isa:475 *) ("vmacc_h_vx", ["vmacc.h.vx"; "%vd, %vs1, %vs2"]);
  (* coralnpu_mul.isa:460 *) ("vmacc_h_vv_m", ["vmacc.h.vv.m"; "%vd, %vs1, %vs2"]);
  (* coralnpu_mul.isa:478 *) ("vmacc_h_vx_m", ["vmacc.h.vx.m"; "%vd, %vs1, %vs2"]);
  (* coralnpu_mul.isa:463 *) ("vmacc_w_vv", ["vmacc.w.vv"; "%vd, %vs1, %vs2"]);
  (* coralnpu_mul.isa:481 *) ("vmacc_w_vx", ["vmacc.w.vx"; "%vd, %vs1, %vs2"]);
  (* coralnpu_mul.isa:466 *) ("vmacc_w_vv_m", ["vmacc.w.vv.m"; "%vd, %vs1, %vs2"]);
  (* coralnpu_mul.isa:484 *) ("vmacc_w_vx_m", ["vmacc.w.vx.m"; "%vd, %vs1, %vs2"]);
  (* coralnpu_mul.isa:489 *) ("vmadd_b_vv", ["vmadd.b.vv"; "%vd, %vs1, %vs2"]);
  (* coralnpu_mul.isa:507 *) ("vmadd_b_vx", ["vmadd.b.vx"; "%vd, %vs1, %vs2"]);
  (* coralnpu_mul.isa:492 *) ("vmadd_b_vv_m", ["vmadd.b.vv.m"; "%vd, %vs1, %vs2"]);
  (* coralnpu_mul.isa:510 *) ("vmadd_b_vx_m", ["vmadd.b.vx.m"; "%vd, %vs1, %vs2"]);
  (* coralnpu_mul.isa:495 *) ("vmadd_h_vv", ["vmadd.h.vv"; "%vd, %vs1, %vs2"]);
  (* coralnpu_mul.isa:513 *) ("vmadd_h_vx", ["vmadd.h.vx"; "%vd, %vs1, %vs2"]);
  (* coralnpu_mul.isa:498 *) ("vmadd_h_vv_m", ["vmadd.h.vv.m"; "%vd, %vs1, %vs2"]);
  (* coralnpu_mul.isa:516 *) ("vmadd_h_vx_m", ["vmadd.h.vx.m"; "%vd, %vs1, %vs2"]);
  (* coralnpu_mul.isa:501 *) ("vmadd_w_vv", ["vmadd.w.vv"; "%vd, %vs1, %vs2"]);
  (* coralnpu_mul.isa:519 *) ("vmadd_w_vx", ["vmadd.w.vx"; "%vd, %vs1, %vs2"]);
  (* coralnpu_mul.isa:504 *) ("vmadd_w_vv_m", ["vmadd.w.vv.m"; "%vd, %vs1, %vs2"]);
  (* coralnpu_mul.isa:522 *) ("vmadd_w_vx_m", ["vmadd.w.vx.m"; "%vd, %vs1, %vs2"]);
  (* coralnpu_shift.isa:20 *) ("vsll_b_vv", ["vsll.b.vv"; "%vd, %vs1, %vs2"]);
  (* coralnpu_shift.isa:38 *) ("vsll_b_vx", ["vsll.b.vx"; "%vd, %vs1, %vs2"]);
  (* coralnpu_shift.isa:23 *) ("vsll_b_vv_m", ["vsll.b.vv.m"; "%vd, %vs1, %vs2"]);
  (* coralnpu_shift.isa:41 *) ("vsll_b_vx_m", ["vsll.b.vx.m"; "%vd, %vs1, %vs2"]);
  (* coralnpu_shift.isa:26 *) ("vsll_h_vv", ["vsll.h.vv"; "%vd, %vs1, %vs2"]);
  (* coralnpu_shift.isa:44 *) ("vsll_h_vx", ["vsll.h.vx"; "%vd, %vs1, %vs2"]);
  (* coralnpu_shift.isa:29 *) ("vsll_h_vv_m", ["vsll.h.vv.m"; "%vd, %vs1, %vs2"]);
  (* coralnpu_shift.isa:47 *) ("vsll_h_vx_m", ["vsll.h.vx.m"; "%vd, %vs1, %vs2"]);
  (* coralnpu_shift.isa:32 *) ("vsll_w_vv", ["vsll.w.vv"; "%vd, %vs1, %vs2"]);
  (* coralnpu_shift.isa:50 *) ("vsll_w_vx", ["vsll.w.vx"; "%vd, %vs1, %vs2"]);
  (* coralnpu_shift.isa:35 *) ("vsll_w_vv_m", ["vsll.w.vv.m"; "%vd, %vs1, %vs2"]);
  (* coralnpu_shift.isa:53 *) ("vsll_w_vx_m", ["vsll.w.vx.m"; "%vd, %vs1, %vs2"]);
  (* coralnpu_shift.isa:58 *) ("vsra_b_vv", ["vsra.b.vv"; "%vd, %vs1, %vs2"]);
  (* coralnpu_shift.isa:76 *) ("vsra_b_vx", ["vsra.b.vx"; "%vd, %vs1, %vs2"]);
  (* coralnpu_shift.isa:61 *) ("vsra_b_vv_m", ["vsra.b.vv.m"; "%vd, %vs1, %vs2"]);
  (* coralnpu_shift.isa:79 *) ("vsra_b_vx_m", ["vsra.b.vx.m"; "%vd, %vs1, %vs2"]);
  (* coralnpu_shift.isa:64 *) ("vsra_h_vv", ["vsra.h.vv"; "%vd, %vs1, %vs2"]);
  (* coralnpu_shift.isa:82 *) ("vsra_h_vx", ["vsra.h.vx"; "%vd, %vs1, %vs2"]);
  (* coralnpu_shift.isa:67 *) ("vsra_h_vv_m", ["vsra.h.vv.m"; "%vd, %vs1, %vs2"]);
  (* coralnpu_shift.isa:85 *) ("vsra_h_vx_m", ["vsra.h.vx.m"; "%vd, %vs1, %vs2"]);
  (* coralnpu_shift.isa:70 *) ("vsra_w_vv", ["vsra.w.vv"; "%vd, %vs1, %vs2"]);
  (* coralnpu_shift.isa:88 *) ("vsra_w_vx", ["vsra.w.vx"; "%vd, %vs1, %vs2"]);
  (* coralnpu_shift.isa:73 *) ("vsra_w_vv_m", ["vsra.w.vv.m"; "%vd, %vs1, %vs2"]);
  (* coralnpu_shift.isa:91 *) ("vsra_w_vx_m", ["vsra.w.vx.m"; "%vd, %vs1, %vs2"]);
  (* coralnpu_shift.isa:96 *) ("vsrl_b_vv", ["vsrl.b.vv"; "%vd, %vs1, %vs2"]);
  (* coralnpu_shift.isa:114 *) ("vsrl_b_vx", ["vsrl.b.vx"; "%vd, %vs1, %vs2"]);
  (* coralnpu_shift.isa:99 *) ("vsrl_b_vv_m", ["vsrl.b.vv.m"; "%vd, %vs1, %vs2"]);
  (* coralnpu_shift.isa:117 *) ("vsrl_b_vx_m", ["vsrl.b.vx.m"; "%vd, %vs1, %vs2"]);
  (* coralnpu_shift.isa:102 *) ("vsrl_h_vv", ["vsrl.h.vv"; "%vd, %vs1, %vs2"]);
  (* coralnpu_shift.isa:120 *) ("vsrl_h_vx", ["vsrl.h.vx"; "%vd, %vs1, %vs2"]);
  (* coralnpu_shift.isa:105 *) ("vsrl_h_vv_m", ["vsrl.h.vv.m"; "%vd, %vs1, %vs2"]);
  (* coralnpu_shift.isa:123 *) ("vsrl_h_vx_m", ["vsrl.h.vx.m"; "%vd, %vs1, %vs2"]);
  (* coralnpu_shift.isa:108 *) ("vsrl_w_vv", ["vsrl.w.vv"; "%vd, %vs1, %vs2"]);
  (* coralnpu_shift.isa:126 *) ("vsrl_w_vx", ["vsrl.w.vx"; "%vd, %vs1, %vs2"]);
  (* coralnpu_shift.isa:111 *) ("vsrl_w_vv_m", ["vsrl.w.vv.m"; "%vd, %vs1, %vs2"]);
  (* coralnpu_shift.isa:129 *) ("vsrl_w_vx_m", ["vsrl.w.vx.m"; "%vd, %vs1, %vs2"]);
  (* coralnpu_shift.isa:134 *) ("vsha_b_vv", ["vsha.b.vv"; "%vd, %vs1, %vs2"]);
  (* coralnpu_shift.isa:137 *) ("vsha_b_vx", ["vsha.b.vx"; "%vd, %vs1, %vs2"]);
  (* coralnpu_shift.isa:140 *) ("vsha_b_vv_m", ["vsha.b.vv.m"; "%vd, %vs1, %vs2"]);
  (* coralnpu_shift.isa:143 *) ("vsha_b_vx_m", ["vsha.b.vx.m"; "%vd, %vs1, %vs2"]);
  (* coralnpu_shift.isa:146 *) ("vsha_h_vv", ["vsha.h.vv"; "%vd, %vs1, %vs2"]);
  (* coralnpu_shift.isa:149 *) ("vsha_h_vx", ["vsha.h.vx"; "%vd, %vs1, %vs2"]);
  (* coralnpu_shift.isa:152 *) ("vsha_h_vv_m", ["vsha.h.vv.m"; "%vd, %vs1, %vs2"]);
  (* coralnpu_shift.isa:155 *) ("vsha_h_vx_m", ["vsha.h.vx.m"; "%vd, %vs1, %vs2"]);
  (* coralnpu_shift.isa:158 *) ("vsha_w_vv", ["vsha.w.vv"; "%vd, %vs1, %vs2"]);
  (* coralnpu_shift.isa:161 *) ("vsha_w_vx", ["vsha.w.vx"; "%vd, %vs1, %vs2"]);
  (* coralnpu_shift.isa:164 *) ("vsha_w_vv_m", ["vsha.w.vv.m"; "%vd, %vs1, %vs2"]);
  (* coralnpu_shift.isa:167 *) ("vsha_w_vx_m", ["vsha.w.vx.m"; "%vd, %vs1, %vs2"]);
  (* coralnpu_shift.isa:170 *) ("vsha_b_r_vv", ["vsha.b.r.vv"; "%vd, %vs1, %vs2"]);
  (* coralnpu_shift.isa:173 *) ("vsha_b_r_vx", ["vsha.b.r.vx"; "%vd, %vs1, %vs2"]);
  (* coralnpu_shift.isa:176 *) ("vsha_b_r_vv_m", ["vsha.b.r.vv.m"; "%vd, %vs1, %vs2"]);
  (* coralnpu_shift.isa:179 *) ("vsha_b_r_vx_m", ["vsha.b.r.vx.m"; "%vd, %vs1, %vs2"]);
  (* coralnpu_shift.isa:182 *) ("vsha_h_r_vv", ["vsha.h.r.vv"; "%vd, %vs1, %vs2"]);
  (* coralnpu_shift.isa:185 *) ("vsha_h_r_vx", ["vsha.h.r.vx"; "%vd, %vs1, %vs2"]);
  (* coralnpu_shift.isa:188 *) ("vsha_h_r_vv_m", ["vsha.h.r.vv.m"; "%vd, %vs1, %vs2"]);
  (* coralnpu_shift.isa:191 *) ("vsha_h_r_vx_m", ["vsha.h.r.vx.m"; "%vd, %vs1, %vs2"]);
  (* coralnpu_shift.isa:194 *) ("vsha_w_r_vv", ["vsha.w.r.vv"; "%vd, %vs1, %vs2"]);
  (* coralnpu_shift.isa:197 *) ("vsha_w_r_vx", ["vsha.w.r.vx"; "%vd, %vs1, %vs2"]);
  (* coralnpu_shift.isa:200 *) ("vsha_w_r_vv_m", ["vsha.w.r.vv.m"; "%vd, %vs1, %vs2"]);
  (* coralnpu_shift.isa:203 *) ("vsha_w_r_vx_m", ["vsha.w.r.vx.m"; "%vd, %vs1, %vs2"]);
  (* coralnpu_shift.isa:208 *) ("vshl_b_vv", ["vshl.b.vv"; "%vd, %vs1, %vs2"]);
  (* coralnpu_shift.isa:211 *) ("vshl_b_vx", ["vshl.b.vx"; "%vd, %vs1, %vs2"]);
  (* coralnpu_shift.isa:214 *) ("vshl_b_vv_m", ["vshl.b.vv.m"; "%vd, %vs1, %vs2"]);
  (* coralnpu_shift.isa:217 *) ("vshl_b_vx_m", ["vshl.b.vx.m"; "%vd, %vs1, %vs2"]);
  (* coralnpu_shift.isa:220 *) ("vshl_h_vv", ["vshl.h.vv"; "%vd, %vs1, %vs2"]);
  (* coralnpu_shift.isa:223 *) ("vshl_h_vx", ["vshl.h.vx"; "%vd, %vs1, %vs2"]);
  (* coralnpu_shift.isa:226 *) ("vshl_h_vv_m", ["vshl.h.vv.m"; "%vd, %vs1, %vs2"]);
  (* coralnpu_shift.isa:229 *) ("vshl_h_vx_m", ["vshl.h.vx.m"; "%vd, %vs1, %vs2"]);
  (* coralnpu_shift.isa:232 *) ("vshl_w_vv", ["vshl.w.vv"; "%vd, %vs1, %vs2"]);
  (* coralnpu_shift.isa:235 *) ("vshl_w_vx", ["vshl.w.vx"; "%vd, %vs1, %vs2"]);
  (* coralnpu_shift.isa:238 *) ("vshl_w_vv_m", ["vshl.w.vv.m"; "%vd, %vs1, %vs2"]);
  (* coralnpu_shift.isa:241 *) ("vshl_w_vx_m", ["vshl.w.vx.m"; "%vd, %vs1, %vs2"]);
  (* coralnpu_shift.isa:244 *) ("vshl_b_r_vv", ["vshl.b.r.vv"; "%vd, %vs1, %vs2"]);
  (* coralnpu_shift.isa:247 *) ("vshl_b_r_vx", ["vshl.b.r.vx"; "%vd, %vs1, %vs2"]);
  (* coralnpu_shift.isa:250 *) ("vshl_b_r_vv_m", ["vshl.b.r.vv.m"; "%vd, %vs1, %vs2"]);
  (* coralnpu_shift.isa:253 *) ("vshl_b_r_vx_m", ["vshl.b.r.vx.m"; "%vd, %vs1, %vs2"]);
  (* coralnpu_shift.isa:256 *) ("vshl_h_r_vv", ["vshl.h.r.vv"; "%vd, %vs1, %vs2"]);
  (* coralnpu_shift.isa:259 *) ("vshl_h_r_vx", ["vshl.h.r.vx"; "%vd, %vs1, %vs2"]);
  (* coralnpu_shift.isa:262 *) ("vshl_h_r_vv_m", ["vshl.h.r.vv.m"; "%vd, %vs1, %vs2"]);
  (* coralnpu_shift.isa:265 *) ("vshl_h_r_vx_m", ["vshl.h.r.vx.m"; "%vd, %vs1, %vs2"]);
  (* coralnpu_shift.isa:268 *) ("vshl_w_r_vv", ["vshl.w.r.vv"; "%vd, %vs1, %vs2"]);
  (* coralnpu_shift.isa:271 *) ("vshl_w_r_vx", ["vshl.w.r.vx"; "%vd, %vs1, %vs2"]);
  (* coralnpu_shift.isa:274 *) ("vshl_w_r_vv_m", ["vshl.w.r.vv.m"; "%vd, %vs1, %vs2"]);
  (* coralnpu_shift.isa:277 *) ("vshl_w_r_vx_m", ["vshl.w.r.vx.m"; "%vd, %vs1, %vs2"]);
  (* coralnpu_shift.isa:282 *) ("vnot_v", ["vnot.v"; "%vd, %vs1"]);
  (* coralnpu_shift.isa:285 *) ("vnot_v_m", ["vnot.v.m"; "%vd, %vs1"]);
  (* coralnpu_shift.isa:290 *) ("vclb_b_v", ["vclb.b.v"; "%vd, %vs1"]);
  (* coralnpu_shift.isa:293 *) ("vclb_b_v_m", ["vclb.b.v.m"; "%vd, %vs1"]);
  (* coralnpu_shift.isa:296 *) ("vclb_h_v", ["vclb.h.v"; "%vd, %vs1"]);
  (* coralnpu_shift.isa:299 *) ("vclb_h_v_m", ["vclb.h.v.m"; "%vd, %vs1"]);
  (* coralnpu_shift.isa:302 *) ("vclb_w_v", ["vclb.w.v"; "%vd, %vs1"]);
  (* coralnpu_shift.isa:305 *) ("vclb_w_v_m", ["vclb.w.v.m"; "%vd, %vs1"]);
  (* coralnpu_shift.isa:310 *) ("vclz_b_v", ["vclz.b.v"; "%vd, %vs1"]);
  (* coralnpu_shift.isa:313 *) ("vclz_b_v_m", ["vclz.b.v.m"; "%vd, %vs1"]);
  (* coralnpu_shift.isa:316 *) ("vclz_h_v", ["vclz.h.v"; "%vd, %vs1"]);
  (* coralnpu_shift.isa:319 *) ("vclz_h_v_m", ["vclz.h.v.m"; "%vd, %vs1"]);
  (* coralnpu_shift.isa:322 *) ("vclz_w_v", ["vclz.w.v"; "%vd, %vs1"]);
  (* coralnpu_shift.isa:325 *) ("vclz_w_v_m", ["vclz.w.v.m"; "%vd, %vs1"]);
  (* coralnpu_shift.isa:330 *) ("vcpop_b_v", ["vcpop.b.v"; "%vd, %vs1"]);
  (* coralnpu_shift.isa:333 *) ("vcpop_b_v_m", ["vcpop.b.v.m"; "%vd, %vs1"]);
  (* coralnpu_shift.isa:336 *) ("vcpop_h_v", ["vcpop.h.v"; "%vd, %vs1"]);
  (* coralnpu_shift.isa:339 *) ("vcpop_h_v_m", ["vcpop.h.v.m"; "%vd, %vs1"]);
  (* coralnpu_shift.isa:342 *) ("vcpop_w_v", ["vcpop.w.v"; "%vd, %vs1"]);
  (* coralnpu_shift.isa:345 *) ("vcpop_w_v_m", ["vcpop.w.v.m"; "%vd, %vs1"]);
  (* coralnpu_shift.isa:350 *) ("vmv_v", ["vmv.v"; "%vd, %vs1"]);
  (* coralnpu_shift.isa:353 *) ("vmv_v_m", ["vmv.v.m"; "%vd, %vs1"]);
  (* coralnpu_shift.isa:358 *) ("vsrans_b_vv", ["vsrans.b.vv"; "%vd, %vs1, %vs2"]);
  (* coralnpu_shift.isa:370 *) ("vsrans_b_vx", ["vsrans.b.vx"; "%vd, %vs1, %vs2"]);
  (* coralnpu_shift.isa:361 *) ("vsrans_b_vv_m", ["vsrans.b.vv.m"; "%vd, %vs1, %vs2"]);
  (* coralnpu_shift.isa:373 *) ("vsrans_b_vx_m", ["vsrans.b.vx.m"; "%vd, %vs1, %vs2"]);
  (* coralnpu_shift.isa:364 *) ("vsrans_h_vv", ["vsrans.h.vv"; "%vd, %vs1, %vs2"]);
  (* coralnpu_shift.isa:376 *) ("vsrans_h_vx", ["vsrans.h.vx"; "%vd, %vs1, %vs2"]);
  (* coralnpu_shift.isa:367 *) ("vsrans_h_vv_m", ["vsrans.h.vv.m"; "%vd, %vs1, %vs2"]);
  (* coralnpu_shift.isa:379 *) ("vsrans_h_vx_m", ["vsrans.h.vx.m"; "%vd, %vs1, %vs2"]);
  (* coralnpu_shift.isa:382 *) ("vsrans_b_r_vv", ["vsrans.b.r.vv"; "%vd, %vs1, %vs2"]);
  (* coralnpu_shift.isa:394 *) ("vsrans_b_r_vx", ["vsrans.b.r.vx"; "%vd, %vs1, %vs2"]);
  (* coralnpu_shift.isa:385 *) ("vsrans_b_r_vv_m", ["vsrans.b.r.vv.m"; "%vd, %vs1, %vs2"]);
  (* coralnpu_shift.isa:397 *) ("vsrans_b_r_vx_m", ["vsrans.b.r.vx.m"; "%vd, %vs1, %vs2"]);
  (* coralnpu_shift.isa:388 *) ("vsrans_h_r_vv", ["vsrans.h.r.vv"; "%vd, %vs1, %vs2"]);
  (* coralnpu_shift.isa:400 *) ("vsrans_h_r_vx", ["vsrans.h.r.vx"; "%vd, %vs1, %vs2"]);
  (* coralnpu_shift.isa:391 *) ("vsrans_h_r_vv_m", ["vsrans.h.r.vv.m"; "%vd, %vs1, %vs2"]);
  (* coralnpu_shift.isa:403 *) ("vsrans_h_r_vx_m", ["vsrans.h.r.vx.m"; "%vd, %vs1, %vs2"]);
  (* coralnpu_shift.isa:408 *) ("vsransu_b_vv", ["vsransu.b.vv"; "%vd, %vs1, %vs2"]);
  (* coralnpu_shift.isa:420 *) ("vsransu_b_vx", ["vsransu.b.vx"; "%vd, %vs1, %vs2"]);
  (* coralnpu_shift.isa:411 *) ("vsransu_b_vv_m", ["vsransu.b.vv.m"; "%vd, %vs1, %vs2"]);
  (* coralnpu_shift.isa:423 *) ("vsransu_b_vx_m", ["vsransu.b.vx.m"; "%vd, %vs1, %vs2"]);
  (* coralnpu_shift.isa:414 *) ("vsransu_h_vv", ["vsransu.h.vv"; "%vd, %vs1, %vs2"]);
  (* coralnpu_shift.isa:426 *) ("vsransu_h_vx", ["vsransu.h.vx"; "%vd, %vs1, %vs2"]);
  (* coralnpu_shift.isa:417 *) ("vsransu_h_vv_m", ["vsransu.h.vv.m"; "%vd, %vs1, %vs2"]);
  (* coralnpu_shift.isa:429 *) ("vsransu_h_vx_m", ["vsransu.h.vx.m"; "%vd, %vs1, %vs2"]);
  (* coralnpu_shift.isa:432 *) ("vsransu_b_r_vv", ["vsransu.b.r.vv"; "%vd, %vs1, %vs2"]);
  (* coralnpu_shift.isa:444 *) ("vsransu_b_r_vx", ["vsransu.b.r.vx"; "%vd, %vs1, %vs2"]);
  (* coralnpu_shift.isa:435 *) ("vsransu_b_r_vv_m", ["vsransu.b.r.vv.m"; "%vd, %vs1, %vs2"]);
  (* coralnpu_shift.isa:447 *) ("vsransu_b_r_vx_m", ["vsransu.b.r.vx.m"; "%vd, %vs1, %vs2"]);
  (* coralnpu_shift.isa:438 *) ("vsransu_h_r_vv", ["vsransu.h.r.vv"; "%vd, %vs1, %vs2"]);
  (* coralnpu_shift.isa:450 *) ("vsransu_h_r_vx", ["vsransu.h.r.vx"; "%vd, %vs1, %vs2"]);
  (* coralnpu_shift.isa:441 *) ("vsransu_h_r_vv_m", ["vsransu.h.r.vv.m"; "%vd, %vs1, %vs2"]);
  (* coralnpu_shift.isa:453 *) ("vsransu_h_r_vx_m", ["vsransu.h.r.vx.m"; "%vd, %vs1, %vs2"]);
  (* coralnpu_shift.isa:458 *) ("vsraqs_b_vv", ["vsraqs.b.vv"; "%vd, %vs1, %vs2"]);
  (* coralnpu_shift.isa:464 *) ("vsraqs_b_vx", ["vsraqs.b.vx"; "%vd, %vs1, %vs2"]);
  (* coralnpu_shift.isa:461 *) ("vsraqs_b_vv_m", ["vsraqs.b.vv.m"; "%vd, %vs1, %vs2"]);
  (* coralnpu_shift.isa:467 *) ("vsraqs_b_vx_m", ["vsraqs.b.vx.m"; "%vd, %vs1, %vs2"]);
  (* coralnpu_shift.isa:470 *) ("vsraqs_b_r_vv", ["vsraqs.b.r.vv"; "%vd, %vs1, %vs2"]);
  (* coralnpu_shift.isa:476 *) ("vsraqs_b_r_vx", ["vsraqs.b.r.vx"; "%vd, %vs1, %vs2"]);
  (* coralnpu_shift.isa:473 *) ("vsraqs_b_r_vv_m", ["vsraqs.b.r.vv.m"; "%vd, %vs1, %vs2"]);
  (* coralnpu_shift.isa:479 *) ("vsraqs_b_r_vx_m", ["vsraqs.b.r.vx.m"; "%vd, %vs1, %vs2"]);
  (* coralnpu_shift.isa:484 *) ("vsraqsu_b_vv", ["vsraqsu.b.vv"; "%vd, %vs1, %vs2"]);
  (* coralnpu_shift.isa:490 *) ("vsraqsu_b_vx", ["vsraqsu.b.vx"; "%vd, %vs1, %vs2"]);
  (* coralnpu_shift.isa:487 *) ("vsraqsu_b_vv_m", ["vsraqsu.b.vv.m"; "%vd, %vs1, %vs2"]);
  (* coralnpu_shift.isa:493 *) ("vsraqsu_b_vx_m", ["vsraqsu.b.vx.m"; "%vd, %vs1, %vs2"]);
  (* coralnpu_shift.isa:496 *) ("vsraqsu_b_r_vv", ["vsraqsu.b.r.vv"; "%vd, %vs1, %vs2"]);
  (* coralnpu_shift.isa:502 *) ("vsraqsu_b_r_vx", ["vsraqsu.b.r.vx"; "%vd, %vs1, %vs2"]);
  (* coralnpu_shift.isa:499 *) ("vsraqsu_b_r_vv_m", ["vsraqsu.b.r.vv.m"; "%vd, %vs1, %vs2"]);
  (* coralnpu_shift.isa:505 *) ("vsraqsu_b_r_vx_m", ["vsraqsu.b.r.vx.m"; "%vd, %vs1, %vs2"]);
  (* coralnpu_shift.isa:510 *) ("vsliden_b_1_vv", ["vsliden.b.1.vv"; "%vd, %vs1, %vs2"]);
  (* coralnpu_shift.isa:513 *) ("vsliden_b_2_vv", ["vsliden.b.2.vv"; "%vd, %vs1, %vs2"]);
  (* coralnpu_shift.isa:516 *) ("vsliden_b_3_vv", ["vsliden.b.3.vv"; "%vd, %vs1, %vs2"]);
  (* coralnpu_shift.isa:519 *) ("vsliden_b_4_vv", ["vsliden.b.4.vv"; "%vd, %vs1, %vs2"]);
  (* coralnpu_shift.isa:522 *) ("vsliden_h_1_vv", ["vsliden.h.1.vv"; "%vd, %vs1, %vs2"]);
  (* coralnpu_shift.isa:525 *) ("vsliden_h_2_vv", ["vsliden.h.2.vv"; "%vd, %vs1, %vs2"]);
  (* coralnpu_shift.isa:528 *) ("vsliden_h_3_vv", ["vsliden.h.3.vv"; "%vd, %vs1, %vs2"]);
  (* coralnpu_shift.isa:531 *) ("vsliden_h_4_vv", ["vsliden.h.4.vv"; "%vd, %vs1, %vs2"]);
  (* coralnpu_shift.isa:534 *) ("vsliden_w_1_vv", ["vsliden.w.1.vv"; "%vd, %vs1, %vs2"]);
  (* coralnpu_shift.isa:537 *) ("vsliden_w_2_vv", ["vsliden.w.2.vv"; "%vd, %vs1, %vs2"]);
  (* coralnpu_shift.isa:540 *) ("vsliden_w_3_vv", ["vsliden.w.3.vv"; "%vd, %vs1, %vs2"]);
  (* coralnpu_shift.isa:543 *) ("vsliden_w_4_vv", ["vsliden.w.4.vv"; "%vd, %vs1, %vs2"]);
  (* coralnpu_shift.isa:546 *) ("vslidevn_b_1_vv_m", ["vslidevn.b.1.vv.m"; "%vd, %vs1, %vs2"]);
  (* coralnpu_shift.isa:549 *) ("vslidevn_b_2_vv_m", ["vslidevn.b.2.vv.m"; "%vd, %vs1, %vs2"]);
  (* coralnpu_shift.isa:552 *) ("vslidevn_b_3_vv_m", ["vslidevn.b.3.vv.m"; "%vd, %vs1, %vs2"]);
  (* coralnpu_shift.isa:555 *) ("vslidevn_b_4_vv_m", ["vslidevn.b.4.vv.m"; "%vd, %vs1, %vs2"]);
  (* coralnpu_shift.isa:558 *) ("vslidevn_h_1_vv_m", ["vslidevn.h.1.vv.m"; "%vd, %vs1, %vs2"]);
  (* coralnpu_shift.isa:561 *) ("vslidevn_h_2_vv_m", ["vslidevn.h.2.vv.m"; "%vd, %vs1, %vs2"]);
  (* coralnpu_shift.isa:564 *) ("vslidevn_h_3_vv_m", ["vslidevn.h.3.vv.m"; "%vd, %vs1, %vs2"]);
  (* coralnpu_shift.isa:567 *) ("vslidevn_h_4_vv_m", ["vslidevn.h.4.vv.m"; "%vd, %vs1, %vs2"]);
  (* coralnpu_shift.isa:570 *) ("vslidevn_w_1_vv_m", ["vslidevn.w.1.vv.m"; "%vd, %vs1, %vs2"]);
  (* coralnpu_shift.isa:573 *) ("vslidevn_w_2_vv_m", ["vslidevn.w.2.vv.m"; "%vd, %vs1, %vs2"]);
  (* coralnpu_shift.isa:576 *) ("vslidevn_w_3_vv_m", ["vslidevn.w.3.vv.m"; "%vd, %vs1, %vs2"]);
  (* coralnpu_shift.isa:579 *) ("vslidevn_w_4_vv_m", ["vslidevn.w.4.vv.m"; "%vd, %vs1, %vs2"]);
  (* coralnpu_shift.isa:584 *) ("vslidehn_b_1_vv_m", ["vslidehn.b.1.vv.m"; "%vd, %vs1, %vs2"]);
  (* coralnpu_shift.isa:587 *) ("vslidehn_b_2_vv_m", ["vslidehn.b.2.vv.m"; "%vd, %vs1, %vs2"]);
  (* coralnpu_shift.isa:590 *) ("vslidehn_b_3_vv_m", ["vslidehn.b.3.vv.m"; "%vd, %vs1, %vs2"]);
  (* coralnpu_shift.isa:593 *) ("vslidehn_b_4_vv_m", ["vslidehn.b.4.vv.m"; "%vd, %vs1, %vs2"]);
  (* coralnpu_shift.isa:596 *) ("vslidehn_h_1_vv_m", ["vslidehn.h.1.vv.m"; "%vd, %vs1, %vs2"]);
  (* coralnpu_shift.isa:599 *) ("vslidehn_h_2_vv_m", ["vslidehn.h.2.vv.m"; "%vd, %vs1, %vs2"]);
  (* coralnpu_shift.isa:602 *) ("vslidehn_h_3_vv_m", ["vslidehn.h.3.vv.m"; "%vd, %vs1, %vs2"]);
  (* coralnpu_shift.isa:605 *) ("vslidehn_h_4_vv_m", ["vslidehn.h.4.vv.m"; "%vd, %vs1, %vs2"]);
  (* coralnpu_shift.isa:608 *) ("vslidehn_w_1_vv_m", ["vslidehn.w.1.vv.m"; "%vd, %vs1, %vs2"]);
  (* coralnpu_shift.isa:611 *) ("vslidehn_w_2_vv_m", ["vslidehn.w.2.vv.m"; "%vd, %vs1, %vs2"]);
  (* coralnpu_shift.isa:614 *) ("vslidehn_w_3_vv_m", ["vslidehn.w.3.vv.m"; "%vd, %vs1, %vs2"]);
  (* coralnpu_shift.isa:617 *) ("vslidehn_w_4_vv_m", ["vslidehn.w.4.vv.m"; "%vd, %vs1, %vs2"]);
  (* coralnpu_shift.isa:622 *) ("vslidep_b_1_vv", ["vslidep.b.1.vv"; "%vd, %vs1, %vs2"]);
  (* coralnpu_shift.isa:625 *) ("vslidep_b_2_vv", ["vslidep.b.2.vv"; "%vd, %vs1, %vs2"]);
  (* coralnpu_shift.isa:628 *) ("vslidep_b_3_vv", ["vslidep.b.3.vv"; "%vd, %vs1, %vs2"]);
  (* coralnpu_shift.isa:631 *) ("vslidep_b_4_vv", ["vslidep.b.4.vv"; "%vd, %vs1, %vs2"]);
  (* coralnpu_shift.isa:634 *) ("vslidep_h_1_vv", ["vslidep.h.1.vv"; "%vd, %vs1, %vs2"]);
  (* coralnpu_shift.isa:637 *) ("vslidep_h_2_vv", ["vslidep.h.2.vv"; "%vd, %vs1, %vs2"]);
  (* coralnpu_shift.isa:640 *) ("vslidep_h_3_vv", ["vslidep.h.3.vv"; "%vd, %vs1, %vs2"]);
  (* coralnpu_shift.isa:643 *) ("vslidep_h_4_vv", ["vslidep.h.4.vv"; "%vd, %vs1, %vs2"]);
  (* coralnpu_shift.isa:646 *) ("vslidep_w_1_vv", ["vslidep.w.1.vv"; "%vd, %vs1, %vs2"]);
  (* coralnpu_shift.isa:649 *) ("vslidep_w_2_vv", ["vslidep.w.2.vv"; "%vd, %vs1, %vs2"]);
  (* coralnpu_shift.isa:652 *) ("vslidep_w_3_vv", ["vslidep.w.3.vv"; "%vd, %vs1, %vs2"]);
  (* coralnpu_shift.isa:655 *) ("vslidep_w_4_vv", ["vslidep.w.4.vv"; "%vd, %vs1, %vs2"]);
  (* coralnpu_shift.isa:658 *) ("vslidevp_b_1_vv_m", ["vslidevp.b.1.vv.m"; "%vd, %vs1, %vs2"]);
  (* coralnpu_shift.isa:661 *) ("vslidevp_b_2_vv_m", ["vslidevp.b.2.vv.m"; "%vd, %vs1, %vs2"]);
  (* coralnpu_shift.isa:664 *) ("vslidevp_b_3_vv_m", ["vslidevp.b.3.vv.m"; "%vd, %vs1, %vs2"]);
  (* coralnpu_shift.isa:667 *) ("vslidevp_b_4_vv_m", ["vslidevp.b.4.vv.m"; "%vd, %vs1, %vs2"]);
  (* coralnpu_shift.isa:670 *) ("vslidevp_h_1_vv_m", ["vslidevp.h.1.vv.m"; "%vd, %vs1, %vs2"]);
  (* coralnpu_shift.isa:673 *) ("vslidevp_h_2_vv_m", ["vslidevp.h.2.vv.m"; "%vd, %vs1, %vs2"]);
  (* coralnpu_shift.isa:676 *) ("vslidevp_h_3_vv_m", ["vslidevp.h.3.vv.m"; "%vd, %vs1, %vs2"]);
  (* coralnpu_shift.isa:679 *) ("vslidevp_h_4_vv_m", ["vslidevp.h.4.vv.m"; "%vd, %vs1, %vs2"]);
  (* coralnpu_shift.isa:682 *) ("vslidevp_w_1_vv_m", ["vslidevp.w.1.vv.m"; "%vd, %vs1, %vs2"]);
  (* coralnpu_shift.isa:685 *) ("vslidevp_w_2_vv_m", ["vslidevp.w.2.vv.m"; "%vd, %vs1, %vs2"]);
  (* coralnpu_shift.isa:688 *) ("vslidevp_w_3_vv_m", ["vslidevp.w.3.vv.m"; "%vd, %vs1, %vs2"]);
  (* coralnpu_shift.isa:691 *) ("vslidevp_w_4_vv_m", ["vslidevp.w.4.vv.m"; "%vd, %vs1, %vs2"]);
  (* coralnpu_shift.isa:696 *) ("vslidehp_b_1_vv_m", ["vslidehp.b.1.vv.m"; "%vd, %vs1, %vs2"]);
  (* coralnpu_shift.isa:699 *) ("vslidehp_b_2_vv_m", ["vslidehp.b.2.vv.m"; "%vd, %vs1, %vs2"]);
  (* coralnpu_shift.isa:702 *) ("vslidehp_b_3_vv_m", ["vslidehp.b.3.vv.m"; "%vd, %vs1, %vs2"]);
  (* coralnpu_shift.isa:705 *) ("vslidehp_b_4_vv_m", ["vslidehp.b.4.vv.m"; "%vd, %vs1, %vs2"]);
  (* coralnpu_shift.isa:708 *) ("vslidehp_h_1_vv_m", ["vslidehp.h.1.vv.m"; "%vd, %vs1, %vs2"]);
  (* coralnpu_shift.isa:711 *) ("vslidehp_h_2_vv_m", ["vslidehp.h.2.vv.m"; "%vd, %vs1, %vs2"]);
  (* coralnpu_shift.isa:714 *) ("vslidehp_h_3_vv_m", ["vslidehp.h.3.vv.m"; "%vd, %vs1, %vs2"]);
  (* coralnpu_shift.isa:717 *) ("vslidehp_h_4_vv_m", ["vslidehp.h.4.vv.m"; "%vd, %vs1, %vs2"]);
  (* coralnpu_shift.isa:720 *) ("vslidehp_w_1_vv_m", ["vslidehp.w.1.vv.m"; "%vd, %vs1, %vs2"]);
  (* coralnpu_shift.isa:723 *) ("vslidehp_w_2_vv_m", ["vslidehp.w.2.vv.m"; "%vd, %vs1, %vs2"]);
  (* coralnpu_shift.isa:726 *) ("vslidehp_w_3_vv_m", ["vslidehp.w.3.vv.m"; "%vd, %vs1, %vs2"]);
  (* coralnpu_shift.isa:729 *) ("vslidehp_w_4_vv_m", ["vslidehp.w.4.vv.m"; "%vd, %vs1, %vs2"]);
  (* coralnpu_shift.isa:734 *) ("vsel_b_vv", ["vsel.b.vv"; "%vd, %vs1, %vs2"]);
  (* coralnpu_shift.isa:752 *) ("vsel_b_vx", ["vsel.b.vx"; "%vd, %vs1, %vs2"]);
  (* coralnpu_shift.isa:737 *) ("vsel_b_vv_m", ["vsel.b.vv.m"; "%vd, %vs1, %vs2"]);
  (* coralnpu_shift.isa:755 *) ("vsel_b_vx_m", ["vsel.b.vx.m"; "%vd, %vs1, %vs2"]);
  (* coralnpu_shift.isa:740 *) ("vsel_h_vv", ["vsel.h.vv"; "%vd, %vs1, %vs2"]);
  (* coralnpu_shift.isa:758 *) ("vsel_h_vx", ["vsel.h.vx"; "%vd, %vs1, %vs2"]);
  (* coralnpu_shift.isa:743 *) ("vsel_h_vv_m", ["vsel.h.vv.m"; "%vd, %vs1, %vs2"]);
  (* coralnpu_shift.isa:761 *) ("vsel_h_vx_m", ["vsel.h.vx.m"; "%vd, %vs1, %vs2"]);
  (* coralnpu_shift.isa:746 *) ("vsel_w_vv", ["vsel.w.vv"; "%vd, %vs1, %vs2"]);
  (* coralnpu_shift.isa:764 *) ("vsel_w_vx", ["vsel.w.vx"; "%vd, %vs1, %vs2"]);
  (* coralnpu_shift.isa:749 *) ("vsel_w_vv_m", ["vsel.w.vv.m"; "%vd, %vs1, %vs2"]);
  (* coralnpu_shift.isa:767 *) ("vsel_w_vx_m", ["vsel.w.vx.m"; "%vd, %vs1, %vs2"]);
  (* coralnpu_shift.isa:772 *) ("vevn_b_vv", ["vevn.b.vv"; "%vd, %vs1, %vs2"]);
  (* coralnpu_shift.isa:790 *) ("vevn_b_vx", ["vevn.b.vx"; "%vd, %vs1, %vs2"]);
  (* coralnpu_shift.isa:775 *) ("vevn_b_vv_m", ["vevn.b.vv.m"; "%vd, %vs1, %vs2"]);
  (* coralnpu_shift.isa:793 *) ("vevn_b_vx_m", ["vevn.b.vx.m"; "%vd, %vs1, %vs2"]);
  (* coralnpu_shift.isa:778 *) ("vevn_h_vv", ["vevn.h.vv"; "%vd, %vs1, %vs2"]);
  (* coralnpu_shift.isa:796 *) ("vevn_h_vx", ["vevn.h.vx"; "%vd, %vs1, %vs2"]);
  (* coralnpu_shift.isa:781 *) ("vevn_h_vv_m", ["vevn.h.vv.m"; "%vd, %vs1, %vs2"]);
  (* coralnpu_shift.isa:799 *) ("vevn_h_vx_m", ["vevn.h.vx.m"; "%vd, %vs1, %vs2"]);
  (* coralnpu_shift.isa:784 *) ("vevn_w_vv", ["vevn.w.vv"; "%vd, %vs1, %vs2"]);
  (* coralnpu_shift.isa:802 *) ("vevn_w_vx", ["vevn.w.vx"; "%vd, %vs1, %vs2"]);
  (* coralnpu_shift.isa:787 *) ("vevn_w_vv_m", ["vevn.w.vv.m"; "%vd, %vs1, %vs2"]);
  (* coralnpu_shift.isa:805 *) ("vevn_w_vx_m", ["vevn.w.vx.m"; "%vd, %vs1, %vs2"]);
  (* coralnpu_shift.isa:810 *) ("vodd_b_vv", ["vodd.b.vv"; "%vd, %vs1, %vs2"]);
  (* coralnpu_shift.isa:828 *) ("vodd_b_vx", ["vodd.b.vx"; "%vd, %vs1, %vs2"]);
  (* coralnpu_shift.isa:813 *) ("vodd_b_vv_m", ["vodd.b.vv.m"; "%vd, %vs1, %vs2"]);
  (* coralnpu_shift.isa:831 *) ("vodd_b_vx_m", ["vodd.b.vx.m"; "%vd, %vs1, %vs2"]);
  (* coralnpu_shift.isa:816 *) ("vodd_h_vv", ["vodd.h.vv"; "%vd, %vs1, %vs2"]);
  (* coralnpu_shift.isa:834 *) ("vodd_h_vx", ["vodd.h.vx"; "%vd, %vs1, %vs2"]);
  (* coralnpu_shift.isa:819 *) ("vodd_h_vv_m", ["vodd.h.vv.m"; "%vd, %vs1, %vs2"]);
  (* coralnpu_shift.isa:837 *) ("vodd_h_vx_m", ["vodd.h.vx.m"; "%vd, %vs1, %vs2"]);
  (* coralnpu_shift.isa:822 *) ("vodd_w_vv", ["vodd.w.vv"; "%vd, %vs1, %vs2"]);
  (* coralnpu_shift.isa:840 *) ("vodd_w_vx", ["vodd.w.vx"; "%vd, %vs1, %vs2"]);
  (* coralnpu_shift.isa:825 *) ("vodd_w_vv_m", ["vodd.w.vv.m"; "%vd, %vs1, %vs2"]);
  (* coralnpu_shift.isa:843 *) ("vodd_w_vx_m", ["vodd.w.vx.m"; "%vd, %vs1, %vs2"]);
  (* coralnpu_shift.isa:848 *) ("vevnodd_b_vv", ["vevnodd.b.vv"; "%vd, %vs1, %vs2"]);
  (* coralnpu_shift.isa:866 *) ("vevnodd_b_vx", ["vevnodd.b.vx"; "%vd, %vs1, %vs2"]);
  (* coralnpu_shift.isa:851 *) ("vevnodd_b_vv_m", ["vevnodd.b.vv.m"; "%vd, %vs1, %vs2"]);
  (* coralnpu_shift.isa:869 *) ("vevnodd_b_vx_m", ["vevnodd.b.vx.m"; "%vd, %vs1, %vs2"]);
  (* coralnpu_shift.isa:854 *) ("vevnodd_h_vv", ["vevnodd.h.vv"; "%vd, %vs1, %vs2"]);
  (* coralnpu_shift.isa:872 *) ("vevnodd_h_vx", ["vevnodd.h.vx"; "%vd, %vs1, %vs2"]);
  (* coralnpu_shift.isa:857 *) ("vevnodd_h_vv_m", ["vevnodd.h.vv.m"; "%vd, %vs1, %vs2"]);
  (* coralnpu_shift.isa:875 *) ("vevnodd_h_vx_m", ["vevnodd.h.vx.m"; "%vd, %vs1, %vs2"]);
  (* coralnpu_shift.isa:860 *) ("vevnodd_w_vv", ["vevnodd.w.vv"; "%vd, %vs1, %vs2"]);
  (* coralnpu_shift.isa:878 *) ("vevnodd_w_vx", ["vevnodd.w.vx"; "%vd, %vs1, %vs2"]);
  (* coralnpu_shift.isa:863 *) ("vevnodd_w_vv_m", ["vevnodd.w.vv.m"; "%vd, %vs1, %vs2"]);
  (* coralnpu_shift.isa:881 *) ("vevnodd_w_vx_m", ["vevnodd.w.vx.m"; "%vd, %vs1, %vs2"]);
  (* coralnpu_shift.isa:886 *) ("vzip_b_vv", ["vzip.b.vv"; "%vd, %vs1, %vs2"]);
  (* coralnpu_shift.isa:904 *) ("vzip_b_vx", ["vzip.b.vx"; "%vd, %vs1, %vs2"]);
  (* coralnpu_shift.isa:889 *) ("vzip_b_vv_m", ["vzip.b.vv.m"; "%vd, %vs1, %vs2"]);
  (* coralnpu_shift.isa:907 *) ("vzip_b_vx_m", ["vzip.b.vx.m"; "%vd, %vs1, %vs2"]);
  (* coralnpu_shift.isa:892 *) ("vzip_h_vv", ["vzip.h.vv"; "%vd, %vs1, %vs2"]);
  (* coralnpu_shift.isa:910 *) ("vzip_h_vx", ["vzip.h.vx"; "%vd, %vs1, %vs2"]);
  (* coralnpu_shift.isa:895 *) ("vzip_h_vv_m", ["vzip.h.vv.m"; "%vd, %vs1, %vs2"]);
  (* coralnpu_shift.isa:913 *) ("vzip_h_vx_m", ["vzip.h.vx.m"; "%vd, %vs1, %vs2"]);
  (* coralnpu_shift.isa:898 *) ("vzip_w_vv", ["vzip.w.vv"; "%vd, %vs1, %vs2"]);
  (* coralnpu_shift.isa:916 *) ("vzip_w_vx", ["vzip.w.vx"; "%vd, %vs1, %vs2"]);
  (* coralnpu_shift.isa:901 *) ("vzip_w_vv_m", ["vzip.w.vv.m"; "%vd, %vs1, %vs2"]);
  (* coralnpu_shift.isa:919 *) ("vzip_w_vx_m", ["vzip.w.vx.m"; "%vd, %vs1, %vs2"])
].
