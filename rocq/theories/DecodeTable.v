(** * The instruction tables

    Generated by /verif/tools/gen_decode.py; do not edit.  One row per
    encoding, with the lines of /repo/sim it comes from. *)
From Verif Require Import DecodeTypes.
From Coq Require Import String List.
Import ListNotations.
Open Scope string_scope.

Definition tab_GInst : list entry := [
  (* coralnpu_base.bin_fmt:5 coralnpu_base.isa:61 *)
  E "lui" GInst FU [Ceq "opcode" 55]
    [SImm "U_imm20"] [DRd] [] (SmScalar "&mpact::sim::riscv::RV32::RiscVILui");
  (* coralnpu_base.bin_fmt:6 coralnpu_base.isa:65 *)
  E "auipc" GInst FU [Ceq "opcode" 23]
    [SImm "U_imm20"] [DRd] [] (SmScalar "&mpact::sim::riscv::RV32::RiscVIAuipc");
  (* coralnpu_base.bin_fmt:7 coralnpu_base.isa:115 *)
  E "jal" GInst FJ [Cne "rd" 0; Ceq "opcode" 111]
    [SImm "J_imm20"] [DNextPc; DRd] [] (SmScalar "&mpact::sim::riscv::RV32::RiscVIJal");
  (* coralnpu_base.bin_fmt:8 coralnpu_base.isa:123 *)
  E "j" GInst FJ [Ceq "rd" 0; Ceq "opcode" 111]
    [SImm "J_imm20"] [DNextPc; DRd] [] (SmScalar "&mpact::sim::riscv::RV32::RiscVIJal");
  (* coralnpu_base.bin_fmt:9 coralnpu_base.isa:119 *)
  E "jalr" GInst FI [Cne "rd" 0; Ceq "func3" 0; Ceq "opcode" 103]
    [SRs1; SImm "J_imm12"] [DNextPc; DRd] [] (SmScalar "&mpact::sim::riscv::RV32::RiscVIJalr");
  (* coralnpu_base.bin_fmt:10 coralnpu_base.isa:127 *)
  E "jr" GInst FI [Ceq "rd" 0; Cne "rs1" 1; Ceq "func3" 0; Ceq "opcode" 103]
    [SRs1; SImm "J_imm12"] [DNextPc; DRd] [] (SmScalar "&mpact::sim::riscv::RV32::RiscVIJalr");
  (* coralnpu_base.bin_fmt:11 coralnpu_base.isa:131 *)
  E "ret" GInst FI [Ceq "rd" 0; Ceq "rs1" 1; Ceq "imm12" 0; Ceq "func3" 0; Ceq "opcode" 103]
    [SRs1; SImm "J_imm12"] [DNextPc; DRd] [] (SmScalar "&mpact::sim::riscv::RV32::RiscVIJalr");
  (* coralnpu_base.bin_fmt:12 coralnpu_base.isa:135 *)
  E "beq" GInst FB [Ceq "func3" 0; Ceq "opcode" 99]
    [SRs1; SRs2; SImm "B_imm12"] [DNextPc] [] (SmScalar "&mpact::sim::riscv::RV32::RiscVIBeq");
  (* coralnpu_base.bin_fmt:13 coralnpu_base.isa:139 *)
  E "bne" GInst FB [Ceq "func3" 1; Ceq "opcode" 99]
    [SRs1; SRs2; SImm "B_imm12"] [DNextPc] [] (SmScalar "&mpact::sim::riscv::RV32::RiscVIBne");
  (* coralnpu_base.bin_fmt:14 coralnpu_base.isa:143 *)
  E "blt" GInst FB [Ceq "func3" 4; Ceq "opcode" 99]
    [SRs1; SRs2; SImm "B_imm12"] [DNextPc] [] (SmScalar "&mpact::sim::riscv::RV32::RiscVIBlt");
  (* coralnpu_base.bin_fmt:15 coralnpu_base.isa:151 *)
  E "bge" GInst FB [Ceq "func3" 5; Ceq "opcode" 99]
    [SRs1; SRs2; SImm "B_imm12"] [DNextPc] [] (SmScalar "&mpact::sim::riscv::RV32::RiscVIBge");
  (* coralnpu_base.bin_fmt:16 coralnpu_base.isa:147 *)
  E "bltu" GInst FB [Ceq "func3" 6; Ceq "opcode" 99]
    [SRs1; SRs2; SImm "B_imm12"] [DNextPc] [] (SmScalar "&mpact::sim::riscv::RV32::RiscVIBltu");
  (* coralnpu_base.bin_fmt:17 coralnpu_base.isa:155 *)
  E "bgeu" GInst FB [Ceq "func3" 7; Ceq "opcode" 99]
    [SRs1; SRs2; SImm "B_imm12"] [DNextPc] [] (SmScalar "&mpact::sim::riscv::RV32::RiscVIBgeu");
  (* coralnpu_base.bin_fmt:18 coralnpu_base.isa:171 *)
  E "lb" GInst FB [Ceq "func3" 0; Ceq "opcode" 3]
    [SRs1; SImm "I_imm12"] [] [DRd] (SmScalar "&mpact::sim::riscv::RV32::RiscVILb");
  (* coralnpu_base.bin_fmt:19 coralnpu_base.isa:163 *)
  E "lh" GInst FB [Ceq "func3" 1; Ceq "opcode" 3]
    [SRs1; SImm "I_imm12"] [] [DRd] (SmScalar "&mpact::sim::riscv::RV32::RiscVILh");
  (* coralnpu_base.bin_fmt:20 coralnpu_base.isa:21 *)
  E "li" GInst FI [Cne "rd" 0; Ceq "rs1" 0; Ceq "func3" 0; Ceq "opcode" 19]
    [SRs1; SImm "I_imm12"] [DRd] [] (SmScalar "&mpact::sim::riscv::RV32::RiscVIAdd");
  (* coralnpu_base.bin_fmt:21 coralnpu_base.isa:159 *)
  E "lw" GInst FB [Ceq "func3" 2; Ceq "opcode" 3]
    [SRs1; SImm "I_imm12"] [] [DRd] (SmScalar "&mpact::sim::riscv::RV32::RiscVILw");
  (* coralnpu_base.bin_fmt:22 coralnpu_base.isa:175 *)
  E "lbu" GInst FB [Ceq "func3" 4; Ceq "opcode" 3]
    [SRs1; SImm "I_imm12"] [] [DRd] (SmScalar "&mpact::sim::riscv::RV32::RiscVILbu");
  (* coralnpu_base.bin_fmt:23 coralnpu_base.isa:167 *)
  E "lhu" GInst FB [Ceq "func3" 5; Ceq "opcode" 3]
    [SRs1; SImm "I_imm12"] [] [DRd] (SmScalar "&mpact::sim::riscv::RV32::RiscVILhu");
  (* coralnpu_base.bin_fmt:24 coralnpu_base.isa:25 *)
  E "mv" GInst FI [Cne "rs1" 0; Ceq "imm12" 0; Ceq "func3" 0; Ceq "opcode" 19]
    [SRs1; SImm "I_imm12"] [DRd] [] (SmScalar "&mpact::sim::riscv::RV32::RiscVIAdd");
  (* coralnpu_base.bin_fmt:25 coralnpu_base.isa:109 *)
  E "nop" GInst FI [Ceq "rd" 0; Ceq "rs1" 0; Ceq "imm12" 0; Ceq "func3" 0; Ceq "opcode" 19]
    [] [] [] (SmScalar "&mpact::sim::riscv::RiscVINop");
  (* coralnpu_base.bin_fmt:26 coralnpu_base.isa:187 *)
  E "sb" GInst FS [Ceq "func3" 0; Ceq "opcode" 35]
    [SRs1; SImm "S_imm12"; SRs2] [] [] (SmScalar "&coralnpu::sim::CoralNPUIStore<uint8_t>");
  (* coralnpu_base.bin_fmt:27 coralnpu_base.isa:183 *)
  E "sh" GInst FS [Ceq "func3" 1; Ceq "opcode" 35]
    [SRs1; SImm "S_imm12"; SRs2] [] [] (SmScalar "&coralnpu::sim::CoralNPUIStore<uint16_t>");
  (* coralnpu_base.bin_fmt:28 coralnpu_base.isa:179 *)
  E "sw" GInst FS [Ceq "func3" 2; Ceq "opcode" 35]
    [SRs1; SImm "S_imm12"; SRs2] [] [] (SmScalar "&coralnpu::sim::CoralNPUIStore<uint32_t>");
  (* coralnpu_base.bin_fmt:29 coralnpu_base.isa:17 *)
  E "addi" GInst FI [Cne "rs1" 0; Cne "imm12" 0; Ceq "func3" 0; Ceq "opcode" 19]
    [SRs1; SImm "I_imm12"] [DRd] [] (SmScalar "&mpact::sim::riscv::RV32::RiscVIAdd");
  (* coralnpu_base.bin_fmt:30 coralnpu_base.isa:29 *)
  E "slti" GInst FI [Ceq "func3" 2; Ceq "opcode" 19]
    [SRs1; SImm "I_imm12"] [DRd] [] (SmScalar "&mpact::sim::riscv::RV32::RiscVISlt");
  (* coralnpu_base.bin_fmt:31 coralnpu_base.isa:33 *)
  E "sltiu" GInst FI [Ceq "func3" 3; Ceq "opcode" 19]
    [SRs1; SImm "I_imm12"] [DRd] [] (SmScalar "&mpact::sim::riscv::RV32::RiscVISltu");
  (* coralnpu_base.bin_fmt:32 coralnpu_base.isa:45 *)
  E "xori" GInst FI [Ceq "func3" 4; Ceq "opcode" 19]
    [SRs1; SImm "I_imm12"] [DRd] [] (SmScalar "&mpact::sim::riscv::RV32::RiscVIXor");
  (* coralnpu_base.bin_fmt:33 coralnpu_base.isa:41 *)
  E "ori" GInst FI [Ceq "func3" 6; Ceq "opcode" 19]
    [SRs1; SImm "I_imm12"] [DRd] [] (SmScalar "&mpact::sim::riscv::RV32::RiscVIOr");
  (* coralnpu_base.bin_fmt:34 coralnpu_base.isa:37 *)
  E "andi" GInst FI [Ceq "func3" 7; Ceq "opcode" 19]
    [SRs1; SImm "I_imm12"] [DRd] [] (SmScalar "&mpact::sim::riscv::RV32::RiscVIAnd");
  (* coralnpu_base.bin_fmt:35 coralnpu_base.isa:49 *)
  E "slli" GInst FR [Ceq "func7" 0; Ceq "func3" 1; Ceq "opcode" 19]
    [SRs1; SImm "I_uimm5"] [DRd] [] (SmScalar "&mpact::sim::riscv::RV32::RiscVISll");
  (* coralnpu_base.bin_fmt:36 coralnpu_base.isa:53 *)
  E "srli" GInst FR [Ceq "func7" 0; Ceq "func3" 5; Ceq "opcode" 19]
    [SRs1; SImm "I_uimm5"] [DRd] [] (SmScalar "&mpact::sim::riscv::RV32::RiscVISrl");
  (* coralnpu_base.bin_fmt:37 coralnpu_base.isa:57 *)
  E "srai" GInst FR [Ceq "func7" 32; Ceq "func3" 5; Ceq "opcode" 19]
    [SRs1; SImm "I_uimm5"] [DRd] [] (SmScalar "&mpact::sim::riscv::RV32::RiscVISra");
  (* coralnpu_base.bin_fmt:38 coralnpu_base.isa:69 *)
  E "add" GInst FR [Ceq "func7" 0; Ceq "func3" 0; Ceq "opcode" 51]
    [SRs1; SRs2] [DRd] [] (SmScalar "&mpact::sim::riscv::RV32::RiscVIAdd");
  (* coralnpu_base.bin_fmt:39 coralnpu_base.isa:101 *)
  E "sub" GInst FR [Ceq "func7" 32; Ceq "func3" 0; Ceq "opcode" 51]
    [SRs1; SRs2] [DRd] [] (SmScalar "&mpact::sim::riscv::RV32::RiscVISub");
  (* coralnpu_base.bin_fmt:40 coralnpu_base.isa:93 *)
  E "sll" GInst FR [Ceq "func7" 0; Ceq "func3" 1; Ceq "opcode" 51]
    [SRs1; SRs2] [DRd] [] (SmScalar "&mpact::sim::riscv::RV32::RiscVISll");
  (* coralnpu_base.bin_fmt:41 coralnpu_base.isa:73 *)
  E "slt" GInst FR [Ceq "func7" 0; Ceq "func3" 2; Ceq "opcode" 51]
    [SRs1; SRs2] [DRd] [] (SmScalar "&mpact::sim::riscv::RV32::RiscVISlt");
  (* coralnpu_base.bin_fmt:42 coralnpu_base.isa:77 *)
  E "sltu" GInst FR [Ceq "func7" 0; Ceq "func3" 3; Ceq "opcode" 51]
    [SRs1; SRs2] [DRd] [] (SmScalar "&mpact::sim::riscv::RV32::RiscVISltu");
  (* coralnpu_base.bin_fmt:43 coralnpu_base.isa:89 *)
  E "xor" GInst FR [Ceq "func7" 0; Ceq "func3" 4; Ceq "opcode" 51]
    [SRs1; SRs2] [DRd] [] (SmScalar "&mpact::sim::riscv::RV32::RiscVIXor");
  (* coralnpu_base.bin_fmt:44 coralnpu_base.isa:97 *)
  E "srl" GInst FR [Ceq "func7" 0; Ceq "func3" 5; Ceq "opcode" 51]
    [SRs1; SRs2] [DRd] [] (SmScalar "&mpact::sim::riscv::RV32::RiscVISrl");
  (* coralnpu_base.bin_fmt:45 coralnpu_base.isa:105 *)
  E "sra" GInst FR [Ceq "func7" 32; Ceq "func3" 5; Ceq "opcode" 51]
    [SRs1; SRs2] [DRd] [] (SmScalar "&mpact::sim::riscv::RV32::RiscVISra");
  (* coralnpu_base.bin_fmt:46 coralnpu_base.isa:85 *)
  E "or" GInst FR [Ceq "func7" 0; Ceq "func3" 6; Ceq "opcode" 51]
    [SRs1; SRs2] [DRd] [] (SmScalar "&mpact::sim::riscv::RV32::RiscVIOr");
  (* coralnpu_base.bin_fmt:47 coralnpu_base.isa:81 *)
  E "and" GInst FR [Ceq "func7" 0; Ceq "func3" 7; Ceq "opcode" 51]
    [SRs1; SRs2] [DRd] [] (SmScalar "&mpact::sim::riscv::RV32::RiscVIAnd");
  (* coralnpu_base.bin_fmt:48 coralnpu_base.isa:191 *)
  E "fence" GInst FFence [Ceq "func3" 0; Ceq "opcode" 15]
    [SImm "I_imm12"] [] [] (SmScalar "&mpact::sim::riscv::RiscVIFence");
  (* coralnpu_base.bin_fmt:49 coralnpu_base.isa:194 *)
  E "ecall" GInst FInst32 [Ceq "bits" 0; Ceq "opcode" 115]
    [] [] [] (SmScalar "&mpact::sim::riscv::RiscVIEcall");
  (* coralnpu_base.bin_fmt:50 coralnpu_base.isa:197 *)
  E "ebreak" GInst FInst32 [Ceq "bits" 8192; Ceq "opcode" 115]
    [] [] [] (SmScalar "&mpact::sim::riscv::RiscVIEbreak");
  (* coralnpu_base.bin_fmt:52 coralnpu_base.isa:330 *)
  E "fencei" GInst FI [Ceq "func3" 1; Ceq "opcode" 15]
    [SImm "I_imm12"] [] [] (SmScalar "&mpact::sim::riscv::RiscVZFencei");
  (* coralnpu_base.bin_fmt:54 coralnpu_base.isa:212 *)
  E "mul" GInst FR [Ceq "func7" 1; Ceq "func3" 0; Ceq "opcode" 51]
    [SRs1; SRs2] [DRd] [] (SmScalar "&mpact::sim::riscv::RV32::MMul");
  (* coralnpu_base.bin_fmt:55 coralnpu_base.isa:216 *)
  E "mulh" GInst FR [Ceq "func7" 1; Ceq "func3" 1; Ceq "opcode" 51]
    [SRs1; SRs2] [DRd] [] (SmScalar "&mpact::sim::riscv::RV32::MMulh");
  (* coralnpu_base.bin_fmt:56 coralnpu_base.isa:224 *)
  E "mulhsu" GInst FR [Ceq "func7" 1; Ceq "func3" 2; Ceq "opcode" 51]
    [SRs1; SRs2] [DRd] [] (SmScalar "&mpact::sim::riscv::RV32::MMulhsu");
  (* coralnpu_base.bin_fmt:57 coralnpu_base.isa:220 *)
  E "mulhu" GInst FR [Ceq "func7" 1; Ceq "func3" 3; Ceq "opcode" 51]
    [SRs1; SRs2] [DRd] [] (SmScalar "&mpact::sim::riscv::RV32::MMulhu");
  (* coralnpu_base.bin_fmt:58 coralnpu_base.isa:228 *)
  E "div" GInst FR [Ceq "func7" 1; Ceq "func3" 4; Ceq "opcode" 51]
    [SRs1; SRs2] [DRd] [] (SmScalar "&mpact::sim::riscv::RV32::MDiv");
  (* coralnpu_base.bin_fmt:59 coralnpu_base.isa:232 *)
  E "divu" GInst FR [Ceq "func7" 1; Ceq "func3" 5; Ceq "opcode" 51]
    [SRs1; SRs2] [DRd] [] (SmScalar "&mpact::sim::riscv::RV32::MDivu");
  (* coralnpu_base.bin_fmt:60 coralnpu_base.isa:236 *)
  E "rem" GInst FR [Ceq "func7" 1; Ceq "func3" 6; Ceq "opcode" 51]
    [SRs1; SRs2] [DRd] [] (SmScalar "&mpact::sim::riscv::RV32::MRem");
  (* coralnpu_base.bin_fmt:61 coralnpu_base.isa:240 *)
  E "remu" GInst FR [Ceq "func7" 1; Ceq "func3" 7; Ceq "opcode" 51]
    [SRs1; SRs2] [DRd] [] (SmScalar "&mpact::sim::riscv::RV32::MRemu");
  (* coralnpu_base.bin_fmt:63 coralnpu_base.isa:255 *)
  E "csrrw" GInst FI [Ceq "func3" 1; Cne "rd" 0; Ceq "opcode" 115]
    [SRs1; SImm "csr"] [DRd; DCsr] [] (SmScalar "&mpact::sim::riscv::RV32::RiscVZiCsrrw");
  (* coralnpu_base.bin_fmt:64 coralnpu_base.isa:259 *)
  E "csrrs" GInst FI [Ceq "func3" 2; Cne "rs1" 0; Cne "rd" 0; Ceq "opcode" 115]
    [SRs1; SImm "csr"] [DRd; DCsr] [] (SmScalar "&mpact::sim::riscv::RV32::RiscVZiCsrrs");
  (* coralnpu_base.bin_fmt:65 coralnpu_base.isa:263 *)
  E "csrrc" GInst FI [Ceq "func3" 3; Cne "rs1" 0; Cne "rd" 0; Ceq "opcode" 115]
    [SRs1; SImm "csr"] [DRd; DCsr] [] (SmScalar "&mpact::sim::riscv::RV32::RiscVZiCsrrc");
  (* coralnpu_base.bin_fmt:66 coralnpu_base.isa:267 *)
  E "csrrs_nr" GInst FI [Ceq "func3" 2; Cne "rs1" 0; Ceq "rd" 0; Ceq "opcode" 115]
    [SRs1; SImm "csr"] [DRd; DCsr] [] (SmScalar "&mpact::sim::riscv::RV32::RiscVZiCsrrs");
  (* coralnpu_base.bin_fmt:67 coralnpu_base.isa:271 *)
  E "csrrc_nr" GInst FI [Ceq "func3" 3; Cne "rs1" 0; Ceq "rd" 0; Ceq "opcode" 115]
    [SRs1; SImm "csr"] [DRd; DCsr] [] (SmScalar "&mpact::sim::riscv::RV32::RiscVZiCsrrc");
  (* coralnpu_base.bin_fmt:68 coralnpu_base.isa:275 *)
  E "csrrw_nr" GInst FI [Ceq "func3" 1; Ceq "rd" 0; Ceq "opcode" 115]
    [SRs1; SImm "csr"] [DCsr] [] (SmScalar "&mpact::sim::riscv::RV32::RiscVZiCsrrwNr");
  (* coralnpu_base.bin_fmt:69 coralnpu_base.isa:279 *)
  E "csrrs_nw" GInst FI [Ceq "func3" 2; Ceq "rs1" 0; Ceq "opcode" 115]
    [SImm "csr"] [DRd] [] (SmScalar "&mpact::sim::riscv::RV32::RiscVZiCsrrNw");
  (* coralnpu_base.bin_fmt:70 coralnpu_base.isa:283 *)
  E "csrrc_nw" GInst FI [Ceq "func3" 3; Ceq "rs1" 0; Ceq "opcode" 115]
    [SImm "csr"] [DRd] [] (SmScalar "&mpact::sim::riscv::RV32::RiscVZiCsrrNw");
  (* coralnpu_base.bin_fmt:71 coralnpu_base.isa:287 *)
  E "csrrwi" GInst FI [Ceq "func3" 5; Cne "rd" 0; Ceq "opcode" 115]
    [SImm "CSR_uimm5"; SImm "csr"] [DRd; DCsr] [] (SmScalar "&mpact::sim::riscv::RV32::RiscVZiCsrrw");
  (* coralnpu_base.bin_fmt:72 coralnpu_base.isa:291 *)
  E "csrrsi" GInst FI [Ceq "func3" 6; Cne "rs1" 0; Cne "rd" 0; Ceq "opcode" 115]
    [SImm "CSR_uimm5"; SImm "csr"] [DRd; DCsr] [] (SmScalar "&mpact::sim::riscv::RV32::RiscVZiCsrrs");
  (* coralnpu_base.bin_fmt:73 coralnpu_base.isa:295 *)
  E "csrrci" GInst FI [Ceq "func3" 7; Cne "rs1" 0; Cne "rd" 0; Ceq "opcode" 115]
    [SImm "CSR_uimm5"; SImm "csr"] [DRd; DCsr] [] (SmScalar "&mpact::sim::riscv::RV32::RiscVZiCsrrc");
  (* coralnpu_base.bin_fmt:74 coralnpu_base.isa:299 *)
  E "csrrsi_nr" GInst FI [Ceq "func3" 6; Cne "rs1" 0; Ceq "rd" 0; Ceq "opcode" 115]
    [SImm "CSR_uimm5"; SImm "csr"] [DRd; DCsr] [] (SmScalar "&mpact::sim::riscv::RV32::RiscVZiCsrrs");
  (* coralnpu_base.bin_fmt:75 coralnpu_base.isa:303 *)
  E "csrrci_nr" GInst FI [Ceq "func3" 7; Cne "rs1" 0; Ceq "rd" 0; Ceq "opcode" 115]
    [SImm "CSR_uimm5"; SImm "csr"] [DRd; DCsr] [] (SmScalar "&mpact::sim::riscv::RV32::RiscVZiCsrrc");
  (* coralnpu_base.bin_fmt:76 coralnpu_base.isa:307 *)
  E "csrrwi_nr" GInst FI [Ceq "func3" 5; Ceq "rd" 0; Ceq "opcode" 115]
    [SImm "CSR_uimm5"; SImm "csr"] [DCsr] [] (SmScalar "&mpact::sim::riscv::RV32::RiscVZiCsrrwNr");
  (* coralnpu_base.bin_fmt:77 coralnpu_base.isa:311 *)
  E "csrrsi_nw" GInst FI [Ceq "func3" 6; Ceq "rs1" 0; Ceq "opcode" 115]
    [SImm "csr"] [DRd] [] (SmScalar "&mpact::sim::riscv::RV32::RiscVZiCsrrNw");
  (* coralnpu_base.bin_fmt:78 coralnpu_base.isa:315 *)
  E "csrrci_nw" GInst FI [Ceq "func3" 7; Ceq "rs1" 0; Ceq "opcode" 115]
    [SImm "csr"] [DRd] [] (SmScalar "&mpact::sim::riscv::RV32::RiscVZiCsrrNw");
  (* coralnpu_base.bin_fmt:80 coralnpu_base.isa:345 *)
  E "uret" GInst FInst32 [Ceq "bits" 16384; Ceq "opcode" 115]
    [] [DNextPc] [] (SmScalar "&mpact::sim::riscv::RV32::RiscVPrivURet");
  (* coralnpu_base.bin_fmt:81 coralnpu_base.isa:348 *)
  E "sret" GInst FInst32 [Ceq "bits" 2113536; Ceq "opcode" 115]
    [] [DNextPc] [] (SmScalar "&mpact::sim::riscv::RV32::RiscVPrivSRet");
  (* coralnpu_base.bin_fmt:82 coralnpu_base.isa:351 *)
  E "mret" GInst FInst32 [Ceq "bits" 6307840; Ceq "opcode" 115]
    [] [DNextPc] [] (SmScalar "&mpact::sim::riscv::RV32::RiscVPrivMRet");
  (* coralnpu_base.bin_fmt:83 coralnpu_base.isa:354 *)
  E "wfi" GInst FInst32 [Ceq "bits" 2138112; Ceq "opcode" 115]
    [] [] [] (SmScalar "&mpact::sim::riscv::RiscVPrivWfi");
  (* coralnpu_base.bin_fmt:84 coralnpu_base.isa:357 *)
  E "mpause" GInst FInst32 [Ceq "bits" 1048576; Ceq "opcode" 115]
    [] [] [] (SmScalar "&coralnpu::sim::CoralNPUIMpause");
  (* coralnpu_base.bin_fmt:85 coralnpu_base.isa:363 *)
  E "sfence_vma_zz" GInst FR [Ceq "func7" 9; Ceq "rs2" 0; Ceq "rs1" 0; Ceq "func3" 0; Ceq "rd" 0; Ceq "opcode" 115]
    [SRs1; SRs2] [] [] (SmScalar "&mpact::sim::riscv::RiscVPrivSFenceVmaZZ");
  (* coralnpu_base.bin_fmt:86 coralnpu_base.isa:367 *)
  E "sfence_vma_zn" GInst FR [Ceq "func7" 9; Cne "rs2" 0; Ceq "rs1" 0; Ceq "func3" 0; Ceq "rd" 0; Ceq "opcode" 115]
    [SRs1; SRs2] [] [] (SmScalar "&mpact::sim::riscv::RiscVPrivSFenceVmaZN");
  (* coralnpu_base.bin_fmt:87 coralnpu_base.isa:371 *)
  E "sfence_vma_nz" GInst FR [Ceq "func7" 9; Ceq "rs2" 0; Cne "rs1" 0; Ceq "func3" 0; Ceq "rd" 0; Ceq "opcode" 115]
    [SRs1; SRs2] [] [] (SmScalar "&mpact::sim::riscv::RiscVPrivSFenceVmaNZ");
  (* coralnpu_base.bin_fmt:88 coralnpu_base.isa:375 *)
  E "sfence_vma_nn" GInst FR [Ceq "func7" 9; Cne "rs2" 0; Cne "rs1" 0; Ceq "func3" 0; Ceq "rd" 0; Ceq "opcode" 115]
    [SRs1; SRs2] [] [] (SmScalar "&mpact::sim::riscv::RiscVPrivSFenceVmaNN");
  (* coralnpu_base.bin_fmt:90 coralnpu_memory.isa:14 *)
  E "flushall" GInst FInst32 [Ceq "bits" 4980736; Ceq "opcode" 119]
    [] [] [] (SmScalar "&coralnpu::sim::CoralNPUNopInstruction");
  (* coralnpu_base.bin_fmt:91 coralnpu_memory.isa:17 *)
  E "flushat" GInst FR [Ceq "func7" 19; Ceq "rs2" 0; Cne "rs1" 0; Ceq "func3" 0; Ceq "rd" 0; Ceq "opcode" 119]
    [SRs1] [] [] (SmScalar "&coralnpu::sim::CoralNPUNopInstruction");
  (* coralnpu_base.bin_fmt:93 coralnpu_memory.isa:36 *)
  E "getmaxvl_b" GInst FSys [Ceq "func2" 1; Ceq "m" 0; Ceq "mode" 0; Ceq "rs2" 0; Ceq "rs1" 0; Ceq "func1" 0; Cne "rd" 0; Ceq "opcode" 119]
    [] [DRd] [] (SmGetVl I8 false false false);
  (* coralnpu_base.bin_fmt:94 coralnpu_memory.isa:40 *)
  E "getmaxvl_h" GInst FSys [Ceq "func2" 1; Ceq "m" 0; Ceq "mode" 1; Ceq "rs2" 0; Ceq "rs1" 0; Ceq "func1" 0; Cne "rd" 0; Ceq "opcode" 119]
    [] [DRd] [] (SmGetVl I16 false false false);
  (* coralnpu_base.bin_fmt:95 coralnpu_memory.isa:44 *)
  E "getmaxvl_w" GInst FSys [Ceq "func2" 1; Ceq "m" 0; Ceq "mode" 2; Ceq "rs2" 0; Ceq "rs1" 0; Ceq "func1" 0; Cne "rd" 0; Ceq "opcode" 119]
    [] [DRd] [] (SmGetVl I32 false false false);
  (* coralnpu_base.bin_fmt:96 coralnpu_memory.isa:48 *)
  E "getvl_b_x" GInst FSys [Ceq "func2" 1; Ceq "m" 0; Ceq "mode" 0; Ceq "rs2" 0; Cne "rs1" 0; Ceq "func1" 0; Cne "rd" 0; Ceq "opcode" 119]
    [SRs1] [DRd] [] (SmGetVl I8 false true false);
  (* coralnpu_base.bin_fmt:97 coralnpu_memory.isa:52 *)
  E "getvl_h_x" GInst FSys [Ceq "func2" 1; Ceq "m" 0; Ceq "mode" 1; Ceq "rs2" 0; Cne "rs1" 0; Ceq "func1" 0; Cne "rd" 0; Ceq "opcode" 119]
    [SRs1] [DRd] [] (SmGetVl I16 false true false);
  (* coralnpu_base.bin_fmt:98 coralnpu_memory.isa:56 *)
  E "getvl_w_x" GInst FSys [Ceq "func2" 1; Ceq "m" 0; Ceq "mode" 2; Ceq "rs2" 0; Cne "rs1" 0; Ceq "func1" 0; Cne "rd" 0; Ceq "opcode" 119]
    [SRs1] [DRd] [] (SmGetVl I32 false true false);
  (* coralnpu_base.bin_fmt:99 coralnpu_memory.isa:60 *)
  E "getvl_b_xx" GInst FSys [Ceq "func2" 1; Ceq "m" 0; Ceq "mode" 0; Cne "rs2" 0; Cne "rs1" 0; Ceq "func1" 0; Cne "rd" 0; Ceq "opcode" 119]
    [SRs1; SRs2] [DRd] [] (SmGetVl I8 false true true);
  (* coralnpu_base.bin_fmt:100 coralnpu_memory.isa:64 *)
  E "getvl_h_xx" GInst FSys [Ceq "func2" 1; Ceq "m" 0; Ceq "mode" 1; Cne "rs2" 0; Cne "rs1" 0; Ceq "func1" 0; Cne "rd" 0; Ceq "opcode" 119]
    [SRs1; SRs2] [DRd] [] (SmGetVl I16 false true true);
  (* coralnpu_base.bin_fmt:101 coralnpu_memory.isa:68 *)
  E "getvl_w_xx" GInst FSys [Ceq "func2" 1; Ceq "m" 0; Ceq "mode" 2; Cne "rs2" 0; Cne "rs1" 0; Ceq "func1" 0; Cne "rd" 0; Ceq "opcode" 119]
    [SRs1; SRs2] [DRd] [] (SmGetVl I32 false true true);
  (* coralnpu_base.bin_fmt:102 coralnpu_memory.isa:72 *)
  E "getmaxvl_b_m" GInst FSys [Ceq "func2" 1; Ceq "m" 1; Ceq "mode" 0; Ceq "rs2" 0; Ceq "rs1" 0; Ceq "func1" 0; Cne "rd" 0; Ceq "opcode" 119]
    [] [DRd] [] (SmGetVl I8 true false false);
  (* coralnpu_base.bin_fmt:103 coralnpu_memory.isa:76 *)
  E "getmaxvl_h_m" GInst FSys [Ceq "func2" 1; Ceq "m" 1; Ceq "mode" 1; Ceq "rs2" 0; Ceq "rs1" 0; Ceq "func1" 0; Cne "rd" 0; Ceq "opcode" 119]
    [] [DRd] [] (SmGetVl I16 true false false);
  (* coralnpu_base.bin_fmt:104 coralnpu_memory.isa:80 *)
  E "getmaxvl_w_m" GInst FSys [Ceq "func2" 1; Ceq "m" 1; Ceq "mode" 2; Ceq "rs2" 0; Ceq "rs1" 0; Ceq "func1" 0; Cne "rd" 0; Ceq "opcode" 119]
    [] [DRd] [] (SmGetVl I32 true false false);
  (* coralnpu_base.bin_fmt:105 coralnpu_memory.isa:84 *)
  E "getvl_b_x_m" GInst FSys [Ceq "func2" 1; Ceq "m" 1; Ceq "mode" 0; Ceq "rs2" 0; Cne "rs1" 0; Ceq "func1" 0; Cne "rd" 0; Ceq "opcode" 119]
    [SRs1] [DRd] [] (SmGetVl I8 true true false);
  (* coralnpu_base.bin_fmt:106 coralnpu_memory.isa:88 *)
  E "getvl_h_x_m" GInst FSys [Ceq "func2" 1; Ceq "m" 1; Ceq "mode" 1; Ceq "rs2" 0; Cne "rs1" 0; Ceq "func1" 0; Cne "rd" 0; Ceq "opcode" 119]
    [SRs1] [DRd] [] (SmGetVl I16 true true false);
  (* coralnpu_base.bin_fmt:107 coralnpu_memory.isa:92 *)
  E "getvl_w_x_m" GInst FSys [Ceq "func2" 1; Ceq "m" 1; Ceq "mode" 2; Ceq "rs2" 0; Cne "rs1" 0; Ceq "func1" 0; Cne "rd" 0; Ceq "opcode" 119]
    [SRs1] [DRd] [] (SmGetVl I32 true true false);
  (* coralnpu_base.bin_fmt:108 coralnpu_memory.isa:96 *)
  E "getvl_b_xx_m" GInst FSys [Ceq "func2" 1; Ceq "m" 1; Ceq "mode" 0; Cne "rs2" 0; Cne "rs1" 0; Ceq "func1" 0; Cne "rd" 0; Ceq "opcode" 119]
    [SRs1; SRs2] [DRd] [] (SmGetVl I8 true true true);
  (* coralnpu_base.bin_fmt:109 coralnpu_memory.isa:100 *)
  E "getvl_h_xx_m" GInst FSys [Ceq "func2" 1; Ceq "m" 1; Ceq "mode" 1; Cne "rs2" 0; Cne "rs1" 0; Ceq "func1" 0; Cne "rd" 0; Ceq "opcode" 119]
    [SRs1; SRs2] [DRd] [] (SmGetVl I16 true true true);
  (* coralnpu_base.bin_fmt:110 coralnpu_memory.isa:104 *)
  E "getvl_w_xx_m" GInst FSys [Ceq "func2" 1; Ceq "m" 1; Ceq "mode" 2; Cne "rs2" 0; Cne "rs1" 0; Ceq "func1" 0; Cne "rd" 0; Ceq "opcode" 119]
    [SRs1; SRs2] [DRd] [] (SmGetVl I32 true true true);
  (* coralnpu_base.bin_fmt:112 coralnpu_base.isa:391 *)
  E "flog" GInst FSys [Ceq "func2" 7; Ceq "m" 1; Ceq "mode" 0; Ceq "rs2" 0; Cne "rs1" 0; Ceq "func1" 0; Ceq "rd" 0; Ceq "opcode" 119]
    [SRs1] [] [] (SmScalar "absl::bind_front(&coralnpu::sim::CoralNPULogInstruction,0)");
  (* coralnpu_base.bin_fmt:113 coralnpu_base.isa:395 *)
  E "slog" GInst FSys [Ceq "func2" 7; Ceq "m" 1; Ceq "mode" 0; Ceq "rs2" 0; Cne "rs1" 0; Ceq "func1" 1; Ceq "rd" 0; Ceq "opcode" 119]
    [SRs1] [] [] (SmScalar "absl::bind_front(&coralnpu::sim::CoralNPULogInstruction,1)");
  (* coralnpu_base.bin_fmt:114 coralnpu_base.isa:399 *)
  E "clog" GInst FSys [Ceq "func2" 7; Ceq "m" 1; Ceq "mode" 0; Ceq "rs2" 0; Cne "rs1" 0; Ceq "func1" 2; Ceq "rd" 0; Ceq "opcode" 119]
    [SRs1] [] [] (SmScalar "absl::bind_front(&coralnpu::sim::CoralNPULogInstruction,2)");
  (* coralnpu_base.bin_fmt:115 coralnpu_base.isa:403 *)
  E "klog" GInst FSys [Ceq "func2" 7; Ceq "m" 1; Ceq "mode" 0; Ceq "rs2" 0; Cne "rs1" 0; Ceq "func1" 3; Ceq "rd" 0; Ceq "opcode" 119]
    [SRs1] [] [] (SmScalar "absl::bind_front(&coralnpu::sim::CoralNPULogInstruction,3)")
].

Definition tab_GArith : list entry := [
  (* coralnpu_arith.bin_fmt:4 coralnpu_arith.isa:20 *)
  E "vadd_b_vv" GArith FV2 [Ceq "func2" 0; Ceq "sz" 0; Ceq "m" 0; Ceq "func1" 0; Ceq "form" 0]
    [SVs1; SVs2] [DVd] [] (SmVec (VEl OAdd I8) false false);
  (* coralnpu_arith.bin_fmt:5 coralnpu_arith.isa:38 *)
  E "vadd_b_vx" GArith FV2 [Ceq "func2" 0; Ceq "sz" 0; Ceq "m" 0; Ceq "func1" 0; Ceq "form" 2]
    [SVs1; SVs2] [DVd] [] (SmVec (VEl OAdd I8) true false);
  (* coralnpu_arith.bin_fmt:6 coralnpu_arith.isa:23 *)
  E "vadd_b_vv_m" GArith FV2 [Ceq "func2" 0; Ceq "sz" 0; Ceq "m" 1; Ceq "func1" 0; Ceq "form" 0]
    [SVs1; SVs2] [DVd] [] (SmVec (VEl OAdd I8) false true);
  (* coralnpu_arith.bin_fmt:7 coralnpu_arith.isa:41 *)
  E "vadd_b_vx_m" GArith FV2 [Ceq "func2" 0; Ceq "sz" 0; Ceq "m" 1; Ceq "func1" 0; Ceq "form" 2]
    [SVs1; SVs2] [DVd] [] (SmVec (VEl OAdd I8) true true);
  (* coralnpu_arith.bin_fmt:8 coralnpu_arith.isa:26 *)
  E "vadd_h_vv" GArith FV2 [Ceq "func2" 0; Ceq "sz" 1; Ceq "m" 0; Ceq "func1" 0; Ceq "form" 0]
    [SVs1; SVs2] [DVd] [] (SmVec (VEl OAdd I16) false false);
  (* coralnpu_arith.bin_fmt:9 coralnpu_arith.isa:44 *)
  E "vadd_h_vx" GArith FV2 [Ceq "func2" 0; Ceq "sz" 1; Ceq "m" 0; Ceq "func1" 0; Ceq "form" 2]
    [SVs1; SVs2] [DVd] [] (SmVec (VEl OAdd I16) true false);
  (* coralnpu_arith.bin_fmt:10 coralnpu_arith.isa:29 *)
  E "vadd_h_vv_m" GArith FV2 [Ceq "func2" 0; Ceq "sz" 1; Ceq "m" 1; Ceq "func1" 0; Ceq "form" 0]
    [SVs1; SVs2] [DVd] [] (SmVec (VEl OAdd I16) false true);
  (* coralnpu_arith.bin_fmt:11 coralnpu_arith.isa:47 *)
  E "vadd_h_vx_m" GArith FV2 [Ceq "func2" 0; Ceq "sz" 1; Ceq "m" 1; Ceq "func1" 0; Ceq "form" 2]
    [SVs1; SVs2] [DVd] [] (SmVec (VEl OAdd I16) true true);
  (* coralnpu_arith.bin_fmt:12 coralnpu_arith.isa:32 *)
  E "vadd_w_vv" GArith FV2 [Ceq "func2" 0; Ceq "sz" 2; Ceq "m" 0; Ceq "func1" 0; Ceq "form" 0]
    [SVs1; SVs2] [DVd] [] (SmVec (VEl OAdd I32) false false);
  (* coralnpu_arith.bin_fmt:13 coralnpu_arith.isa:50 *)
  E "vadd_w_vx" GArith FV2 [Ceq "func2" 0; Ceq "sz" 2; Ceq "m" 0; Ceq "func1" 0; Ceq "form" 2]
    [SVs1; SVs2] [DVd] [] (SmVec (VEl OAdd I32) true false);
  (* coralnpu_arith.bin_fmt:14 coralnpu_arith.isa:35 *)
  E "vadd_w_vv_m" GArith FV2 [Ceq "func2" 0; Ceq "sz" 2; Ceq "m" 1; Ceq "func1" 0; Ceq "form" 0]
    [SVs1; SVs2] [DVd] [] (SmVec (VEl OAdd I32) false true);
  (* coralnpu_arith.bin_fmt:15 coralnpu_arith.isa:53 *)
  E "vadd_w_vx_m" GArith FV2 [Ceq "func2" 0; Ceq "sz" 2; Ceq "m" 1; Ceq "func1" 0; Ceq "form" 2]
    [SVs1; SVs2] [DVd] [] (SmVec (VEl OAdd I32) true true);
  (* coralnpu_arith.bin_fmt:18 coralnpu_arith.isa:57 *)
  E "vsub_b_vv" GArith FV2 [Ceq "func2" 1; Ceq "sz" 0; Ceq "m" 0; Ceq "func1" 0; Ceq "form" 0]
    [SVs1; SVs2] [DVd] [] (SmVec (VEl OSub I8) false false);
  (* coralnpu_arith.bin_fmt:19 coralnpu_arith.isa:75 *)
  E "vsub_b_vx" GArith FV2 [Ceq "func2" 1; Ceq "sz" 0; Ceq "m" 0; Ceq "func1" 0; Ceq "form" 2]
    [SVs1; SVs2] [DVd] [] (SmVec (VEl OSub I8) true false);
  (* coralnpu_arith.bin_fmt:20 coralnpu_arith.isa:60 *)
  E "vsub_b_vv_m" GArith FV2 [Ceq "func2" 1; Ceq "sz" 0; Ceq "m" 1; Ceq "func1" 0; Ceq "form" 0]
    [SVs1; SVs2] [DVd] [] (SmVec (VEl OSub I8) false true);
  (* coralnpu_arith.bin_fmt:21 coralnpu_arith.isa:78 *)
  E "vsub_b_vx_m" GArith FV2 [Ceq "func2" 1; Ceq "sz" 0; Ceq "m" 1; Ceq "func1" 0; Ceq "form" 2]
    [SVs1; SVs2] [DVd] [] (SmVec (VEl OSub I8) true true);
  (* coralnpu_arith.bin_fmt:22 coralnpu_arith.isa:63 *)
  E "vsub_h_vv" GArith FV2 [Ceq "func2" 1; Ceq "sz" 1; Ceq "m" 0; Ceq "func1" 0; Ceq "form" 0]
    [SVs1; SVs2] [DVd] [] (SmVec (VEl OSub I16) false false);
  (* coralnpu_arith.bin_fmt:23 coralnpu_arith.isa:81 *)
  E "vsub_h_vx" GArith FV2 [Ceq "func2" 1; Ceq "sz" 1; Ceq "m" 0; Ceq "func1" 0; Ceq "form" 2]
    [SVs1; SVs2] [DVd] [] (SmVec (VEl OSub I16) true false);
  (* coralnpu_arith.bin_fmt:24 coralnpu_arith.isa:66 *)
  E "vsub_h_vv_m" GArith FV2 [Ceq "func2" 1; Ceq "sz" 1; Ceq "m" 1; Ceq "func1" 0; Ceq "form" 0]
    [SVs1; SVs2] [DVd] [] (SmVec (VEl OSub I16) false true);
  (* coralnpu_arith.bin_fmt:25 coralnpu_arith.isa:84 *)
  E "vsub_h_vx_m" GArith FV2 [Ceq "func2" 1; Ceq "sz" 1; Ceq "m" 1; Ceq "func1" 0; Ceq "form" 2]
    [SVs1; SVs2] [DVd] [] (SmVec (VEl OSub I16) true true);
  (* coralnpu_arith.bin_fmt:26 coralnpu_arith.isa:69 *)
  E "vsub_w_vv" GArith FV2 [Ceq "func2" 1; Ceq "sz" 2; Ceq "m" 0; Ceq "func1" 0; Ceq "form" 0]
    [SVs1; SVs2] [DVd] [] (SmVec (VEl OSub I32) false false);
  (* coralnpu_arith.bin_fmt:27 coralnpu_arith.isa:87 *)
  E "vsub_w_vx" GArith FV2 [Ceq "func2" 1; Ceq "sz" 2; Ceq "m" 0; Ceq "func1" 0; Ceq "form" 2]
    [SVs1; SVs2] [DVd] [] (SmVec (VEl OSub I32) true false);
  (* coralnpu_arith.bin_fmt:28 coralnpu_arith.isa:72 *)
  E "vsub_w_vv_m" GArith FV2 [Ceq "func2" 1; Ceq "sz" 2; Ceq "m" 1; Ceq "func1" 0; Ceq "form" 0]
    [SVs1; SVs2] [DVd] [] (SmVec (VEl OSub I32) false true);
  (* coralnpu_arith.bin_fmt:29 coralnpu_arith.isa:90 *)
  E "vsub_w_vx_m" GArith FV2 [Ceq "func2" 1; Ceq "sz" 2; Ceq "m" 1; Ceq "func1" 0; Ceq "form" 2]
    [SVs1; SVs2] [DVd] [] (SmVec (VEl OSub I32) true true);
  (* coralnpu_arith.bin_fmt:32 coralnpu_arith.isa:94 *)
  E "vrsub_b_vv" GArith FV2 [Ceq "func2" 2; Ceq "sz" 0; Ceq "m" 0; Ceq "func1" 0; Ceq "form" 0]
    [SVs1; SVs2] [DVd] [] (SmVec (VEl ORsub I8) false false);
  (* coralnpu_arith.bin_fmt:33 coralnpu_arith.isa:112 *)
  E "vrsub_b_vx" GArith FV2 [Ceq "func2" 2; Ceq "sz" 0; Ceq "m" 0; Ceq "func1" 0; Ceq "form" 2]
    [SVs1; SVs2] [DVd] [] (SmVec (VEl ORsub I8) true false);
  (* coralnpu_arith.bin_fmt:34 coralnpu_arith.isa:97 *)
  E "vrsub_b_vv_m" GArith FV2 [Ceq "func2" 2; Ceq "sz" 0; Ceq "m" 1; Ceq "func1" 0; Ceq "form" 0]
    [SVs1; SVs2] [DVd] [] (SmVec (VEl ORsub I8) false true);
  (* coralnpu_arith.bin_fmt:35 coralnpu_arith.isa:115 *)
  E "vrsub_b_vx_m" GArith FV2 [Ceq "func2" 2; Ceq "sz" 0; Ceq "m" 1; Ceq "func1" 0; Ceq "form" 2]
    [SVs1; SVs2] [DVd] [] (SmVec (VEl ORsub I8) true true);
  (* coralnpu_arith.bin_fmt:36 coralnpu_arith.isa:100 *)
  E "vrsub_h_vv" GArith FV2 [Ceq "func2" 2; Ceq "sz" 1; Ceq "m" 0; Ceq "func1" 0; Ceq "form" 0]
    [SVs1; SVs2] [DVd] [] (SmVec (VEl ORsub I16) false false);
  (* coralnpu_arith.bin_fmt:37 coralnpu_arith.isa:118 *)
  E "vrsub_h_vx" GArith FV2 [Ceq "func2" 2; Ceq "sz" 1; Ceq "m" 0; Ceq "func1" 0; Ceq "form" 2]
    [SVs1; SVs2] [DVd] [] (SmVec (VEl ORsub I16) true false);
  (* coralnpu_arith.bin_fmt:38 coralnpu_arith.isa:103 *)
  E "vrsub_h_vv_m" GArith FV2 [Ceq "func2" 2; Ceq "sz" 1; Ceq "m" 1; Ceq "func1" 0; Ceq "form" 0]
    [SVs1; SVs2] [DVd] [] (SmVec (VEl ORsub I16) false true);
  (* coralnpu_arith.bin_fmt:39 coralnpu_arith.isa:121 *)
  E "vrsub_h_vx_m" GArith FV2 [Ceq "func2" 2; Ceq "sz" 1; Ceq "m" 1; Ceq "func1" 0; Ceq "form" 2]
    [SVs1; SVs2] [DVd] [] (SmVec (VEl ORsub I16) true true);
  (* coralnpu_arith.bin_fmt:40 coralnpu_arith.isa:106 *)
  E "vrsub_w_vv" GArith FV2 [Ceq "func2" 2; Ceq "sz" 2; Ceq "m" 0; Ceq "func1" 0; Ceq "form" 0]
    [SVs1; SVs2] [DVd] [] (SmVec (VEl ORsub I32) false false);
  (* coralnpu_arith.bin_fmt:41 coralnpu_arith.isa:124 *)
  E "vrsub_w_vx" GArith FV2 [Ceq "func2" 2; Ceq "sz" 2; Ceq "m" 0; Ceq "func1" 0; Ceq "form" 2]
    [SVs1; SVs2] [DVd] [] (SmVec (VEl ORsub I32) true false);
  (* coralnpu_arith.bin_fmt:42 coralnpu_arith.isa:109 *)
  E "vrsub_w_vv_m" GArith FV2 [Ceq "func2" 2; Ceq "sz" 2; Ceq "m" 1; Ceq "func1" 0; Ceq "form" 0]
    [SVs1; SVs2] [DVd] [] (SmVec (VEl ORsub I32) false true);
  (* coralnpu_arith.bin_fmt:43 coralnpu_arith.isa:127 *)
  E "vrsub_w_vx_m" GArith FV2 [Ceq "func2" 2; Ceq "sz" 2; Ceq "m" 1; Ceq "func1" 0; Ceq "form" 2]
    [SVs1; SVs2] [DVd] [] (SmVec (VEl ORsub I32) true true);
  (* coralnpu_arith.bin_fmt:46 coralnpu_arith.isa:131 *)
  E "veq_b_vv" GArith FV2 [Ceq "func2" 6; Ceq "sz" 0; Ceq "m" 0; Ceq "func1" 0; Ceq "form" 0]
    [SVs1; SVs2] [DVd] [] (SmVec (VEl OEq I8) false false);
  (* coralnpu_arith.bin_fmt:47 coralnpu_arith.isa:149 *)
  E "veq_b_vx" GArith FV2 [Ceq "func2" 6; Ceq "sz" 0; Ceq "m" 0; Ceq "func1" 0; Ceq "form" 2]
    [SVs1; SVs2] [DVd] [] (SmVec (VEl OEq I8) true false);
  (* coralnpu_arith.bin_fmt:48 coralnpu_arith.isa:134 *)
  E "veq_b_vv_m" GArith FV2 [Ceq "func2" 6; Ceq "sz" 0; Ceq "m" 1; Ceq "func1" 0; Ceq "form" 0]
    [SVs1; SVs2] [DVd] [] (SmVec (VEl OEq I8) false true);
  (* coralnpu_arith.bin_fmt:49 coralnpu_arith.isa:152 *)
  E "veq_b_vx_m" GArith FV2 [Ceq "func2" 6; Ceq "sz" 0; Ceq "m" 1; Ceq "func1" 0; Ceq "form" 2]
    [SVs1; SVs2] [DVd] [] (SmVec (VEl OEq I8) true true);
  (* coralnpu_arith.bin_fmt:50 coralnpu_arith.isa:137 *)
  E "veq_h_vv" GArith FV2 [Ceq "func2" 6; Ceq "sz" 1; Ceq "m" 0; Ceq "func1" 0; Ceq "form" 0]
    [SVs1; SVs2] [DVd] [] (SmVec (VEl OEq I16) false false);
  (* coralnpu_arith.bin_fmt:51 coralnpu_arith.isa:155 *)
  E "veq_h_vx" GArith FV2 [Ceq "func2" 6; Ceq "sz" 1; Ceq "m" 0; Ceq "func1" 0; Ceq "form" 2]
    [SVs1; SVs2] [DVd] [] (SmVec (VEl OEq I16) true false);
  (* coralnpu_arith.bin_fmt:52 coralnpu_arith.isa:140 *)
  E "veq_h_vv_m" GArith FV2 [Ceq "func2" 6; Ceq "sz" 1; Ceq "m" 1; Ceq "func1" 0; Ceq "form" 0]
    [SVs1; SVs2] [DVd] [] (SmVec (VEl OEq I16) false true);
  (* coralnpu_arith.bin_fmt:53 coralnpu_arith.isa:158 *)
  E "veq_h_vx_m" GArith FV2 [Ceq "func2" 6; Ceq "sz" 1; Ceq "m" 1; Ceq "func1" 0; Ceq "form" 2]
    [SVs1; SVs2] [DVd] [] (SmVec (VEl OEq I16) true true);
  (* coralnpu_arith.bin_fmt:54 coralnpu_arith.isa:143 *)
  E "veq_w_vv" GArith FV2 [Ceq "func2" 6; Ceq "sz" 2; Ceq "m" 0; Ceq "func1" 0; Ceq "form" 0]
    [SVs1; SVs2] [DVd] [] (SmVec (VEl OEq I32) false false);
  (* coralnpu_arith.bin_fmt:55 coralnpu_arith.isa:161 *)
  E "veq_w_vx" GArith FV2 [Ceq "func2" 6; Ceq "sz" 2; Ceq "m" 0; Ceq "func1" 0; Ceq "form" 2]
    [SVs1; SVs2] [DVd] [] (SmVec (VEl OEq I32) true false);
  (* coralnpu_arith.bin_fmt:56 coralnpu_arith.isa:146 *)
  E "veq_w_vv_m" GArith FV2 [Ceq "func2" 6; Ceq "sz" 2; Ceq "m" 1; Ceq "func1" 0; Ceq "form" 0]
    [SVs1; SVs2] [DVd] [] (SmVec (VEl OEq I32) false true);
  (* coralnpu_arith.bin_fmt:57 coralnpu_arith.isa:164 *)
  E "veq_w_vx_m" GArith FV2 [Ceq "func2" 6; Ceq "sz" 2; Ceq "m" 1; Ceq "func1" 0; Ceq "form" 2]
    [SVs1; SVs2] [DVd] [] (SmVec (VEl OEq I32) true true);
  (* coralnpu_arith.bin_fmt:60 coralnpu_arith.isa:168 *)
  E "vne_b_vv" GArith FV2 [Ceq "func2" 7; Ceq "sz" 0; Ceq "m" 0; Ceq "func1" 0; Ceq "form" 0]
    [SVs1; SVs2] [DVd] [] (SmVec (VEl ONe I8) false false);
  (* coralnpu_arith.bin_fmt:61 coralnpu_arith.isa:186 *)
  E "vne_b_vx" GArith FV2 [Ceq "func2" 7; Ceq "sz" 0; Ceq "m" 0; Ceq "func1" 0; Ceq "form" 2]
    [SVs1; SVs2] [DVd] [] (SmVec (VEl ONe I8) true false);
  (* coralnpu_arith.bin_fmt:62 coralnpu_arith.isa:171 *)
  E "vne_b_vv_m" GArith FV2 [Ceq "func2" 7; Ceq "sz" 0; Ceq "m" 1; Ceq "func1" 0; Ceq "form" 0]
    [SVs1; SVs2] [DVd] [] (SmVec (VEl ONe I8) false true);
  (* coralnpu_arith.bin_fmt:63 coralnpu_arith.isa:189 *)
  E "vne_b_vx_m" GArith FV2 [Ceq "func2" 7; Ceq "sz" 0; Ceq "m" 1; Ceq "func1" 0; Ceq "form" 2]
    [SVs1; SVs2] [DVd] [] (SmVec (VEl ONe I8) true true);
  (* coralnpu_arith.bin_fmt:64 coralnpu_arith.isa:174 *)
  E "vne_h_vv" GArith FV2 [Ceq "func2" 7; Ceq "sz" 1; Ceq "m" 0; Ceq "func1" 0; Ceq "form" 0]
    [SVs1; SVs2] [DVd] [] (SmVec (VEl ONe I16) false false);
  (* coralnpu_arith.bin_fmt:65 coralnpu_arith.isa:192 *)
  E "vne_h_vx" GArith FV2 [Ceq "func2" 7; Ceq "sz" 1; Ceq "m" 0; Ceq "func1" 0; Ceq "form" 2]
    [SVs1; SVs2] [DVd] [] (SmVec (VEl ONe I16) true false);
  (* coralnpu_arith.bin_fmt:66 coralnpu_arith.isa:177 *)
  E "vne_h_vv_m" GArith FV2 [Ceq "func2" 7; Ceq "sz" 1; Ceq "m" 1; Ceq "func1" 0; Ceq "form" 0]
    [SVs1; SVs2] [DVd] [] (SmVec (VEl ONe I16) false true);
  (* coralnpu_arith.bin_fmt:67 coralnpu_arith.isa:195 *)
  E "vne_h_vx_m" GArith FV2 [Ceq "func2" 7; Ceq "sz" 1; Ceq "m" 1; Ceq "func1" 0; Ceq "form" 2]
    [SVs1; SVs2] [DVd] [] (SmVec (VEl ONe I16) true true);
  (* coralnpu_arith.bin_fmt:68 coralnpu_arith.isa:180 *)
  E "vne_w_vv" GArith FV2 [Ceq "func2" 7; Ceq "sz" 2; Ceq "m" 0; Ceq "func1" 0; Ceq "form" 0]
    [SVs1; SVs2] [DVd] [] (SmVec (VEl ONe I32) false false);
  (* coralnpu_arith.bin_fmt:69 coralnpu_arith.isa:198 *)
  E "vne_w_vx" GArith FV2 [Ceq "func2" 7; Ceq "sz" 2; Ceq "m" 0; Ceq "func1" 0; Ceq "form" 2]
    [SVs1; SVs2] [DVd] [] (SmVec (VEl ONe I32) true false);
  (* coralnpu_arith.bin_fmt:70 coralnpu_arith.isa:183 *)
  E "vne_w_vv_m" GArith FV2 [Ceq "func2" 7; Ceq "sz" 2; Ceq "m" 1; Ceq "func1" 0; Ceq "form" 0]
    [SVs1; SVs2] [DVd] [] (SmVec (VEl ONe I32) false true);
  (* coralnpu_arith.bin_fmt:71 coralnpu_arith.isa:201 *)
  E "vne_w_vx_m" GArith FV2 [Ceq "func2" 7; Ceq "sz" 2; Ceq "m" 1; Ceq "func1" 0; Ceq "form" 2]
    [SVs1; SVs2] [DVd] [] (SmVec (VEl ONe I32) true true);
  (* coralnpu_arith.bin_fmt:74 coralnpu_arith.isa:205 *)
  E "vlt_b_vv" GArith FV2 [Ceq "func2" 8; Ceq "sz" 0; Ceq "m" 0; Ceq "func1" 0; Ceq "form" 0]
    [SVs1; SVs2] [DVd] [] (SmVec (VEl OLt I8) false false);
  (* coralnpu_arith.bin_fmt:75 coralnpu_arith.isa:223 *)
  E "vlt_b_vx" GArith FV2 [Ceq "func2" 8; Ceq "sz" 0; Ceq "m" 0; Ceq "func1" 0; Ceq "form" 2]
    [SVs1; SVs2] [DVd] [] (SmVec (VEl OLt I8) true false);
  (* coralnpu_arith.bin_fmt:76 coralnpu_arith.isa:208 *)
  E "vlt_b_vv_m" GArith FV2 [Ceq "func2" 8; Ceq "sz" 0; Ceq "m" 1; Ceq "func1" 0; Ceq "form" 0]
    [SVs1; SVs2] [DVd] [] (SmVec (VEl OLt I8) false true);
  (* coralnpu_arith.bin_fmt:77 coralnpu_arith.isa:226 *)
  E "vlt_b_vx_m" GArith FV2 [Ceq "func2" 8; Ceq "sz" 0; Ceq "m" 1; Ceq "func1" 0; Ceq "form" 2]
    [SVs1; SVs2] [DVd] [] (SmVec (VEl OLt I8) true true);
  (* coralnpu_arith.bin_fmt:78 coralnpu_arith.isa:211 *)
  E "vlt_h_vv" GArith FV2 [Ceq "func2" 8; Ceq "sz" 1; Ceq "m" 0; Ceq "func1" 0; Ceq "form" 0]
    [SVs1; SVs2] [DVd] [] (SmVec (VEl OLt I16) false false);
  (* coralnpu_arith.bin_fmt:79 coralnpu_arith.isa:229 *)
  E "vlt_h_vx" GArith FV2 [Ceq "func2" 8; Ceq "sz" 1; Ceq "m" 0; Ceq "func1" 0; Ceq "form" 2]
    [SVs1; SVs2] [DVd] [] (SmVec (VEl OLt I16) true false);
  (* coralnpu_arith.bin_fmt:80 coralnpu_arith.isa:214 *)
  E "vlt_h_vv_m" GArith FV2 [Ceq "func2" 8; Ceq "sz" 1; Ceq "m" 1; Ceq "func1" 0; Ceq "form" 0]
    [SVs1; SVs2] [DVd] [] (SmVec (VEl OLt I16) false true);
  (* coralnpu_arith.bin_fmt:81 coralnpu_arith.isa:232 *)
  E "vlt_h_vx_m" GArith FV2 [Ceq "func2" 8; Ceq "sz" 1; Ceq "m" 1; Ceq "func1" 0; Ceq "form" 2]
    [SVs1; SVs2] [DVd] [] (SmVec (VEl OLt I16) true true);
  (* coralnpu_arith.bin_fmt:82 coralnpu_arith.isa:217 *)
  E "vlt_w_vv" GArith FV2 [Ceq "func2" 8; Ceq "sz" 2; Ceq "m" 0; Ceq "func1" 0; Ceq "form" 0]
    [SVs1; SVs2] [DVd] [] (SmVec (VEl OLt I32) false false);
  (* coralnpu_arith.bin_fmt:83 coralnpu_arith.isa:235 *)
  E "vlt_w_vx" GArith FV2 [Ceq "func2" 8; Ceq "sz" 2; Ceq "m" 0; Ceq "func1" 0; Ceq "form" 2]
    [SVs1; SVs2] [DVd] [] (SmVec (VEl OLt I32) true false);
  (* coralnpu_arith.bin_fmt:84 coralnpu_arith.isa:220 *)
  E "vlt_w_vv_m" GArith FV2 [Ceq "func2" 8; Ceq "sz" 2; Ceq "m" 1; Ceq "func1" 0; Ceq "form" 0]
    [SVs1; SVs2] [DVd] [] (SmVec (VEl OLt I32) false true);
  (* coralnpu_arith.bin_fmt:85 coralnpu_arith.isa:238 *)
  E "vlt_w_vx_m" GArith FV2 [Ceq "func2" 8; Ceq "sz" 2; Ceq "m" 1; Ceq "func1" 0; Ceq "form" 2]
    [SVs1; SVs2] [DVd] [] (SmVec (VEl OLt I32) true true);
  (* coralnpu_arith.bin_fmt:88 coralnpu_arith.isa:242 *)
  E "vlt_u_b_vv" GArith FV2 [Ceq "func2" 9; Ceq "sz" 0; Ceq "m" 0; Ceq "func1" 0; Ceq "form" 0]
    [SVs1; SVs2] [DVd] [] (SmVec (VEl OLt U8) false false);
  (* coralnpu_arith.bin_fmt:89 coralnpu_arith.isa:260 *)
  E "vlt_u_b_vx" GArith FV2 [Ceq "func2" 9; Ceq "sz" 0; Ceq "m" 0; Ceq "func1" 0; Ceq "form" 2]
    [SVs1; SVs2] [DVd] [] (SmVec (VEl OLt U8) true false);
  (* coralnpu_arith.bin_fmt:90 coralnpu_arith.isa:245 *)
  E "vlt_u_b_vv_m" GArith FV2 [Ceq "func2" 9; Ceq "sz" 0; Ceq "m" 1; Ceq "func1" 0; Ceq "form" 0]
    [SVs1; SVs2] [DVd] [] (SmVec (VEl OLt U8) false true);
  (* coralnpu_arith.bin_fmt:91 coralnpu_arith.isa:263 *)
  E "vlt_u_b_vx_m" GArith FV2 [Ceq "func2" 9; Ceq "sz" 0; Ceq "m" 1; Ceq "func1" 0; Ceq "form" 2]
    [SVs1; SVs2] [DVd] [] (SmVec (VEl OLt U8) true true);
  (* coralnpu_arith.bin_fmt:92 coralnpu_arith.isa:248 *)
  E "vlt_u_h_vv" GArith FV2 [Ceq "func2" 9; Ceq "sz" 1; Ceq "m" 0; Ceq "func1" 0; Ceq "form" 0]
    [SVs1; SVs2] [DVd] [] (SmVec (VEl OLt U16) false false);
  (* coralnpu_arith.bin_fmt:93 coralnpu_arith.isa:266 *)
  E "vlt_u_h_vx" GArith FV2 [Ceq "func2" 9; Ceq "sz" 1; Ceq "m" 0; Ceq "func1" 0; Ceq "form" 2]
    [SVs1; SVs2] [DVd] [] (SmVec (VEl OLt U16) true false);
  (* coralnpu_arith.bin_fmt:94 coralnpu_arith.isa:251 *)
  E "vlt_u_h_vv_m" GArith FV2 [Ceq "func2" 9; Ceq "sz" 1; Ceq "m" 1; Ceq "func1" 0; Ceq "form" 0]
    [SVs1; SVs2] [DVd] [] (SmVec (VEl OLt U16) false true);
  (* coralnpu_arith.bin_fmt:95 coralnpu_arith.isa:269 *)
  E "vlt_u_h_vx_m" GArith FV2 [Ceq "func2" 9; Ceq "sz" 1; Ceq "m" 1; Ceq "func1" 0; Ceq "form" 2]
    [SVs1; SVs2] [DVd] [] (SmVec (VEl OLt U16) true true);
  (* coralnpu_arith.bin_fmt:96 coralnpu_arith.isa:254 *)
  E "vlt_u_w_vv" GArith FV2 [Ceq "func2" 9; Ceq "sz" 2; Ceq "m" 0; Ceq "func1" 0; Ceq "form" 0]
    [SVs1; SVs2] [DVd] [] (SmVec (VEl OLt U32) false false);
  (* coralnpu_arith.bin_fmt:97 coralnpu_arith.isa:272 *)
  E "vlt_u_w_vx" GArith FV2 [Ceq "func2" 9; Ceq "sz" 2; Ceq "m" 0; Ceq "func1" 0; Ceq "form" 2]
    [SVs1; SVs2] [DVd] [] (SmVec (VEl OLt U32) true false);
  (* coralnpu_arith.bin_fmt:98 coralnpu_arith.isa:257 *)
  E "vlt_u_w_vv_m" GArith FV2 [Ceq "func2" 9; Ceq "sz" 2; Ceq "m" 1; Ceq "func1" 0; Ceq "form" 0]
    [SVs1; SVs2] [DVd] [] (SmVec (VEl OLt U32) false true);
  (* coralnpu_arith.bin_fmt:99 coralnpu_arith.isa:275 *)
  E "vlt_u_w_vx_m" GArith FV2 [Ceq "func2" 9; Ceq "sz" 2; Ceq "m" 1; Ceq "func1" 0; Ceq "form" 2]
    [SVs1; SVs2] [DVd] [] (SmVec (VEl OLt U32) true true);
  (* coralnpu_arith.bin_fmt:102 coralnpu_arith.isa:279 *)
  E "vle_b_vv" GArith FV2 [Ceq "func2" 10; Ceq "sz" 0; Ceq "m" 0; Ceq "func1" 0; Ceq "form" 0]
    [SVs1; SVs2] [DVd] [] (SmVec (VEl OLe I8) false false);
  (* coralnpu_arith.bin_fmt:103 coralnpu_arith.isa:297 *)
  E "vle_b_vx" GArith FV2 [Ceq "func2" 10; Ceq "sz" 0; Ceq "m" 0; Ceq "func1" 0; Ceq "form" 2]
    [SVs1; SVs2] [DVd] [] (SmVec (VEl OLe I8) true false);
  (* coralnpu_arith.bin_fmt:104 coralnpu_arith.isa:282 *)
  E "vle_b_vv_m" GArith FV2 [Ceq "func2" 10; Ceq "sz" 0; Ceq "m" 1; Ceq "func1" 0; Ceq "form" 0]
    [SVs1; SVs2] [DVd] [] (SmVec (VEl OLe I8) false true);
  (* coralnpu_arith.bin_fmt:105 coralnpu_arith.isa:300 *)
  E "vle_b_vx_m" GArith FV2 [Ceq "func2" 10; Ceq "sz" 0; Ceq "m" 1; Ceq "func1" 0; Ceq "form" 2]
    [SVs1; SVs2] [DVd] [] (SmVec (VEl OLe I8) true true);
  (* coralnpu_arith.bin_fmt:106 coralnpu_arith.isa:285 *)
  E "vle_h_vv" GArith FV2 [Ceq "func2" 10; Ceq "sz" 1; Ceq "m" 0; Ceq "func1" 0; Ceq "form" 0]
    [SVs1; SVs2] [DVd] [] (SmVec (VEl OLe I16) false false);
  (* coralnpu_arith.bin_fmt:107 coralnpu_arith.isa:303 *)
  E "vle_h_vx" GArith FV2 [Ceq "func2" 10; Ceq "sz" 1; Ceq "m" 0; Ceq "func1" 0; Ceq "form" 2]
    [SVs1; SVs2] [DVd] [] (SmVec (VEl OLe I16) true false);
  (* coralnpu_arith.bin_fmt:108 coralnpu_arith.isa:288 *)
  E "vle_h_vv_m" GArith FV2 [Ceq "func2" 10; Ceq "sz" 1; Ceq "m" 1; Ceq "func1" 0; Ceq "form" 0]
    [SVs1; SVs2] [DVd] [] (SmVec (VEl OLe I16) false true);
  (* coralnpu_arith.bin_fmt:109 coralnpu_arith.isa:306 *)
  E "vle_h_vx_m" GArith FV2 [Ceq "func2" 10; Ceq "sz" 1; Ceq "m" 1; Ceq "func1" 0; Ceq "form" 2]
    [SVs1; SVs2] [DVd] [] (SmVec (VEl OLe I16) true true);
  (* coralnpu_arith.bin_fmt:110 coralnpu_arith.isa:291 *)
  E "vle_w_vv" GArith FV2 [Ceq "func2" 10; Ceq "sz" 2; Ceq "m" 0; Ceq "func1" 0; Ceq "form" 0]
    [SVs1; SVs2] [DVd] [] (SmVec (VEl OLe I32) false false);
  (* coralnpu_arith.bin_fmt:111 coralnpu_arith.isa:309 *)
  E "vle_w_vx" GArith FV2 [Ceq "func2" 10; Ceq "sz" 2; Ceq "m" 0; Ceq "func1" 0; Ceq "form" 2]
    [SVs1; SVs2] [DVd] [] (SmVec (VEl OLe I32) true false);
  (* coralnpu_arith.bin_fmt:112 coralnpu_arith.isa:294 *)
  E "vle_w_vv_m" GArith FV2 [Ceq "func2" 10; Ceq "sz" 2; Ceq "m" 1; Ceq "func1" 0; Ceq "form" 0]
    [SVs1; SVs2] [DVd] [] (SmVec (VEl OLe I32) false true);
  (* coralnpu_arith.bin_fmt:113 coralnpu_arith.isa:312 *)
  E "vle_w_vx_m" GArith FV2 [Ceq "func2" 10; Ceq "sz" 2; Ceq "m" 1; Ceq "func1" 0; Ceq "form" 2]
    [SVs1; SVs2] [DVd] [] (SmVec (VEl OLe I32) true true);
  (* coralnpu_arith.bin_fmt:116 coralnpu_arith.isa:316 *)
  E "vle_u_b_vv" GArith FV2 [Ceq "func2" 11; Ceq "sz" 0; Ceq "m" 0; Ceq "func1" 0; Ceq "form" 0]
    [SVs1; SVs2] [DVd] [] (SmVec (VEl OLe U8) false false);
  (* coralnpu_arith.bin_fmt:117 coralnpu_arith.isa:334 *)
  E "vle_u_b_vx" GArith FV2 [Ceq "func2" 11; Ceq "sz" 0; Ceq "m" 0; Ceq "func1" 0; Ceq "form" 2]
    [SVs1; SVs2] [DVd] [] (SmVec (VEl OLe U8) true false);
  (* coralnpu_arith.bin_fmt:118 coralnpu_arith.isa:319 *)
  E "vle_u_b_vv_m" GArith FV2 [Ceq "func2" 11; Ceq "sz" 0; Ceq "m" 1; Ceq "func1" 0; Ceq "form" 0]
    [SVs1; SVs2] [DVd] [] (SmVec (VEl OLe U8) false true);
  (* coralnpu_arith.bin_fmt:119 coralnpu_arith.isa:337 *)
  E "vle_u_b_vx_m" GArith FV2 [Ceq "func2" 11; Ceq "sz" 0; Ceq "m" 1; Ceq "func1" 0; Ceq "form" 2]
    [SVs1; SVs2] [DVd] [] (SmVec (VEl OLe U8) true true);
  (* coralnpu_arith.bin_fmt:120 coralnpu_arith.isa:322 *)
  E "vle_u_h_vv" GArith FV2 [Ceq "func2" 11; Ceq "sz" 1; Ceq "m" 0; Ceq "func1" 0; Ceq "form" 0]
    [SVs1; SVs2] [DVd] [] (SmVec (VEl OLe U16) false false);
  (* coralnpu_arith.bin_fmt:121 coralnpu_arith.isa:340 *)
  E "vle_u_h_vx" GArith FV2 [Ceq "func2" 11; Ceq "sz" 1; Ceq "m" 0; Ceq "func1" 0; Ceq "form" 2]
    [SVs1; SVs2] [DVd] [] (SmVec (VEl OLe U16) true false);
  (* coralnpu_arith.bin_fmt:122 coralnpu_arith.isa:325 *)
  E "vle_u_h_vv_m" GArith FV2 [Ceq "func2" 11; Ceq "sz" 1; Ceq "m" 1; Ceq "func1" 0; Ceq "form" 0]
    [SVs1; SVs2] [DVd] [] (SmVec (VEl OLe U16) false true);
  (* coralnpu_arith.bin_fmt:123 coralnpu_arith.isa:343 *)
  E "vle_u_h_vx_m" GArith FV2 [Ceq "func2" 11; Ceq "sz" 1; Ceq "m" 1; Ceq "func1" 0; Ceq "form" 2]
    [SVs1; SVs2] [DVd] [] (SmVec (VEl OLe U16) true true);
  (* coralnpu_arith.bin_fmt:124 coralnpu_arith.isa:328 *)
  E "vle_u_w_vv" GArith FV2 [Ceq "func2" 11; Ceq "sz" 2; Ceq "m" 0; Ceq "func1" 0; Ceq "form" 0]
    [SVs1; SVs2] [DVd] [] (SmVec (VEl OLe U32) false false);
  (* coralnpu_arith.bin_fmt:125 coralnpu_arith.isa:346 *)
  E "vle_u_w_vx" GArith FV2 [Ceq "func2" 11; Ceq "sz" 2; Ceq "m" 0; Ceq "func1" 0; Ceq "form" 2]
    [SVs1; SVs2] [DVd] [] (SmVec (VEl OLe U32) true false);
  (* coralnpu_arith.bin_fmt:126 coralnpu_arith.isa:331 *)
  E "vle_u_w_vv_m" GArith FV2 [Ceq "func2" 11; Ceq "sz" 2; Ceq "m" 1; Ceq "func1" 0; Ceq "form" 0]
    [SVs1; SVs2] [DVd] [] (SmVec (VEl OLe U32) false true);
  (* coralnpu_arith.bin_fmt:127 coralnpu_arith.isa:349 *)
  E "vle_u_w_vx_m" GArith FV2 [Ceq "func2" 11; Ceq "sz" 2; Ceq "m" 1; Ceq "func1" 0; Ceq "form" 2]
    [SVs1; SVs2] [DVd] [] (SmVec (VEl OLe U32) true true);
  (* coralnpu_arith.bin_fmt:130 coralnpu_arith.isa:353 *)
  E "vgt_b_vv" GArith FV2 [Ceq "func2" 12; Ceq "sz" 0; Ceq "m" 0; Ceq "func1" 0; Ceq "form" 0]
    [SVs1; SVs2] [DVd] [] (SmVec (VEl OGt I8) false false);
  (* coralnpu_arith.bin_fmt:131 coralnpu_arith.isa:371 *)
  E "vgt_b_vx" GArith FV2 [Ceq "func2" 12; Ceq "sz" 0; Ceq "m" 0; Ceq "func1" 0; Ceq "form" 2]
    [SVs1; SVs2] [DVd] [] (SmVec (VEl OGt I8) true false);
  (* coralnpu_arith.bin_fmt:132 coralnpu_arith.isa:356 *)
  E "vgt_b_vv_m" GArith FV2 [Ceq "func2" 12; Ceq "sz" 0; Ceq "m" 1; Ceq "func1" 0; Ceq "form" 0]
    [SVs1; SVs2] [DVd] [] (SmVec (VEl OGt I8) false true);
  (* coralnpu_arith.bin_fmt:133 coralnpu_arith.isa:374 *)
  E "vgt_b_vx_m" GArith FV2 [Ceq "func2" 12; Ceq "sz" 0; Ceq "m" 1; Ceq "func1" 0; Ceq "form" 2]
    [SVs1; SVs2] [DVd] [] (SmVec (VEl OGt I8) true true);
  (* coralnpu_arith.bin_fmt:134 coralnpu_arith.isa:359 *)
  E "vgt_h_vv" GArith FV2 [Ceq "func2" 12; Ceq "sz" 1; Ceq "m" 0; Ceq "func1" 0; Ceq "form" 0]
    [SVs1; SVs2] [DVd] [] (SmVec (VEl OGt I16) false false);
  (* coralnpu_arith.bin_fmt:135 coralnpu_arith.isa:377 *)
  E "vgt_h_vx" GArith FV2 [Ceq "func2" 12; Ceq "sz" 1; Ceq "m" 0; Ceq "func1" 0; Ceq "form" 2]
    [SVs1; SVs2] [DVd] [] (SmVec (VEl OGt I16) true false);
  (* coralnpu_arith.bin_fmt:136 coralnpu_arith.isa:362 *)
  E "vgt_h_vv_m" GArith FV2 [Ceq "func2" 12; Ceq "sz" 1; Ceq "m" 1; Ceq "func1" 0; Ceq "form" 0]
    [SVs1; SVs2] [DVd] [] (SmVec (VEl OGt I16) false true);
  (* coralnpu_arith.bin_fmt:137 coralnpu_arith.isa:380 *)
  E "vgt_h_vx_m" GArith FV2 [Ceq "func2" 12; Ceq "sz" 1; Ceq "m" 1; Ceq "func1" 0; Ceq "form" 2]
    [SVs1; SVs2] [DVd] [] (SmVec (VEl OGt I16) true true);
  (* coralnpu_arith.bin_fmt:138 coralnpu_arith.isa:365 *)
  E "vgt_w_vv" GArith FV2 [Ceq "func2" 12; Ceq "sz" 2; Ceq "m" 0; Ceq "func1" 0; Ceq "form" 0]
    [SVs1; SVs2] [DVd] [] (SmVec (VEl OGt I32) false false);
  (* coralnpu_arith.bin_fmt:139 coralnpu_arith.isa:383 *)
  E "vgt_w_vx" GArith FV2 [Ceq "func2" 12; Ceq "sz" 2; Ceq "m" 0; Ceq "func1" 0; Ceq "form" 2]
    [SVs1; SVs2] [DVd] [] (SmVec (VEl OGt I32) true false);
  (* coralnpu_arith.bin_fmt:140 coralnpu_arith.isa:368 *)
  E "vgt_w_vv_m" GArith FV2 [Ceq "func2" 12; Ceq "sz" 2; Ceq "m" 1; Ceq "func1" 0; Ceq "form" 0]
    [SVs1; SVs2] [DVd] [] (SmVec (VEl OGt I32) false true);
  (* coralnpu_arith.bin_fmt:141 coralnpu_arith.isa:386 *)
  E "vgt_w_vx_m" GArith FV2 [Ceq "func2" 12; Ceq "sz" 2; Ceq "m" 1; Ceq "func1" 0; Ceq "form" 2]
    [SVs1; SVs2] [DVd] [] (SmVec (VEl OGt I32) true true);
  (* coralnpu_arith.bin_fmt:144 coralnpu_arith.isa:390 *)
  E "vgt_u_b_vv" GArith FV2 [Ceq "func2" 13; Ceq "sz" 0; Ceq "m" 0; Ceq "func1" 0; Ceq "form" 0]
    [SVs1; SVs2] [DVd] [] (SmVec (VEl OGt U8) false false);
  (* coralnpu_arith.bin_fmt:145 coralnpu_arith.isa:408 *)
  E "vgt_u_b_vx" GArith FV2 [Ceq "func2" 13; Ceq "sz" 0; Ceq "m" 0; Ceq "func1" 0; Ceq "form" 2]
    [SVs1; SVs2] [DVd] [] (SmVec (VEl OGt U8) true false);
  (* coralnpu_arith.bin_fmt:146 coralnpu_arith.isa:393 *)
  E "vgt_u_b_vv_m" GArith FV2 [Ceq "func2" 13; Ceq "sz" 0; Ceq "m" 1; Ceq "func1" 0; Ceq "form" 0]
    [SVs1; SVs2] [DVd] [] (SmVec (VEl OGt U8) false true);
  (* coralnpu_arith.bin_fmt:147 coralnpu_arith.isa:411 *)
  E "vgt_u_b_vx_m" GArith FV2 [Ceq "func2" 13; Ceq "sz" 0; Ceq "m" 1; Ceq "func1" 0; Ceq "form" 2]
    [SVs1; SVs2] [DVd] [] (SmVec (VEl OGt U8) true true);
  (* coralnpu_arith.bin_fmt:148 coralnpu_arith.isa:396 *)
  E "vgt_u_h_vv" GArith FV2 [Ceq "func2" 13; Ceq "sz" 1; Ceq "m" 0; Ceq "func1" 0; Ceq "form" 0]
    [SVs1; SVs2] [DVd] [] (SmVec (VEl OGt U16) false false);
  (* coralnpu_arith.bin_fmt:149 coralnpu_arith.isa:414 *)
  E "vgt_u_h_vx" GArith FV2 [Ceq "func2" 13; Ceq "sz" 1; Ceq "m" 0; Ceq "func1" 0; Ceq "form" 2]
    [SVs1; SVs2] [DVd] [] (SmVec (VEl OGt U16) true false);
  (* coralnpu_arith.bin_fmt:150 coralnpu_arith.isa:399 *)
  E "vgt_u_h_vv_m" GArith FV2 [Ceq "func2" 13; Ceq "sz" 1; Ceq "m" 1; Ceq "func1" 0; Ceq "form" 0]
    [SVs1; SVs2] [DVd] [] (SmVec (VEl OGt U16) false true);
  (* coralnpu_arith.bin_fmt:151 coralnpu_arith.isa:417 *)
  E "vgt_u_h_vx_m" GArith FV2 [Ceq "func2" 13; Ceq "sz" 1; Ceq "m" 1; Ceq "func1" 0; Ceq "form" 2]
    [SVs1; SVs2] [DVd] [] (SmVec (VEl OGt U16) true true);
  (* coralnpu_arith.bin_fmt:152 coralnpu_arith.isa:402 *)
  E "vgt_u_w_vv" GArith FV2 [Ceq "func2" 13; Ceq "sz" 2; Ceq "m" 0; Ceq "func1" 0; Ceq "form" 0]
    [SVs1; SVs2] [DVd] [] (SmVec (VEl OGt U32) false false);
  (* coralnpu_arith.bin_fmt:153 coralnpu_arith.isa:420 *)
  E "vgt_u_w_vx" GArith FV2 [Ceq "func2" 13; Ceq "sz" 2; Ceq "m" 0; Ceq "func1" 0; Ceq "form" 2]
    [SVs1; SVs2] [DVd] [] (SmVec (VEl OGt U32) true false);
  (* coralnpu_arith.bin_fmt:154 coralnpu_arith.isa:405 *)
  E "vgt_u_w_vv_m" GArith FV2 [Ceq "func2" 13; Ceq "sz" 2; Ceq "m" 1; Ceq "func1" 0; Ceq "form" 0]
    [SVs1; SVs2] [DVd] [] (SmVec (VEl OGt U32) false true);
  (* coralnpu_arith.bin_fmt:155 coralnpu_arith.isa:423 *)
  E "vgt_u_w_vx_m" GArith FV2 [Ceq "func2" 13; Ceq "sz" 2; Ceq "m" 1; Ceq "func1" 0; Ceq "form" 2]
    [SVs1; SVs2] [DVd] [] (SmVec (VEl OGt U32) true true);
  (* coralnpu_arith.bin_fmt:158 coralnpu_arith.isa:427 *)
  E "vge_b_vv" GArith FV2 [Ceq "func2" 14; Ceq "sz" 0; Ceq "m" 0; Ceq "func1" 0; Ceq "form" 0]
    [SVs1; SVs2] [DVd] [] (SmVec (VEl OGe I8) false false);
  (* coralnpu_arith.bin_fmt:159 coralnpu_arith.isa:445 *)
  E "vge_b_vx" GArith FV2 [Ceq "func2" 14; Ceq "sz" 0; Ceq "m" 0; Ceq "func1" 0; Ceq "form" 2]
    [SVs1; SVs2] [DVd] [] (SmVec (VEl OGe I8) true false);
  (* coralnpu_arith.bin_fmt:160 coralnpu_arith.isa:430 *)
  E "vge_b_vv_m" GArith FV2 [Ceq "func2" 14; Ceq "sz" 0; Ceq "m" 1; Ceq "func1" 0; Ceq "form" 0]
    [SVs1; SVs2] [DVd] [] (SmVec (VEl OGe I8) false true);
  (* coralnpu_arith.bin_fmt:161 coralnpu_arith.isa:448 *)
  E "vge_b_vx_m" GArith FV2 [Ceq "func2" 14; Ceq "sz" 0; Ceq "m" 1; Ceq "func1" 0; Ceq "form" 2]
    [SVs1; SVs2] [DVd] [] (SmVec (VEl OGe I8) true true);
  (* coralnpu_arith.bin_fmt:162 coralnpu_arith.isa:433 *)
  E "vge_h_vv" GArith FV2 [Ceq "func2" 14; Ceq "sz" 1; Ceq "m" 0; Ceq "func1" 0; Ceq "form" 0]
    [SVs1; SVs2] [DVd] [] (SmVec (VEl OGe I16) false false);
  (* coralnpu_arith.bin_fmt:163 coralnpu_arith.isa:451 *)
  E "vge_h_vx" GArith FV2 [Ceq "func2" 14; Ceq "sz" 1; Ceq "m" 0; Ceq "func1" 0; Ceq "form" 2]
    [SVs1; SVs2] [DVd] [] (SmVec (VEl OGe I16) true false);
  (* coralnpu_arith.bin_fmt:164 coralnpu_arith.isa:436 *)
  E "vge_h_vv_m" GArith FV2 [Ceq "func2" 14; Ceq "sz" 1; Ceq "m" 1; Ceq "func1" 0; Ceq "form" 0]
    [SVs1; SVs2] [DVd] [] (SmVec (VEl OGe I16) false true);
  (* coralnpu_arith.bin_fmt:165 coralnpu_arith.isa:454 *)
  E "vge_h_vx_m" GArith FV2 [Ceq "func2" 14; Ceq "sz" 1; Ceq "m" 1; Ceq "func1" 0; Ceq "form" 2]
    [SVs1; SVs2] [DVd] [] (SmVec (VEl OGe I16) true true);
  (* coralnpu_arith.bin_fmt:166 coralnpu_arith.isa:439 *)
  E "vge_w_vv" GArith FV2 [Ceq "func2" 14; Ceq "sz" 2; Ceq "m" 0; Ceq "func1" 0; Ceq "form" 0]
    [SVs1; SVs2] [DVd] [] (SmVec (VEl OGe I32) false false);
  (* coralnpu_arith.bin_fmt:167 coralnpu_arith.isa:457 *)
  E "vge_w_vx" GArith FV2 [Ceq "func2" 14; Ceq "sz" 2; Ceq "m" 0; Ceq "func1" 0; Ceq "form" 2]
    [SVs1; SVs2] [DVd] [] (SmVec (VEl OGe I32) true false);
  (* coralnpu_arith.bin_fmt:168 coralnpu_arith.isa:442 *)
  E "vge_w_vv_m" GArith FV2 [Ceq "func2" 14; Ceq "sz" 2; Ceq "m" 1; Ceq "func1" 0; Ceq "form" 0]
    [SVs1; SVs2] [DVd] [] (SmVec (VEl OGe I32) false true);
  (* coralnpu_arith.bin_fmt:169 coralnpu_arith.isa:460 *)
  E "vge_w_vx_m" GArith FV2 [Ceq "func2" 14; Ceq "sz" 2; Ceq "m" 1; Ceq "func1" 0; Ceq "form" 2]
    [SVs1; SVs2] [DVd] [] (SmVec (VEl OGe I32) true true);
  (* coralnpu_arith.bin_fmt:172 coralnpu_arith.isa:464 *)
  E "vge_u_b_vv" GArith FV2 [Ceq "func2" 15; Ceq "sz" 0; Ceq "m" 0; Ceq "func1" 0; Ceq "form" 0]
    [SVs1; SVs2] [DVd] [] (SmVec (VEl OGe U8) false false);
  (* coralnpu_arith.bin_fmt:173 coralnpu_arith.isa:482 *)
  E "vge_u_b_vx" GArith FV2 [Ceq "func2" 15; Ceq "sz" 0; Ceq "m" 0; Ceq "func1" 0; Ceq "form" 2]
    [SVs1; SVs2] [DVd] [] (SmVec (VEl OGe U8) true false);
  (* coralnpu_arith.bin_fmt:174 coralnpu_arith.isa:467 *)
  E "vge_u_b_vv_m" GArith FV2 [Ceq "func2" 15; Ceq "sz" 0; Ceq "m" 1; Ceq "func1" 0; Ceq "form" 0]
    [SVs1; SVs2] [DVd] [] (SmVec (VEl OGe U8) false true);
  (* coralnpu_arith.bin_fmt:175 coralnpu_arith.isa:485 *)
  E "vge_u_b_vx_m" GArith FV2 [Ceq "func2" 15; Ceq "sz" 0; Ceq "m" 1; Ceq "func1" 0; Ceq "form" 2]
    [SVs1; SVs2] [DVd] [] (SmVec (VEl OGe U8) true true);
  (* coralnpu_arith.bin_fmt:176 coralnpu_arith.isa:470 *)
  E "vge_u_h_vv" GArith FV2 [Ceq "func2" 15; Ceq "sz" 1; Ceq "m" 0; Ceq "func1" 0; Ceq "form" 0]
    [SVs1; SVs2] [DVd] [] (SmVec (VEl OGe U16) false false);
  (* coralnpu_arith.bin_fmt:177 coralnpu_arith.isa:488 *)
  E "vge_u_h_vx" GArith FV2 [Ceq "func2" 15; Ceq "sz" 1; Ceq "m" 0; Ceq "func1" 0; Ceq "form" 2]
    [SVs1; SVs2] [DVd] [] (SmVec (VEl OGe U16) true false);
  (* coralnpu_arith.bin_fmt:178 coralnpu_arith.isa:473 *)
  E "vge_u_h_vv_m" GArith FV2 [Ceq "func2" 15; Ceq "sz" 1; Ceq "m" 1; Ceq "func1" 0; Ceq "form" 0]
    [SVs1; SVs2] [DVd] [] (SmVec (VEl OGe U16) false true);
  (* coralnpu_arith.bin_fmt:179 coralnpu_arith.isa:491 *)
  E "vge_u_h_vx_m" GArith FV2 [Ceq "func2" 15; Ceq "sz" 1; Ceq "m" 1; Ceq "func1" 0; Ceq "form" 2]
    [SVs1; SVs2] [DVd] [] (SmVec (VEl OGe U16) true true);
  (* coralnpu_arith.bin_fmt:180 coralnpu_arith.isa:476 *)
  E "vge_u_w_vv" GArith FV2 [Ceq "func2" 15; Ceq "sz" 2; Ceq "m" 0; Ceq "func1" 0; Ceq "form" 0]
    [SVs1; SVs2] [DVd] [] (SmVec (VEl OGe U32) false false);
  (* coralnpu_arith.bin_fmt:181 coralnpu_arith.isa:494 *)
  E "vge_u_w_vx" GArith FV2 [Ceq "func2" 15; Ceq "sz" 2; Ceq "m" 0; Ceq "func1" 0; Ceq "form" 2]
    [SVs1; SVs2] [DVd] [] (SmVec (VEl OGe U32) true false);
  (* coralnpu_arith.bin_fmt:182 coralnpu_arith.isa:479 *)
  E "vge_u_w_vv_m" GArith FV2 [Ceq "func2" 15; Ceq "sz" 2; Ceq "m" 1; Ceq "func1" 0; Ceq "form" 0]
    [SVs1; SVs2] [DVd] [] (SmVec (VEl OGe U32) false true);
  (* coralnpu_arith.bin_fmt:183 coralnpu_arith.isa:497 *)
  E "vge_u_w_vx_m" GArith FV2 [Ceq "func2" 15; Ceq "sz" 2; Ceq "m" 1; Ceq "func1" 0; Ceq "form" 2]
    [SVs1; SVs2] [DVd] [] (SmVec (VEl OGe U32) true true);
  (* coralnpu_arith.bin_fmt:186 coralnpu_arith.isa:501 *)
  E "vabsd_b_vv" GArith FV2 [Ceq "func2" 16; Ceq "sz" 0; Ceq "m" 0; Ceq "func1" 0; Ceq "form" 0]
    [SVs1; SVs2] [DVd] [] (SmVec (VEl OAbsd I8) false false);
  (* coralnpu_arith.bin_fmt:187 coralnpu_arith.isa:519 *)
  E "vabsd_b_vx" GArith FV2 [Ceq "func2" 16; Ceq "sz" 0; Ceq "m" 0; Ceq "func1" 0; Ceq "form" 2]
    [SVs1; SVs2] [DVd] [] (SmVec (VEl OAbsd I8) true false);
  (* coralnpu_arith.bin_fmt:188 coralnpu_arith.isa:504 *)
  E "vabsd_b_vv_m" GArith FV2 [Ceq "func2" 16; Ceq "sz" 0; Ceq "m" 1; Ceq "func1" 0; Ceq "form" 0]
    [SVs1; SVs2] [DVd] [] (SmVec (VEl OAbsd I8) false true);
  (* coralnpu_arith.bin_fmt:189 coralnpu_arith.isa:522 *)
  E "vabsd_b_vx_m" GArith FV2 [Ceq "func2" 16; Ceq "sz" 0; Ceq "m" 1; Ceq "func1" 0; Ceq "form" 2]
    [SVs1; SVs2] [DVd] [] (SmVec (VEl OAbsd I8) true true);
  (* coralnpu_arith.bin_fmt:190 coralnpu_arith.isa:507 *)
  E "vabsd_h_vv" GArith FV2 [Ceq "func2" 16; Ceq "sz" 1; Ceq "m" 0; Ceq "func1" 0; Ceq "form" 0]
    [SVs1; SVs2] [DVd] [] (SmVec (VEl OAbsd I16) false false);
  (* coralnpu_arith.bin_fmt:191 coralnpu_arith.isa:525 *)
  E "vabsd_h_vx" GArith FV2 [Ceq "func2" 16; Ceq "sz" 1; Ceq "m" 0; Ceq "func1" 0; Ceq "form" 2]
    [SVs1; SVs2] [DVd] [] (SmVec (VEl OAbsd I16) true false);
  (* coralnpu_arith.bin_fmt:192 coralnpu_arith.isa:510 *)
  E "vabsd_h_vv_m" GArith FV2 [Ceq "func2" 16; Ceq "sz" 1; Ceq "m" 1; Ceq "func1" 0; Ceq "form" 0]
    [SVs1; SVs2] [DVd] [] (SmVec (VEl OAbsd I16) false true);
  (* coralnpu_arith.bin_fmt:193 coralnpu_arith.isa:528 *)
  E "vabsd_h_vx_m" GArith FV2 [Ceq "func2" 16; Ceq "sz" 1; Ceq "m" 1; Ceq "func1" 0; Ceq "form" 2]
    [SVs1; SVs2] [DVd] [] (SmVec (VEl OAbsd I16) true true);
  (* coralnpu_arith.bin_fmt:194 coralnpu_arith.isa:513 *)
  E "vabsd_w_vv" GArith FV2 [Ceq "func2" 16; Ceq "sz" 2; Ceq "m" 0; Ceq "func1" 0; Ceq "form" 0]
    [SVs1; SVs2] [DVd] [] (SmVec (VEl OAbsd I32) false false);
  (* coralnpu_arith.bin_fmt:195 coralnpu_arith.isa:531 *)
  E "vabsd_w_vx" GArith FV2 [Ceq "func2" 16; Ceq "sz" 2; Ceq "m" 0; Ceq "func1" 0; Ceq "form" 2]
    [SVs1; SVs2] [DVd] [] (SmVec (VEl OAbsd I32) true false);
  (* coralnpu_arith.bin_fmt:196 coralnpu_arith.isa:516 *)
  E "vabsd_w_vv_m" GArith FV2 [Ceq "func2" 16; Ceq "sz" 2; Ceq "m" 1; Ceq "func1" 0; Ceq "form" 0]
    [SVs1; SVs2] [DVd] [] (SmVec (VEl OAbsd I32) false true);
  (* coralnpu_arith.bin_fmt:197 coralnpu_arith.isa:534 *)
  E "vabsd_w_vx_m" GArith FV2 [Ceq "func2" 16; Ceq "sz" 2; Ceq "m" 1; Ceq "func1" 0; Ceq "form" 2]
    [SVs1; SVs2] [DVd] [] (SmVec (VEl OAbsd I32) true true);
  (* coralnpu_arith.bin_fmt:200 coralnpu_arith.isa:538 *)
  E "vabsd_u_b_vv" GArith FV2 [Ceq "func2" 17; Ceq "sz" 0; Ceq "m" 0; Ceq "func1" 0; Ceq "form" 0]
    [SVs1; SVs2] [DVd] [] (SmVec (VEl OAbsd U8) false false);
  (* coralnpu_arith.bin_fmt:201 coralnpu_arith.isa:556 *)
  E "vabsd_u_b_vx" GArith FV2 [Ceq "func2" 17; Ceq "sz" 0; Ceq "m" 0; Ceq "func1" 0; Ceq "form" 2]
    [SVs1; SVs2] [DVd] [] (SmVec (VEl OAbsd U8) true false);
  (* coralnpu_arith.bin_fmt:202 coralnpu_arith.isa:541 *)
  E "vabsd_u_b_vv_m" GArith FV2 [Ceq "func2" 17; Ceq "sz" 0; Ceq "m" 1; Ceq "func1" 0; Ceq "form" 0]
    [SVs1; SVs2] [DVd] [] (SmVec (VEl OAbsd U8) false true);
  (* coralnpu_arith.bin_fmt:203 coralnpu_arith.isa:559 *)
  E "vabsd_u_b_vx_m" GArith FV2 [Ceq "func2" 17; Ceq "sz" 0; Ceq "m" 1; Ceq "func1" 0; Ceq "form" 2]
    [SVs1; SVs2] [DVd] [] (SmVec (VEl OAbsd U8) true true);
  (* coralnpu_arith.bin_fmt:204 coralnpu_arith.isa:544 *)
  E "vabsd_u_h_vv" GArith FV2 [Ceq "func2" 17; Ceq "sz" 1; Ceq "m" 0; Ceq "func1" 0; Ceq "form" 0]
    [SVs1; SVs2] [DVd] [] (SmVec (VEl OAbsd U16) false false);
  (* coralnpu_arith.bin_fmt:205 coralnpu_arith.isa:562 *)
  E "vabsd_u_h_vx" GArith FV2 [Ceq "func2" 17; Ceq "sz" 1; Ceq "m" 0; Ceq "func1" 0; Ceq "form" 2]
    [SVs1; SVs2] [DVd] [] (SmVec (VEl OAbsd U16) true false);
  (* coralnpu_arith.bin_fmt:206 coralnpu_arith.isa:547 *)
  E "vabsd_u_h_vv_m" GArith FV2 [Ceq "func2" 17; Ceq "sz" 1; Ceq "m" 1; Ceq "func1" 0; Ceq "form" 0]
    [SVs1; SVs2] [DVd] [] (SmVec (VEl OAbsd U16) false true);
  (* coralnpu_arith.bin_fmt:207 coralnpu_arith.isa:565 *)
  E "vabsd_u_h_vx_m" GArith FV2 [Ceq "func2" 17; Ceq "sz" 1; Ceq "m" 1; Ceq "func1" 0; Ceq "form" 2]
    [SVs1; SVs2] [DVd] [] (SmVec (VEl OAbsd U16) true true);
  (* coralnpu_arith.bin_fmt:208 coralnpu_arith.isa:550 *)
  E "vabsd_u_w_vv" GArith FV2 [Ceq "func2" 17; Ceq "sz" 2; Ceq "m" 0; Ceq "func1" 0; Ceq "form" 0]
    [SVs1; SVs2] [DVd] [] (SmVec (VEl OAbsd U32) false false);
  (* coralnpu_arith.bin_fmt:209 coralnpu_arith.isa:568 *)
  E "vabsd_u_w_vx" GArith FV2 [Ceq "func2" 17; Ceq "sz" 2; Ceq "m" 0; Ceq "func1" 0; Ceq "form" 2]
    [SVs1; SVs2] [DVd] [] (SmVec (VEl OAbsd U32) true false);
  (* coralnpu_arith.bin_fmt:210 coralnpu_arith.isa:553 *)
  E "vabsd_u_w_vv_m" GArith FV2 [Ceq "func2" 17; Ceq "sz" 2; Ceq "m" 1; Ceq "func1" 0; Ceq "form" 0]
    [SVs1; SVs2] [DVd] [] (SmVec (VEl OAbsd U32) false true);
  (* coralnpu_arith.bin_fmt:211 coralnpu_arith.isa:571 *)
  E "vabsd_u_w_vx_m" GArith FV2 [Ceq "func2" 17; Ceq "sz" 2; Ceq "m" 1; Ceq "func1" 0; Ceq "form" 2]
    [SVs1; SVs2] [DVd] [] (SmVec (VEl OAbsd U32) true true);
  (* coralnpu_arith.bin_fmt:214 coralnpu_arith.isa:575 *)
  E "vmax_b_vv" GArith FV2 [Ceq "func2" 18; Ceq "sz" 0; Ceq "m" 0; Ceq "func1" 0; Ceq "form" 0]
    [SVs1; SVs2] [DVd] [] (SmVec (VEl OMax I8) false false);
  (* coralnpu_arith.bin_fmt:215 coralnpu_arith.isa:593 *)
  E "vmax_b_vx" GArith FV2 [Ceq "func2" 18; Ceq "sz" 0; Ceq "m" 0; Ceq "func1" 0; Ceq "form" 2]
    [SVs1; SVs2] [DVd] [] (SmVec (VEl OMax I8) true false);
  (* coralnpu_arith.bin_fmt:216 coralnpu_arith.isa:578 *)
  E "vmax_b_vv_m" GArith FV2 [Ceq "func2" 18; Ceq "sz" 0; Ceq "m" 1; Ceq "func1" 0; Ceq "form" 0]
    [SVs1; SVs2] [DVd] [] (SmVec (VEl OMax I8) false true);
  (* coralnpu_arith.bin_fmt:217 coralnpu_arith.isa:596 *)
  E "vmax_b_vx_m" GArith FV2 [Ceq "func2" 18; Ceq "sz" 0; Ceq "m" 1; Ceq "func1" 0; Ceq "form" 2]
    [SVs1; SVs2] [DVd] [] (SmVec (VEl OMax I8) true true);
  (* coralnpu_arith.bin_fmt:218 coralnpu_arith.isa:581 *)
  E "vmax_h_vv" GArith FV2 [Ceq "func2" 18; Ceq "sz" 1; Ceq "m" 0; Ceq "func1" 0; Ceq "form" 0]
    [SVs1; SVs2] [DVd] [] (SmVec (VEl OMax I16) false false);
  (* coralnpu_arith.bin_fmt:219 coralnpu_arith.isa:599 *)
  E "vmax_h_vx" GArith FV2 [Ceq "func2" 18; Ceq "sz" 1; Ceq "m" 0; Ceq "func1" 0; Ceq "form" 2]
    [SVs1; SVs2] [DVd] [] (SmVec (VEl OMax I16) true false);
  (* coralnpu_arith.bin_fmt:220 coralnpu_arith.isa:584 *)
  E "vmax_h_vv_m" GArith FV2 [Ceq "func2" 18; Ceq "sz" 1; Ceq "m" 1; Ceq "func1" 0; Ceq "form" 0]
    [SVs1; SVs2] [DVd] [] (SmVec (VEl OMax I16) false true);
  (* coralnpu_arith.bin_fmt:221 coralnpu_arith.isa:602 *)
  E "vmax_h_vx_m" GArith FV2 [Ceq "func2" 18; Ceq "sz" 1; Ceq "m" 1; Ceq "func1" 0; Ceq "form" 2]
    [SVs1; SVs2] [DVd] [] (SmVec (VEl OMax I16) true true);
  (* coralnpu_arith.bin_fmt:222 coralnpu_arith.isa:587 *)
  E "vmax_w_vv" GArith FV2 [Ceq "func2" 18; Ceq "sz" 2; Ceq "m" 0; Ceq "func1" 0; Ceq "form" 0]
    [SVs1; SVs2] [DVd] [] (SmVec (VEl OMax I32) false false);
  (* coralnpu_arith.bin_fmt:223 coralnpu_arith.isa:605 *)
  E "vmax_w_vx" GArith FV2 [Ceq "func2" 18; Ceq "sz" 2; Ceq "m" 0; Ceq "func1" 0; Ceq "form" 2]
    [SVs1; SVs2] [DVd] [] (SmVec (VEl OMax I32) true false);
  (* coralnpu_arith.bin_fmt:224 coralnpu_arith.isa:590 *)
  E "vmax_w_vv_m" GArith FV2 [Ceq "func2" 18; Ceq "sz" 2; Ceq "m" 1; Ceq "func1" 0; Ceq "form" 0]
    [SVs1; SVs2] [DVd] [] (SmVec (VEl OMax I32) false true);
  (* coralnpu_arith.bin_fmt:225 coralnpu_arith.isa:608 *)
  E "vmax_w_vx_m" GArith FV2 [Ceq "func2" 18; Ceq "sz" 2; Ceq "m" 1; Ceq "func1" 0; Ceq "form" 2]
    [SVs1; SVs2] [DVd] [] (SmVec (VEl OMax I32) true true);
  (* coralnpu_arith.bin_fmt:228 coralnpu_arith.isa:612 *)
  E "vmax_u_b_vv" GArith FV2 [Ceq "func2" 19; Ceq "sz" 0; Ceq "m" 0; Ceq "func1" 0; Ceq "form" 0]
    [SVs1; SVs2] [DVd] [] (SmVec (VEl OMax U8) false false);
  (* coralnpu_arith.bin_fmt:229 coralnpu_arith.isa:630 *)
  E "vmax_u_b_vx" GArith FV2 [Ceq "func2" 19; Ceq "sz" 0; Ceq "m" 0; Ceq "func1" 0; Ceq "form" 2]
    [SVs1; SVs2] [DVd] [] (SmVec (VEl OMax U8) true false);
  (* coralnpu_arith.bin_fmt:230 coralnpu_arith.isa:615 *)
  E "vmax_u_b_vv_m" GArith FV2 [Ceq "func2" 19; Ceq "sz" 0; Ceq "m" 1; Ceq "func1" 0; Ceq "form" 0]
    [SVs1; SVs2] [DVd] [] (SmVec (VEl OMax U8) false true);
  (* coralnpu_arith.bin_fmt:231 coralnpu_arith.isa:633 *)
  E "vmax_u_b_vx_m" GArith FV2 [Ceq "func2" 19; Ceq "sz" 0; Ceq "m" 1; Ceq "func1" 0; Ceq "form" 2]
    [SVs1; SVs2] [DVd] [] (SmVec (VEl OMax U8) true true);
  (* coralnpu_arith.bin_fmt:232 coralnpu_arith.isa:618 *)
  E "vmax_u_h_vv" GArith FV2 [Ceq "func2" 19; Ceq "sz" 1; Ceq "m" 0; Ceq "func1" 0; Ceq "form" 0]
    [SVs1; SVs2] [DVd] [] (SmVec (VEl OMax U16) false false);
  (* coralnpu_arith.bin_fmt:233 coralnpu_arith.isa:636 *)
  E "vmax_u_h_vx" GArith FV2 [Ceq "func2" 19; Ceq "sz" 1; Ceq "m" 0; Ceq "func1" 0; Ceq "form" 2]
    [SVs1; SVs2] [DVd] [] (SmVec (VEl OMax U16) true false);
  (* coralnpu_arith.bin_fmt:234 coralnpu_arith.isa:621 *)
  E "vmax_u_h_vv_m" GArith FV2 [Ceq "func2" 19; Ceq "sz" 1; Ceq "m" 1; Ceq "func1" 0; Ceq "form" 0]
    [SVs1; SVs2] [DVd] [] (SmVec (VEl OMax U16) false true);
  (* coralnpu_arith.bin_fmt:235 coralnpu_arith.isa:639 *)
  E "vmax_u_h_vx_m" GArith FV2 [Ceq "func2" 19; Ceq "sz" 1; Ceq "m" 1; Ceq "func1" 0; Ceq "form" 2]
    [SVs1; SVs2] [DVd] [] (SmVec (VEl OMax U16) true true);
  (* coralnpu_arith.bin_fmt:236 coralnpu_arith.isa:624 *)
  E "vmax_u_w_vv" GArith FV2 [Ceq "func2" 19; Ceq "sz" 2; Ceq "m" 0; Ceq "func1" 0; Ceq "form" 0]
    [SVs1; SVs2] [DVd] [] (SmVec (VEl OMax U32) false false);
  (* coralnpu_arith.bin_fmt:237 coralnpu_arith.isa:642 *)
  E "vmax_u_w_vx" GArith FV2 [Ceq "func2" 19; Ceq "sz" 2; Ceq "m" 0; Ceq "func1" 0; Ceq "form" 2]
    [SVs1; SVs2] [DVd] [] (SmVec (VEl OMax U32) true false);
  (* coralnpu_arith.bin_fmt:238 coralnpu_arith.isa:627 *)
  E "vmax_u_w_vv_m" GArith FV2 [Ceq "func2" 19; Ceq "sz" 2; Ceq "m" 1; Ceq "func1" 0; Ceq "form" 0]
    [SVs1; SVs2] [DVd] [] (SmVec (VEl OMax U32) false true);
  (* coralnpu_arith.bin_fmt:239 coralnpu_arith.isa:645 *)
  E "vmax_u_w_vx_m" GArith FV2 [Ceq "func2" 19; Ceq "sz" 2; Ceq "m" 1; Ceq "func1" 0; Ceq "form" 2]
    [SVs1; SVs2] [DVd] [] (SmVec (VEl OMax U32) true true);
  (* coralnpu_arith.bin_fmt:242 coralnpu_arith.isa:649 *)
  E "vmin_b_vv" GArith FV2 [Ceq "func2" 20; Ceq "sz" 0; Ceq "m" 0; Ceq "func1" 0; Ceq "form" 0]
    [SVs1; SVs2] [DVd] [] (SmVec (VEl OMin I8) false false);
  (* coralnpu_arith.bin_fmt:243 coralnpu_arith.isa:667 *)
  E "vmin_b_vx" GArith FV2 [Ceq "func2" 20; Ceq "sz" 0; Ceq "m" 0; Ceq "func1" 0; Ceq "form" 2]
    [SVs1; SVs2] [DVd] [] (SmVec (VEl OMin I8) true false);
  (* coralnpu_arith.bin_fmt:244 coralnpu_arith.isa:652 *)
  E "vmin_b_vv_m" GArith FV2 [Ceq "func2" 20; Ceq "sz" 0; Ceq "m" 1; Ceq "func1" 0; Ceq "form" 0]
    [SVs1; SVs2] [DVd] [] (SmVec (VEl OMin I8) false true);
  (* coralnpu_arith.bin_fmt:245 coralnpu_arith.isa:670 *)
  E "vmin_b_vx_m" GArith FV2 [Ceq "func2" 20; Ceq "sz" 0; Ceq "m" 1; Ceq "func1" 0; Ceq "form" 2]
    [SVs1; SVs2] [DVd] [] (SmVec (VEl OMin I8) true true);
  (* coralnpu_arith.bin_fmt:246 coralnpu_arith.isa:655 *)
  E "vmin_h_vv" GArith FV2 [Ceq "func2" 20; Ceq "sz" 1; Ceq "m" 0; Ceq "func1" 0; Ceq "form" 0]
    [SVs1; SVs2] [DVd] [] (SmVec (VEl OMin I16) false false);
  (* coralnpu_arith.bin_fmt:247 coralnpu_arith.isa:673 *)
  E "vmin_h_vx" GArith FV2 [Ceq "func2" 20; Ceq "sz" 1; Ceq "m" 0; Ceq "func1" 0; Ceq "form" 2]
    [SVs1; SVs2] [DVd] [] (SmVec (VEl OMin I16) true false);
  (* coralnpu_arith.bin_fmt:248 coralnpu_arith.isa:658 *)
  E "vmin_h_vv_m" GArith FV2 [Ceq "func2" 20; Ceq "sz" 1; Ceq "m" 1; Ceq "func1" 0; Ceq "form" 0]
    [SVs1; SVs2] [DVd] [] (SmVec (VEl OMin I16) false true);
  (* coralnpu_arith.bin_fmt:249 coralnpu_arith.isa:676 *)
  E "vmin_h_vx_m" GArith FV2 [Ceq "func2" 20; Ceq "sz" 1; Ceq "m" 1; Ceq "func1" 0; Ceq "form" 2]
    [SVs1; SVs2] [DVd] [] (SmVec (VEl OMin I16) true true);
  (* coralnpu_arith.bin_fmt:250 coralnpu_arith.isa:661 *)
  E "vmin_w_vv" GArith FV2 [Ceq "func2" 20; Ceq "sz" 2; Ceq "m" 0; Ceq "func1" 0; Ceq "form" 0]
    [SVs1; SVs2] [DVd] [] (SmVec (VEl OMin I32) false false);
  (* coralnpu_arith.bin_fmt:251 coralnpu_arith.isa:679 *)
  E "vmin_w_vx" GArith FV2 [Ceq "func2" 20; Ceq "sz" 2; Ceq "m" 0; Ceq "func1" 0; Ceq "form" 2]
    [SVs1; SVs2] [DVd] [] (SmVec (VEl OMin I32) true false);
  (* coralnpu_arith.bin_fmt:252 coralnpu_arith.isa:664 *)
  E "vmin_w_vv_m" GArith FV2 [Ceq "func2" 20; Ceq "sz" 2; Ceq "m" 1; Ceq "func1" 0; Ceq "form" 0]
    [SVs1; SVs2] [DVd] [] (SmVec (VEl OMin I32) false true);
  (* coralnpu_arith.bin_fmt:253 coralnpu_arith.isa:682 *)
  E "vmin_w_vx_m" GArith FV2 [Ceq "func2" 20; Ceq "sz" 2; Ceq "m" 1; Ceq "func1" 0; Ceq "form" 2]
    [SVs1; SVs2] [DVd] [] (SmVec (VEl OMin I32) true true);
  (* coralnpu_arith.bin_fmt:256 coralnpu_arith.isa:686 *)
  E "vmin_u_b_vv" GArith FV2 [Ceq "func2" 21; Ceq "sz" 0; Ceq "m" 0; Ceq "func1" 0; Ceq "form" 0]
    [SVs1; SVs2] [DVd] [] (SmVec (VEl OMin U8) false false);
  (* coralnpu_arith.bin_fmt:257 coralnpu_arith.isa:704 *)
  E "vmin_u_b_vx" GArith FV2 [Ceq "func2" 21; Ceq "sz" 0; Ceq "m" 0; Ceq "func1" 0; Ceq "form" 2]
    [SVs1; SVs2] [DVd] [] (SmVec (VEl OMin U8) true false);
  (* coralnpu_arith.bin_fmt:258 coralnpu_arith.isa:689 *)
  E "vmin_u_b_vv_m" GArith FV2 [Ceq "func2" 21; Ceq "sz" 0; Ceq "m" 1; Ceq "func1" 0; Ceq "form" 0]
    [SVs1; SVs2] [DVd] [] (SmVec (VEl OMin U8) false true);
  (* coralnpu_arith.bin_fmt:259 coralnpu_arith.isa:707 *)
  E "vmin_u_b_vx_m" GArith FV2 [Ceq "func2" 21; Ceq "sz" 0; Ceq "m" 1; Ceq "func1" 0; Ceq "form" 2]
    [SVs1; SVs2] [DVd] [] (SmVec (VEl OMin U8) true true);
  (* coralnpu_arith.bin_fmt:260 coralnpu_arith.isa:692 *)
  E "vmin_u_h_vv" GArith FV2 [Ceq "func2" 21; Ceq "sz" 1; Ceq "m" 0; Ceq "func1" 0; Ceq "form" 0]
    [SVs1; SVs2] [DVd] [] (SmVec (VEl OMin U16) false false);
  (* coralnpu_arith.bin_fmt:261 coralnpu_arith.isa:710 *)
  E "vmin_u_h_vx" GArith FV2 [Ceq "func2" 21; Ceq "sz" 1; Ceq "m" 0; Ceq "func1" 0; Ceq "form" 2]
    [SVs1; SVs2] [DVd] [] (SmVec (VEl OMin U16) true false);
  (* coralnpu_arith.bin_fmt:262 coralnpu_arith.isa:695 *)
  E "vmin_u_h_vv_m" GArith FV2 [Ceq "func2" 21; Ceq "sz" 1; Ceq "m" 1; Ceq "func1" 0; Ceq "form" 0]
    [SVs1; SVs2] [DVd] [] (SmVec (VEl OMin U16) false true);
  (* coralnpu_arith.bin_fmt:263 coralnpu_arith.isa:713 *)
  E "vmin_u_h_vx_m" GArith FV2 [Ceq "func2" 21; Ceq "sz" 1; Ceq "m" 1; Ceq "func1" 0; Ceq "form" 2]
    [SVs1; SVs2] [DVd] [] (SmVec (VEl OMin U16) true true);
  (* coralnpu_arith.bin_fmt:264 coralnpu_arith.isa:698 *)
  E "vmin_u_w_vv" GArith FV2 [Ceq "func2" 21; Ceq "sz" 2; Ceq "m" 0; Ceq "func1" 0; Ceq "form" 0]
    [SVs1; SVs2] [DVd] [] (SmVec (VEl OMin U32) false false);
  (* coralnpu_arith.bin_fmt:265 coralnpu_arith.isa:716 *)
  E "vmin_u_w_vx" GArith FV2 [Ceq "func2" 21; Ceq "sz" 2; Ceq "m" 0; Ceq "func1" 0; Ceq "form" 2]
    [SVs1; SVs2] [DVd] [] (SmVec (VEl OMin U32) true false);
  (* coralnpu_arith.bin_fmt:266 coralnpu_arith.isa:701 *)
  E "vmin_u_w_vv_m" GArith FV2 [Ceq "func2" 21; Ceq "sz" 2; Ceq "m" 1; Ceq "func1" 0; Ceq "form" 0]
    [SVs1; SVs2] [DVd] [] (SmVec (VEl OMin U32) false true);
  (* coralnpu_arith.bin_fmt:267 coralnpu_arith.isa:719 *)
  E "vmin_u_w_vx_m" GArith FV2 [Ceq "func2" 21; Ceq "sz" 2; Ceq "m" 1; Ceq "func1" 0; Ceq "form" 2]
    [SVs1; SVs2] [DVd] [] (SmVec (VEl OMin U32) true true);
  (* coralnpu_arith.bin_fmt:270 coralnpu_arith.isa:723 *)
  E "vadd3_b_vv" GArith FV2 [Ceq "func2" 24; Ceq "sz" 0; Ceq "m" 0; Ceq "func1" 0; Ceq "form" 0]
    [SVs1; SVs2; SVd] [DVd] [] (SmVec (VEl OAdd3 I8) false false);
  (* coralnpu_arith.bin_fmt:271 coralnpu_arith.isa:741 *)
  E "vadd3_b_vx" GArith FV2 [Ceq "func2" 24; Ceq "sz" 0; Ceq "m" 0; Ceq "func1" 0; Ceq "form" 2]
    [SVs1; SVs2; SVd] [DVd] [] (SmVec (VEl OAdd3 I8) true false);
  (* coralnpu_arith.bin_fmt:272 coralnpu_arith.isa:726 *)
  E "vadd3_b_vv_m" GArith FV2 [Ceq "func2" 24; Ceq "sz" 0; Ceq "m" 1; Ceq "func1" 0; Ceq "form" 0]
    [SVs1; SVs2; SVd] [DVd] [] (SmVec (VEl OAdd3 I8) false true);
  (* coralnpu_arith.bin_fmt:273 coralnpu_arith.isa:744 *)
  E "vadd3_b_vx_m" GArith FV2 [Ceq "func2" 24; Ceq "sz" 0; Ceq "m" 1; Ceq "func1" 0; Ceq "form" 2]
    [SVs1; SVs2; SVd] [DVd] [] (SmVec (VEl OAdd3 I8) true true);
  (* coralnpu_arith.bin_fmt:274 coralnpu_arith.isa:729 *)
  E "vadd3_h_vv" GArith FV2 [Ceq "func2" 24; Ceq "sz" 1; Ceq "m" 0; Ceq "func1" 0; Ceq "form" 0]
    [SVs1; SVs2; SVd] [DVd] [] (SmVec (VEl OAdd3 I16) false false);
  (* coralnpu_arith.bin_fmt:275 coralnpu_arith.isa:747 *)
  E "vadd3_h_vx" GArith FV2 [Ceq "func2" 24; Ceq "sz" 1; Ceq "m" 0; Ceq "func1" 0; Ceq "form" 2]
    [SVs1; SVs2; SVd] [DVd] [] (SmVec (VEl OAdd3 I16) true false);
  (* coralnpu_arith.bin_fmt:276 coralnpu_arith.isa:732 *)
  E "vadd3_h_vv_m" GArith FV2 [Ceq "func2" 24; Ceq "sz" 1; Ceq "m" 1; Ceq "func1" 0; Ceq "form" 0]
    [SVs1; SVs2; SVd] [DVd] [] (SmVec (VEl OAdd3 I16) false true);
  (* coralnpu_arith.bin_fmt:277 coralnpu_arith.isa:750 *)
  E "vadd3_h_vx_m" GArith FV2 [Ceq "func2" 24; Ceq "sz" 1; Ceq "m" 1; Ceq "func1" 0; Ceq "form" 2]
    [SVs1; SVs2; SVd] [DVd] [] (SmVec (VEl OAdd3 I16) true true);
  (* coralnpu_arith.bin_fmt:278 coralnpu_arith.isa:735 *)
  E "vadd3_w_vv" GArith FV2 [Ceq "func2" 24; Ceq "sz" 2; Ceq "m" 0; Ceq "func1" 0; Ceq "form" 0]
    [SVs1; SVs2; SVd] [DVd] [] (SmVec (VEl OAdd3 I32) false false);
  (* coralnpu_arith.bin_fmt:279 coralnpu_arith.isa:753 *)
  E "vadd3_w_vx" GArith FV2 [Ceq "func2" 24; Ceq "sz" 2; Ceq "m" 0; Ceq "func1" 0; Ceq "form" 2]
    [SVs1; SVs2; SVd] [DVd] [] (SmVec (VEl OAdd3 I32) true false);
  (* coralnpu_arith.bin_fmt:280 coralnpu_arith.isa:738 *)
  E "vadd3_w_vv_m" GArith FV2 [Ceq "func2" 24; Ceq "sz" 2; Ceq "m" 1; Ceq "func1" 0; Ceq "form" 0]
    [SVs1; SVs2; SVd] [DVd] [] (SmVec (VEl OAdd3 I32) false true);
  (* coralnpu_arith.bin_fmt:281 coralnpu_arith.isa:756 *)
  E "vadd3_w_vx_m" GArith FV2 [Ceq "func2" 24; Ceq "sz" 2; Ceq "m" 1; Ceq "func1" 0; Ceq "form" 2]
    [SVs1; SVs2; SVd] [DVd] [] (SmVec (VEl OAdd3 I32) true true);
  (* coralnpu_arith.bin_fmt:284 coralnpu_arith.isa:761 *)
  E "vadds_b_vv" GArith FV2 [Ceq "func2" 0; Ceq "sz" 0; Ceq "m" 0; Ceq "func1" 4; Ceq "form" 0]
    [SVs1; SVs2] [DVd] [] (SmVec (VEl OAdds I8) false false);
  (* coralnpu_arith.bin_fmt:285 coralnpu_arith.isa:779 *)
  E "vadds_b_vx" GArith FV2 [Ceq "func2" 0; Ceq "sz" 0; Ceq "m" 0; Ceq "func1" 4; Ceq "form" 2]
    [SVs1; SVs2] [DVd] [] (SmVec (VEl OAdds I8) true false);
  (* coralnpu_arith.bin_fmt:286 coralnpu_arith.isa:764 *)
  E "vadds_b_vv_m" GArith FV2 [Ceq "func2" 0; Ceq "sz" 0; Ceq "m" 1; Ceq "func1" 4; Ceq "form" 0]
    [SVs1; SVs2] [DVd] [] (SmVec (VEl OAdds I8) false true);
  (* coralnpu_arith.bin_fmt:287 coralnpu_arith.isa:782 *)
  E "vadds_b_vx_m" GArith FV2 [Ceq "func2" 0; Ceq "sz" 0; Ceq "m" 1; Ceq "func1" 4; Ceq "form" 2]
    [SVs1; SVs2] [DVd] [] (SmVec (VEl OAdds I8) true true);
  (* coralnpu_arith.bin_fmt:288 coralnpu_arith.isa:767 *)
  E "vadds_h_vv" GArith FV2 [Ceq "func2" 0; Ceq "sz" 1; Ceq "m" 0; Ceq "func1" 4; Ceq "form" 0]
    [SVs1; SVs2] [DVd] [] (SmVec (VEl OAdds I16) false false);
  (* coralnpu_arith.bin_fmt:289 coralnpu_arith.isa:785 *)
  E "vadds_h_vx" GArith FV2 [Ceq "func2" 0; Ceq "sz" 1; Ceq "m" 0; Ceq "func1" 4; Ceq "form" 2]
    [SVs1; SVs2] [DVd] [] (SmVec (VEl OAdds I16) true false);
  (* coralnpu_arith.bin_fmt:290 coralnpu_arith.isa:770 *)
  E "vadds_h_vv_m" GArith FV2 [Ceq "func2" 0; Ceq "sz" 1; Ceq "m" 1; Ceq "func1" 4; Ceq "form" 0]
    [SVs1; SVs2] [DVd] [] (SmVec (VEl OAdds I16) false true);
  (* coralnpu_arith.bin_fmt:291 coralnpu_arith.isa:788 *)
  E "vadds_h_vx_m" GArith FV2 [Ceq "func2" 0; Ceq "sz" 1; Ceq "m" 1; Ceq "func1" 4; Ceq "form" 2]
    [SVs1; SVs2] [DVd] [] (SmVec (VEl OAdds I16) true true);
  (* coralnpu_arith.bin_fmt:292 coralnpu_arith.isa:773 *)
  E "vadds_w_vv" GArith FV2 [Ceq "func2" 0; Ceq "sz" 2; Ceq "m" 0; Ceq "func1" 4; Ceq "form" 0]
    [SVs1; SVs2] [DVd] [] (SmVec (VEl OAdds I32) false false);
  (* coralnpu_arith.bin_fmt:293 coralnpu_arith.isa:791 *)
  E "vadds_w_vx" GArith FV2 [Ceq "func2" 0; Ceq "sz" 2; Ceq "m" 0; Ceq "func1" 4; Ceq "form" 2]
    [SVs1; SVs2] [DVd] [] (SmVec (VEl OAdds I32) true false);
  (* coralnpu_arith.bin_fmt:294 coralnpu_arith.isa:776 *)
  E "vadds_w_vv_m" GArith FV2 [Ceq "func2" 0; Ceq "sz" 2; Ceq "m" 1; Ceq "func1" 4; Ceq "form" 0]
    [SVs1; SVs2] [DVd] [] (SmVec (VEl OAdds I32) false true);
  (* coralnpu_arith.bin_fmt:295 coralnpu_arith.isa:794 *)
  E "vadds_w_vx_m" GArith FV2 [Ceq "func2" 0; Ceq "sz" 2; Ceq "m" 1; Ceq "func1" 4; Ceq "form" 2]
    [SVs1; SVs2] [DVd] [] (SmVec (VEl OAdds I32) true true);
  (* coralnpu_arith.bin_fmt:298 coralnpu_arith.isa:799 *)
  E "vadds_u_b_vv" GArith FV2 [Ceq "func2" 1; Ceq "sz" 0; Ceq "m" 0; Ceq "func1" 4; Ceq "form" 0]
    [SVs1; SVs2] [DVd] [] (SmVec (VEl OAddsu U8) false false);
  (* coralnpu_arith.bin_fmt:299 coralnpu_arith.isa:817 *)
  E "vadds_u_b_vx" GArith FV2 [Ceq "func2" 1; Ceq "sz" 0; Ceq "m" 0; Ceq "func1" 4; Ceq "form" 2]
    [SVs1; SVs2] [DVd] [] (SmVec (VEl OAddsu U8) true false);
  (* coralnpu_arith.bin_fmt:300 coralnpu_arith.isa:802 *)
  E "vadds_u_b_vv_m" GArith FV2 [Ceq "func2" 1; Ceq "sz" 0; Ceq "m" 1; Ceq "func1" 4; Ceq "form" 0]
    [SVs1; SVs2] [DVd] [] (SmVec (VEl OAddsu U8) false true);
  (* coralnpu_arith.bin_fmt:301 coralnpu_arith.isa:820 *)
  E "vadds_u_b_vx_m" GArith FV2 [Ceq "func2" 1; Ceq "sz" 0; Ceq "m" 1; Ceq "func1" 4; Ceq "form" 2]
    [SVs1; SVs2] [DVd] [] (SmVec (VEl OAddsu U8) true true);
  (* coralnpu_arith.bin_fmt:302 coralnpu_arith.isa:805 *)
  E "vadds_u_h_vv" GArith FV2 [Ceq "func2" 1; Ceq "sz" 1; Ceq "m" 0; Ceq "func1" 4; Ceq "form" 0]
    [SVs1; SVs2] [DVd] [] (SmVec (VEl OAddsu U16) false false);
  (* coralnpu_arith.bin_fmt:303 coralnpu_arith.isa:823 *)
  E "vadds_u_h_vx" GArith FV2 [Ceq "func2" 1; Ceq "sz" 1; Ceq "m" 0; Ceq "func1" 4; Ceq "form" 2]
    [SVs1; SVs2] [DVd] [] (SmVec (VEl OAddsu U16) true false);
  (* coralnpu_arith.bin_fmt:304 coralnpu_arith.isa:808 *)
  E "vadds_u_h_vv_m" GArith FV2 [Ceq "func2" 1; Ceq "sz" 1; Ceq "m" 1; Ceq "func1" 4; Ceq "form" 0]
    [SVs1; SVs2] [DVd] [] (SmVec (VEl OAddsu U16) false true);
  (* coralnpu_arith.bin_fmt:305 coralnpu_arith.isa:826 *)
  E "vadds_u_h_vx_m" GArith FV2 [Ceq "func2" 1; Ceq "sz" 1; Ceq "m" 1; Ceq "func1" 4; Ceq "form" 2]
    [SVs1; SVs2] [DVd] [] (SmVec (VEl OAddsu U16) true true);
  (* coralnpu_arith.bin_fmt:306 coralnpu_arith.isa:811 *)
  E "vadds_u_w_vv" GArith FV2 [Ceq "func2" 1; Ceq "sz" 2; Ceq "m" 0; Ceq "func1" 4; Ceq "form" 0]
    [SVs1; SVs2] [DVd] [] (SmVec (VEl OAddsu U32) false false);
  (* coralnpu_arith.bin_fmt:307 coralnpu_arith.isa:829 *)
  E "vadds_u_w_vx" GArith FV2 [Ceq "func2" 1; Ceq "sz" 2; Ceq "m" 0; Ceq "func1" 4; Ceq "form" 2]
    [SVs1; SVs2] [DVd] [] (SmVec (VEl OAddsu U32) true false);
  (* coralnpu_arith.bin_fmt:308 coralnpu_arith.isa:814 *)
  E "vadds_u_w_vv_m" GArith FV2 [Ceq "func2" 1; Ceq "sz" 2; Ceq "m" 1; Ceq "func1" 4; Ceq "form" 0]
    [SVs1; SVs2] [DVd] [] (SmVec (VEl OAddsu U32) false true);
  (* coralnpu_arith.bin_fmt:309 coralnpu_arith.isa:832 *)
  E "vadds_u_w_vx_m" GArith FV2 [Ceq "func2" 1; Ceq "sz" 2; Ceq "m" 1; Ceq "func1" 4; Ceq "form" 2]
    [SVs1; SVs2] [DVd] [] (SmVec (VEl OAddsu U32) true true);
  (* coralnpu_arith.bin_fmt:312 coralnpu_arith.isa:837 *)
  E "vsubs_b_vv" GArith FV2 [Ceq "func2" 2; Ceq "sz" 0; Ceq "m" 0; Ceq "func1" 4; Ceq "form" 0]
    [SVs1; SVs2] [DVd] [] (SmVec (VEl OSubs I8) false false);
  (* coralnpu_arith.bin_fmt:313 coralnpu_arith.isa:855 *)
  E "vsubs_b_vx" GArith FV2 [Ceq "func2" 2; Ceq "sz" 0; Ceq "m" 0; Ceq "func1" 4; Ceq "form" 2]
    [SVs1; SVs2] [DVd] [] (SmVec (VEl OSubs I8) true false);
  (* coralnpu_arith.bin_fmt:314 coralnpu_arith.isa:840 *)
  E "vsubs_b_vv_m" GArith FV2 [Ceq "func2" 2; Ceq "sz" 0; Ceq "m" 1; Ceq "func1" 4; Ceq "form" 0]
    [SVs1; SVs2] [DVd] [] (SmVec (VEl OSubs I8) false true);
  (* coralnpu_arith.bin_fmt:315 coralnpu_arith.isa:858 *)
  E "vsubs_b_vx_m" GArith FV2 [Ceq "func2" 2; Ceq "sz" 0; Ceq "m" 1; Ceq "func1" 4; Ceq "form" 2]
    [SVs1; SVs2] [DVd] [] (SmVec (VEl OSubs I8) true true);
  (* coralnpu_arith.bin_fmt:316 coralnpu_arith.isa:843 *)
  E "vsubs_h_vv" GArith FV2 [Ceq "func2" 2; Ceq "sz" 1; Ceq "m" 0; Ceq "func1" 4; Ceq "form" 0]
    [SVs1; SVs2] [DVd] [] (SmVec (VEl OSubs I16) false false);
  (* coralnpu_arith.bin_fmt:317 coralnpu_arith.isa:861 *)
  E "vsubs_h_vx" GArith FV2 [Ceq "func2" 2; Ceq "sz" 1; Ceq "m" 0; Ceq "func1" 4; Ceq "form" 2]
    [SVs1; SVs2] [DVd] [] (SmVec (VEl OSubs I16) true false);
  (* coralnpu_arith.bin_fmt:318 coralnpu_arith.isa:846 *)
  E "vsubs_h_vv_m" GArith FV2 [Ceq "func2" 2; Ceq "sz" 1; Ceq "m" 1; Ceq "func1" 4; Ceq "form" 0]
    [SVs1; SVs2] [DVd] [] (SmVec (VEl OSubs I16) false true);
  (* coralnpu_arith.bin_fmt:319 coralnpu_arith.isa:864 *)
  E "vsubs_h_vx_m" GArith FV2 [Ceq "func2" 2; Ceq "sz" 1; Ceq "m" 1; Ceq "func1" 4; Ceq "form" 2]
    [SVs1; SVs2] [DVd] [] (SmVec (VEl OSubs I16) true true);
  (* coralnpu_arith.bin_fmt:320 coralnpu_arith.isa:849 *)
  E "vsubs_w_vv" GArith FV2 [Ceq "func2" 2; Ceq "sz" 2; Ceq "m" 0; Ceq "func1" 4; Ceq "form" 0]
    [SVs1; SVs2] [DVd] [] (SmVec (VEl OSubs I32) false false);
  (* coralnpu_arith.bin_fmt:321 coralnpu_arith.isa:867 *)
  E "vsubs_w_vx" GArith FV2 [Ceq "func2" 2; Ceq "sz" 2; Ceq "m" 0; Ceq "func1" 4; Ceq "form" 2]
    [SVs1; SVs2] [DVd] [] (SmVec (VEl OSubs I32) true false);
  (* coralnpu_arith.bin_fmt:322 coralnpu_arith.isa:852 *)
  E "vsubs_w_vv_m" GArith FV2 [Ceq "func2" 2; Ceq "sz" 2; Ceq "m" 1; Ceq "func1" 4; Ceq "form" 0]
    [SVs1; SVs2] [DVd] [] (SmVec (VEl OSubs I32) false true);
  (* coralnpu_arith.bin_fmt:323 coralnpu_arith.isa:870 *)
  E "vsubs_w_vx_m" GArith FV2 [Ceq "func2" 2; Ceq "sz" 2; Ceq "m" 1; Ceq "func1" 4; Ceq "form" 2]
    [SVs1; SVs2] [DVd] [] (SmVec (VEl OSubs I32) true true);
  (* coralnpu_arith.bin_fmt:326 coralnpu_arith.isa:875 *)
  E "vsubs_u_b_vv" GArith FV2 [Ceq "func2" 3; Ceq "sz" 0; Ceq "m" 0; Ceq "func1" 4; Ceq "form" 0]
    [SVs1; SVs2] [DVd] [] (SmVec (VEl OSubsu U8) false false);
  (* coralnpu_arith.bin_fmt:327 coralnpu_arith.isa:893 *)
  E "vsubs_u_b_vx" GArith FV2 [Ceq "func2" 3; Ceq "sz" 0; Ceq "m" 0; Ceq "func1" 4; Ceq "form" 2]
    [SVs1; SVs2] [DVd] [] (SmVec (VEl OSubsu U8) true false);
  (* coralnpu_arith.bin_fmt:328 coralnpu_arith.isa:878 *)
  E "vsubs_u_b_vv_m" GArith FV2 [Ceq "func2" 3; Ceq "sz" 0; Ceq "m" 1; Ceq "func1" 4; Ceq "form" 0]
    [SVs1; SVs2] [DVd] [] (SmVec (VEl OSubsu U8) false true);
  (* coralnpu_arith.bin_fmt:329 coralnpu_arith.isa:896 *)
  E "vsubs_u_b_vx_m" GArith FV2 [Ceq "func2" 3; Ceq "sz" 0; Ceq "m" 1; Ceq "func1" 4; Ceq "form" 2]
    [SVs1; SVs2] [DVd] [] (SmVec (VEl OSubsu U8) true true);
  (* coralnpu_arith.bin_fmt:330 coralnpu_arith.isa:881 *)
  E "vsubs_u_h_vv" GArith FV2 [Ceq "func2" 3; Ceq "sz" 1; Ceq "m" 0; Ceq "func1" 4; Ceq "form" 0]
    [SVs1; SVs2] [DVd] [] (SmVec (VEl OSubsu U16) false false);
  (* coralnpu_arith.bin_fmt:331 coralnpu_arith.isa:899 *)
  E "vsubs_u_h_vx" GArith FV2 [Ceq "func2" 3; Ceq "sz" 1; Ceq "m" 0; Ceq "func1" 4; Ceq "form" 2]
    [SVs1; SVs2] [DVd] [] (SmVec (VEl OSubsu U16) true false);
  (* coralnpu_arith.bin_fmt:332 coralnpu_arith.isa:884 *)
  E "vsubs_u_h_vv_m" GArith FV2 [Ceq "func2" 3; Ceq "sz" 1; Ceq "m" 1; Ceq "func1" 4; Ceq "form" 0]
    [SVs1; SVs2] [DVd] [] (SmVec (VEl OSubsu U16) false true);
  (* coralnpu_arith.bin_fmt:333 coralnpu_arith.isa:902 *)
  E "vsubs_u_h_vx_m" GArith FV2 [Ceq "func2" 3; Ceq "sz" 1; Ceq "m" 1; Ceq "func1" 4; Ceq "form" 2]
    [SVs1; SVs2] [DVd] [] (SmVec (VEl OSubsu U16) true true);
  (* coralnpu_arith.bin_fmt:334 coralnpu_arith.isa:887 *)
  E "vsubs_u_w_vv" GArith FV2 [Ceq "func2" 3; Ceq "sz" 2; Ceq "m" 0; Ceq "func1" 4; Ceq "form" 0]
    [SVs1; SVs2] [DVd] [] (SmVec (VEl OSubsu U32) false false);
  (* coralnpu_arith.bin_fmt:335 coralnpu_arith.isa:905 *)
  E "vsubs_u_w_vx" GArith FV2 [Ceq "func2" 3; Ceq "sz" 2; Ceq "m" 0; Ceq "func1" 4; Ceq "form" 2]
    [SVs1; SVs2] [DVd] [] (SmVec (VEl OSubsu U32) true false);
  (* coralnpu_arith.bin_fmt:336 coralnpu_arith.isa:890 *)
  E "vsubs_u_w_vv_m" GArith FV2 [Ceq "func2" 3; Ceq "sz" 2; Ceq "m" 1; Ceq "func1" 4; Ceq "form" 0]
    [SVs1; SVs2] [DVd] [] (SmVec (VEl OSubsu U32) false true);
  (* coralnpu_arith.bin_fmt:337 coralnpu_arith.isa:908 *)
  E "vsubs_u_w_vx_m" GArith FV2 [Ceq "func2" 3; Ceq "sz" 2; Ceq "m" 1; Ceq "func1" 4; Ceq "form" 2]
    [SVs1; SVs2] [DVd] [] (SmVec (VEl OSubsu U32) true true);
  (* coralnpu_arith.bin_fmt:340 coralnpu_arith.isa:913 *)
  E "vaddw_h_vv" GArith FV2 [Ceq "func2" 4; Ceq "sz" 1; Ceq "m" 0; Ceq "func1" 4; Ceq "form" 0]
    [SVs1; SVs2] [DVd] [] (SmVec (VWiden WAdd I16 I8) false false);
  (* coralnpu_arith.bin_fmt:341 coralnpu_arith.isa:925 *)
  E "vaddw_h_vx" GArith FV2 [Ceq "func2" 4; Ceq "sz" 1; Ceq "m" 0; Ceq "func1" 4; Ceq "form" 2]
    [SVs1; SVs2] [DVd] [] (SmVec (VWiden WAdd I16 I8) true false);
  (* coralnpu_arith.bin_fmt:342 coralnpu_arith.isa:916 *)
  E "vaddw_h_vv_m" GArith FV2 [Ceq "func2" 4; Ceq "sz" 1; Ceq "m" 1; Ceq "func1" 4; Ceq "form" 0]
    [SVs1; SVs2] [DVd] [] (SmVec (VWiden WAdd I16 I8) false true);
  (* coralnpu_arith.bin_fmt:343 coralnpu_arith.isa:928 *)
  E "vaddw_h_vx_m" GArith FV2 [Ceq "func2" 4; Ceq "sz" 1; Ceq "m" 1; Ceq "func1" 4; Ceq "form" 2]
    [SVs1; SVs2] [DVd] [] (SmVec (VWiden WAdd I16 I8) true true);
  (* coralnpu_arith.bin_fmt:344 coralnpu_arith.isa:919 *)
  E "vaddw_w_vv" GArith FV2 [Ceq "func2" 4; Ceq "sz" 2; Ceq "m" 0; Ceq "func1" 4; Ceq "form" 0]
    [SVs1; SVs2] [DVd] [] (SmVec (VWiden WAdd I32 I16) false false);
  (* coralnpu_arith.bin_fmt:345 coralnpu_arith.isa:931 *)
  E "vaddw_w_vx" GArith FV2 [Ceq "func2" 4; Ceq "sz" 2; Ceq "m" 0; Ceq "func1" 4; Ceq "form" 2]
    [SVs1; SVs2] [DVd] [] (SmVec (VWiden WAdd I32 I16) true false);
  (* coralnpu_arith.bin_fmt:346 coralnpu_arith.isa:922 *)
  E "vaddw_w_vv_m" GArith FV2 [Ceq "func2" 4; Ceq "sz" 2; Ceq "m" 1; Ceq "func1" 4; Ceq "form" 0]
    [SVs1; SVs2] [DVd] [] (SmVec (VWiden WAdd I32 I16) false true);
  (* coralnpu_arith.bin_fmt:347 coralnpu_arith.isa:934 *)
  E "vaddw_w_vx_m" GArith FV2 [Ceq "func2" 4; Ceq "sz" 2; Ceq "m" 1; Ceq "func1" 4; Ceq "form" 2]
    [SVs1; SVs2] [DVd] [] (SmVec (VWiden WAdd I32 I16) true true);
  (* coralnpu_arith.bin_fmt:350 coralnpu_arith.isa:939 *)
  E "vaddw_h_u_vv" GArith FV2 [Ceq "func2" 5; Ceq "sz" 1; Ceq "m" 0; Ceq "func1" 4; Ceq "form" 0]
    [SVs1; SVs2] [DVd] [] (SmVec (VWiden WAdd U16 U8) false false);
  (* coralnpu_arith.bin_fmt:351 coralnpu_arith.isa:951 *)
  E "vaddw_h_u_vx" GArith FV2 [Ceq "func2" 5; Ceq "sz" 1; Ceq "m" 0; Ceq "func1" 4; Ceq "form" 2]
    [SVs1; SVs2] [DVd] [] (SmVec (VWiden WAdd U16 U8) true false);
  (* coralnpu_arith.bin_fmt:352 coralnpu_arith.isa:942 *)
  E "vaddw_h_u_vv_m" GArith FV2 [Ceq "func2" 5; Ceq "sz" 1; Ceq "m" 1; Ceq "func1" 4; Ceq "form" 0]
    [SVs1; SVs2] [DVd] [] (SmVec (VWiden WAdd U16 U8) false true);
  (* coralnpu_arith.bin_fmt:353 coralnpu_arith.isa:954 *)
  E "vaddw_h_u_vx_m" GArith FV2 [Ceq "func2" 5; Ceq "sz" 1; Ceq "m" 1; Ceq "func1" 4; Ceq "form" 2]
    [SVs1; SVs2] [DVd] [] (SmVec (VWiden WAdd U16 U8) true true);
  (* coralnpu_arith.bin_fmt:354 coralnpu_arith.isa:945 *)
  E "vaddw_w_u_vv" GArith FV2 [Ceq "func2" 5; Ceq "sz" 2; Ceq "m" 0; Ceq "func1" 4; Ceq "form" 0]
    [SVs1; SVs2] [DVd] [] (SmVec (VWiden WAdd U32 U16) false false);
  (* coralnpu_arith.bin_fmt:355 coralnpu_arith.isa:957 *)
  E "vaddw_w_u_vx" GArith FV2 [Ceq "func2" 5; Ceq "sz" 2; Ceq "m" 0; Ceq "func1" 4; Ceq "form" 2]
    [SVs1; SVs2] [DVd] [] (SmVec (VWiden WAdd U32 U16) true false);
  (* coralnpu_arith.bin_fmt:356 coralnpu_arith.isa:948 *)
  E "vaddw_w_u_vv_m" GArith FV2 [Ceq "func2" 5; Ceq "sz" 2; Ceq "m" 1; Ceq "func1" 4; Ceq "form" 0]
    [SVs1; SVs2] [DVd] [] (SmVec (VWiden WAdd U32 U16) false true);
  (* coralnpu_arith.bin_fmt:357 coralnpu_arith.isa:960 *)
  E "vaddw_w_u_vx_m" GArith FV2 [Ceq "func2" 5; Ceq "sz" 2; Ceq "m" 1; Ceq "func1" 4; Ceq "form" 2]
    [SVs1; SVs2] [DVd] [] (SmVec (VWiden WAdd U32 U16) true true);
  (* coralnpu_arith.bin_fmt:360 coralnpu_arith.isa:965 *)
  E "vsubw_h_vv" GArith FV2 [Ceq "func2" 6; Ceq "sz" 1; Ceq "m" 0; Ceq "func1" 4; Ceq "form" 0]
    [SVs1; SVs2] [DVd] [] (SmVec (VWiden WSub I16 I8) false false);
  (* coralnpu_arith.bin_fmt:361 coralnpu_arith.isa:977 *)
  E "vsubw_h_vx" GArith FV2 [Ceq "func2" 6; Ceq "sz" 1; Ceq "m" 0; Ceq "func1" 4; Ceq "form" 2]
    [SVs1; SVs2] [DVd] [] (SmVec (VWiden WSub I16 I8) true false);
  (* coralnpu_arith.bin_fmt:362 coralnpu_arith.isa:968 *)
  E "vsubw_h_vv_m" GArith FV2 [Ceq "func2" 6; Ceq "sz" 1; Ceq "m" 1; Ceq "func1" 4; Ceq "form" 0]
    [SVs1; SVs2] [DVd] [] (SmVec (VWiden WSub I16 I8) false true);
  (* coralnpu_arith.bin_fmt:363 coralnpu_arith.isa:980 *)
  E "vsubw_h_vx_m" GArith FV2 [Ceq "func2" 6; Ceq "sz" 1; Ceq "m" 1; Ceq "func1" 4; Ceq "form" 2]
    [SVs1; SVs2] [DVd] [] (SmVec (VWiden WSub I16 I8) true true);
  (* coralnpu_arith.bin_fmt:364 coralnpu_arith.isa:971 *)
  E "vsubw_w_vv" GArith FV2 [Ceq "func2" 6; Ceq "sz" 2; Ceq "m" 0; Ceq "func1" 4; Ceq "form" 0]
    [SVs1; SVs2] [DVd] [] (SmVec (VWiden WSub I32 I16) false false);
  (* coralnpu_arith.bin_fmt:365 coralnpu_arith.isa:983 *)
  E "vsubw_w_vx" GArith FV2 [Ceq "func2" 6; Ceq "sz" 2; Ceq "m" 0; Ceq "func1" 4; Ceq "form" 2]
    [SVs1; SVs2] [DVd] [] (SmVec (VWiden WSub I32 I16) true false);
  (* coralnpu_arith.bin_fmt:366 coralnpu_arith.isa:974 *)
  E "vsubw_w_vv_m" GArith FV2 [Ceq "func2" 6; Ceq "sz" 2; Ceq "m" 1; Ceq "func1" 4; Ceq "form" 0]
    [SVs1; SVs2] [DVd] [] (SmVec (VWiden WSub I32 I16) false true);
  (* coralnpu_arith.bin_fmt:367 coralnpu_arith.isa:986 *)
  E "vsubw_w_vx_m" GArith FV2 [Ceq "func2" 6; Ceq "sz" 2; Ceq "m" 1; Ceq "func1" 4; Ceq "form" 2]
    [SVs1; SVs2] [DVd] [] (SmVec (VWiden WSub I32 I16) true true);
  (* coralnpu_arith.bin_fmt:370 coralnpu_arith.isa:991 *)
  E "vsubw_h_u_vv" GArith FV2 [Ceq "func2" 7; Ceq "sz" 1; Ceq "m" 0; Ceq "func1" 4; Ceq "form" 0]
    [SVs1; SVs2] [DVd] [] (SmVec (VWiden WSub U16 U8) false false);
  (* coralnpu_arith.bin_fmt:371 coralnpu_arith.isa:1003 *)
  E "vsubw_h_u_vx" GArith FV2 [Ceq "func2" 7; Ceq "sz" 1; Ceq "m" 0; Ceq "func1" 4; Ceq "form" 2]
    [SVs1; SVs2] [DVd] [] (SmVec (VWiden WSub U16 U8) true false);
  (* coralnpu_arith.bin_fmt:372 coralnpu_arith.isa:994 *)
  E "vsubw_h_u_vv_m" GArith FV2 [Ceq "func2" 7; Ceq "sz" 1; Ceq "m" 1; Ceq "func1" 4; Ceq "form" 0]
    [SVs1; SVs2] [DVd] [] (SmVec (VWiden WSub U16 U8) false true);
  (* coralnpu_arith.bin_fmt:373 coralnpu_arith.isa:1006 *)
  E "vsubw_h_u_vx_m" GArith FV2 [Ceq "func2" 7; Ceq "sz" 1; Ceq "m" 1; Ceq "func1" 4; Ceq "form" 2]
    [SVs1; SVs2] [DVd] [] (SmVec (VWiden WSub U16 U8) true true);
  (* coralnpu_arith.bin_fmt:374 coralnpu_arith.isa:997 *)
  E "vsubw_w_u_vv" GArith FV2 [Ceq "func2" 7; Ceq "sz" 2; Ceq "m" 0; Ceq "func1" 4; Ceq "form" 0]
    [SVs1; SVs2] [DVd] [] (SmVec (VWiden WSub U32 U16) false false);
  (* coralnpu_arith.bin_fmt:375 coralnpu_arith.isa:1009 *)
  E "vsubw_w_u_vx" GArith FV2 [Ceq "func2" 7; Ceq "sz" 2; Ceq "m" 0; Ceq "func1" 4; Ceq "form" 2]
    [SVs1; SVs2] [DVd] [] (SmVec (VWiden WSub U32 U16) true false);
  (* coralnpu_arith.bin_fmt:376 coralnpu_arith.isa:1000 *)
  E "vsubw_w_u_vv_m" GArith FV2 [Ceq "func2" 7; Ceq "sz" 2; Ceq "m" 1; Ceq "func1" 4; Ceq "form" 0]
    [SVs1; SVs2] [DVd] [] (SmVec (VWiden WSub U32 U16) false true);
  (* coralnpu_arith.bin_fmt:377 coralnpu_arith.isa:1012 *)
  E "vsubw_w_u_vx_m" GArith FV2 [Ceq "func2" 7; Ceq "sz" 2; Ceq "m" 1; Ceq "func1" 4; Ceq "form" 2]
    [SVs1; SVs2] [DVd] [] (SmVec (VWiden WSub U32 U16) true true);
  (* coralnpu_arith.bin_fmt:380 coralnpu_arith.isa:1017 *)
  E "vacc_h_vv" GArith FV2 [Ceq "func2" 10; Ceq "sz" 1; Ceq "m" 0; Ceq "func1" 4; Ceq "form" 0]
    [SVs1; SVs2] [DVd] [] (SmVec (VAcc I16 I8) false false);
  (* coralnpu_arith.bin_fmt:381 coralnpu_arith.isa:1029 *)
  E "vacc_h_vx" GArith FV2 [Ceq "func2" 10; Ceq "sz" 1; Ceq "m" 0; Ceq "func1" 4; Ceq "form" 2]
    [SVs1; SVs2] [DVd] [] (SmVec (VAcc I16 I8) true false);
  (* coralnpu_arith.bin_fmt:382 coralnpu_arith.isa:1020 *)
  E "vacc_h_vv_m" GArith FV2 [Ceq "func2" 10; Ceq "sz" 1; Ceq "m" 1; Ceq "func1" 4; Ceq "form" 0]
    [SVs1; SVs2] [DVd] [] (SmVec (VAcc I16 I8) false true);
  (* coralnpu_arith.bin_fmt:383 coralnpu_arith.isa:1032 *)
  E "vacc_h_vx_m" GArith FV2 [Ceq "func2" 10; Ceq "sz" 1; Ceq "m" 1; Ceq "func1" 4; Ceq "form" 2]
    [SVs1; SVs2] [DVd] [] (SmVec (VAcc I16 I8) true true);
  (* coralnpu_arith.bin_fmt:384 coralnpu_arith.isa:1023 *)
  E "vacc_w_vv" GArith FV2 [Ceq "func2" 10; Ceq "sz" 2; Ceq "m" 0; Ceq "func1" 4; Ceq "form" 0]
    [SVs1; SVs2] [DVd] [] (SmVec (VAcc I32 I16) false false);
  (* coralnpu_arith.bin_fmt:385 coralnpu_arith.isa:1035 *)
  E "vacc_w_vx" GArith FV2 [Ceq "func2" 10; Ceq "sz" 2; Ceq "m" 0; Ceq "func1" 4; Ceq "form" 2]
    [SVs1; SVs2] [DVd] [] (SmVec (VAcc I32 I16) true false);
  (* coralnpu_arith.bin_fmt:386 coralnpu_arith.isa:1026 *)
  E "vacc_w_vv_m" GArith FV2 [Ceq "func2" 10; Ceq "sz" 2; Ceq "m" 1; Ceq "func1" 4; Ceq "form" 0]
    [SVs1; SVs2] [DVd] [] (SmVec (VAcc I32 I16) false true);
  (* coralnpu_arith.bin_fmt:387 coralnpu_arith.isa:1038 *)
  E "vacc_w_vx_m" GArith FV2 [Ceq "func2" 10; Ceq "sz" 2; Ceq "m" 1; Ceq "func1" 4; Ceq "form" 2]
    [SVs1; SVs2] [DVd] [] (SmVec (VAcc I32 I16) true true);
  (* coralnpu_arith.bin_fmt:390 coralnpu_arith.isa:1043 *)
  E "vacc_h_u_vv" GArith FV2 [Ceq "func2" 11; Ceq "sz" 1; Ceq "m" 0; Ceq "func1" 4; Ceq "form" 0]
    [SVs1; SVs2] [DVd] [] (SmVec (VAcc U16 U8) false false);
  (* coralnpu_arith.bin_fmt:391 coralnpu_arith.isa:1055 *)
  E "vacc_h_u_vx" GArith FV2 [Ceq "func2" 11; Ceq "sz" 1; Ceq "m" 0; Ceq "func1" 4; Ceq "form" 2]
    [SVs1; SVs2] [DVd] [] (SmVec (VAcc U16 U8) true false);
  (* coralnpu_arith.bin_fmt:392 coralnpu_arith.isa:1046 *)
  E "vacc_h_u_vv_m" GArith FV2 [Ceq "func2" 11; Ceq "sz" 1; Ceq "m" 1; Ceq "func1" 4; Ceq "form" 0]
    [SVs1; SVs2] [DVd] [] (SmVec (VAcc U16 U8) false true);
  (* coralnpu_arith.bin_fmt:393 coralnpu_arith.isa:1058 *)
  E "vacc_h_u_vx_m" GArith FV2 [Ceq "func2" 11; Ceq "sz" 1; Ceq "m" 1; Ceq "func1" 4; Ceq "form" 2]
    [SVs1; SVs2] [DVd] [] (SmVec (VAcc U16 U8) true true);
  (* coralnpu_arith.bin_fmt:394 coralnpu_arith.isa:1049 *)
  E "vacc_w_u_vv" GArith FV2 [Ceq "func2" 11; Ceq "sz" 2; Ceq "m" 0; Ceq "func1" 4; Ceq "form" 0]
    [SVs1; SVs2] [DVd] [] (SmVec (VAcc U32 U16) false false);
  (* coralnpu_arith.bin_fmt:395 coralnpu_arith.isa:1061 *)
  E "vacc_w_u_vx" GArith FV2 [Ceq "func2" 11; Ceq "sz" 2; Ceq "m" 0; Ceq "func1" 4; Ceq "form" 2]
    [SVs1; SVs2] [DVd] [] (SmVec (VAcc U32 U16) true false);
  (* coralnpu_arith.bin_fmt:396 coralnpu_arith.isa:1052 *)
  E "vacc_w_u_vv_m" GArith FV2 [Ceq "func2" 11; Ceq "sz" 2; Ceq "m" 1; Ceq "func1" 4; Ceq "form" 0]
    [SVs1; SVs2] [DVd] [] (SmVec (VAcc U32 U16) false true);
  (* coralnpu_arith.bin_fmt:397 coralnpu_arith.isa:1064 *)
  E "vacc_w_u_vx_m" GArith FV2 [Ceq "func2" 11; Ceq "sz" 2; Ceq "m" 1; Ceq "func1" 4; Ceq "form" 2]
    [SVs1; SVs2] [DVd] [] (SmVec (VAcc U32 U16) true true);
  (* coralnpu_arith.bin_fmt:400 coralnpu_arith.isa:1069 *)
  E "vpadd_h_v" GArith FV2 [Ceq "func2" 12; Ceq "vs2" 0; Ceq "sz" 1; Ceq "m" 0; Ceq "func1" 4; Ceq "form" 2]
    [SVs1] [DVd] [] (SmVec (VPair false I16 I8) false false);
  (* coralnpu_arith.bin_fmt:401 coralnpu_arith.isa:1072 *)
  E "vpadd_h_v_m" GArith FV2 [Ceq "func2" 12; Ceq "vs2" 0; Ceq "sz" 1; Ceq "m" 1; Ceq "func1" 4; Ceq "form" 2]
    [SVs1] [DVd] [] (SmVec (VPair false I16 I8) false true);
  (* coralnpu_arith.bin_fmt:402 coralnpu_arith.isa:1075 *)
  E "vpadd_w_v" GArith FV2 [Ceq "func2" 12; Ceq "vs2" 0; Ceq "sz" 2; Ceq "m" 0; Ceq "func1" 4; Ceq "form" 2]
    [SVs1] [DVd] [] (SmVec (VPair false I32 I16) false false);
  (* coralnpu_arith.bin_fmt:403 coralnpu_arith.isa:1078 *)
  E "vpadd_w_v_m" GArith FV2 [Ceq "func2" 12; Ceq "vs2" 0; Ceq "sz" 2; Ceq "m" 1; Ceq "func1" 4; Ceq "form" 2]
    [SVs1] [DVd] [] (SmVec (VPair false I32 I16) false true);
  (* coralnpu_arith.bin_fmt:406 coralnpu_arith.isa:1083 *)
  E "vpadd_h_u_v" GArith FV2 [Ceq "func2" 13; Ceq "vs2" 0; Ceq "sz" 1; Ceq "m" 0; Ceq "func1" 4; Ceq "form" 2]
    [SVs1] [DVd] [] (SmVec (VPair false U16 U8) false false);
  (* coralnpu_arith.bin_fmt:407 coralnpu_arith.isa:1086 *)
  E "vpadd_h_u_v_m" GArith FV2 [Ceq "func2" 13; Ceq "vs2" 0; Ceq "sz" 1; Ceq "m" 1; Ceq "func1" 4; Ceq "form" 2]
    [SVs1] [DVd] [] (SmVec (VPair false U16 U8) false true);
  (* coralnpu_arith.bin_fmt:408 coralnpu_arith.isa:1089 *)
  E "vpadd_w_u_v" GArith FV2 [Ceq "func2" 13; Ceq "vs2" 0; Ceq "sz" 2; Ceq "m" 0; Ceq "func1" 4; Ceq "form" 2]
    [SVs1] [DVd] [] (SmVec (VPair false U32 U16) false false);
  (* coralnpu_arith.bin_fmt:409 coralnpu_arith.isa:1092 *)
  E "vpadd_w_u_v_m" GArith FV2 [Ceq "func2" 13; Ceq "vs2" 0; Ceq "sz" 2; Ceq "m" 1; Ceq "func1" 4; Ceq "form" 2]
    [SVs1] [DVd] [] (SmVec (VPair false U32 U16) false true);
  (* coralnpu_arith.bin_fmt:412 coralnpu_arith.isa:1097 *)
  E "vpsub_h_v" GArith FV2 [Ceq "func2" 14; Ceq "vs2" 0; Ceq "sz" 1; Ceq "m" 0; Ceq "func1" 4; Ceq "form" 2]
    [SVs1] [DVd] [] (SmVec (VPair true I16 I8) false false);
  (* coralnpu_arith.bin_fmt:413 coralnpu_arith.isa:1100 *)
  E "vpsub_h_v_m" GArith FV2 [Ceq "func2" 14; Ceq "vs2" 0; Ceq "sz" 1; Ceq "m" 1; Ceq "func1" 4; Ceq "form" 2]
    [SVs1] [DVd] [] (SmVec (VPair true I16 I8) false true);
  (* coralnpu_arith.bin_fmt:414 coralnpu_arith.isa:1103 *)
  E "vpsub_w_v" GArith FV2 [Ceq "func2" 14; Ceq "vs2" 0; Ceq "sz" 2; Ceq "m" 0; Ceq "func1" 4; Ceq "form" 2]
    [SVs1] [DVd] [] (SmVec (VPair true I32 I16) false false);
  (* coralnpu_arith.bin_fmt:415 coralnpu_arith.isa:1106 *)
  E "vpsub_w_v_m" GArith FV2 [Ceq "func2" 14; Ceq "vs2" 0; Ceq "sz" 2; Ceq "m" 1; Ceq "func1" 4; Ceq "form" 2]
    [SVs1] [DVd] [] (SmVec (VPair true I32 I16) false true);
  (* coralnpu_arith.bin_fmt:418 coralnpu_arith.isa:1111 *)
  E "vpsub_h_u_v" GArith FV2 [Ceq "func2" 15; Ceq "vs2" 0; Ceq "sz" 1; Ceq "m" 0; Ceq "func1" 4; Ceq "form" 2]
    [SVs1] [DVd] [] (SmVec (VPair true U16 U8) false false);
  (* coralnpu_arith.bin_fmt:419 coralnpu_arith.isa:1114 *)
  E "vpsub_h_u_v_m" GArith FV2 [Ceq "func2" 15; Ceq "vs2" 0; Ceq "sz" 1; Ceq "m" 1; Ceq "func1" 4; Ceq "form" 2]
    [SVs1] [DVd] [] (SmVec (VPair true U16 U8) false true);
  (* coralnpu_arith.bin_fmt:420 coralnpu_arith.isa:1117 *)
  E "vpsub_w_u_v" GArith FV2 [Ceq "func2" 15; Ceq "vs2" 0; Ceq "sz" 2; Ceq "m" 0; Ceq "func1" 4; Ceq "form" 2]
    [SVs1] [DVd] [] (SmVec (VPair true U32 U16) false false);
  (* coralnpu_arith.bin_fmt:421 coralnpu_arith.isa:1120 *)
  E "vpsub_w_u_v_m" GArith FV2 [Ceq "func2" 15; Ceq "vs2" 0; Ceq "sz" 2; Ceq "m" 1; Ceq "func1" 4; Ceq "form" 2]
    [SVs1] [DVd] [] (SmVec (VPair true U32 U16) false true);
  (* coralnpu_arith.bin_fmt:424 coralnpu_arith.isa:1125 *)
  E "vhadd_b_vv" GArith FV2 [Ceq "func2" 16; Ceq "sz" 0; Ceq "m" 0; Ceq "func1" 4; Ceq "form" 0]
    [SVs1; SVs2] [DVd] [] (SmVec (VEl (OHadd false) I8) false false);
  (* coralnpu_arith.bin_fmt:425 coralnpu_arith.isa:1143 *)
  E "vhadd_b_vx" GArith FV2 [Ceq "func2" 16; Ceq "sz" 0; Ceq "m" 0; Ceq "func1" 4; Ceq "form" 2]
    [SVs1; SVs2] [DVd] [] (SmVec (VEl (OHadd false) I8) true false);
  (* coralnpu_arith.bin_fmt:426 coralnpu_arith.isa:1128 *)
  E "vhadd_b_vv_m" GArith FV2 [Ceq "func2" 16; Ceq "sz" 0; Ceq "m" 1; Ceq "func1" 4; Ceq "form" 0]
    [SVs1; SVs2] [DVd] [] (SmVec (VEl (OHadd false) I8) false true);
  (* coralnpu_arith.bin_fmt:427 coralnpu_arith.isa:1146 *)
  E "vhadd_b_vx_m" GArith FV2 [Ceq "func2" 16; Ceq "sz" 0; Ceq "m" 1; Ceq "func1" 4; Ceq "form" 2]
    [SVs1; SVs2] [DVd] [] (SmVec (VEl (OHadd false) I8) true true);
  (* coralnpu_arith.bin_fmt:428 coralnpu_arith.isa:1131 *)
  E "vhadd_h_vv" GArith FV2 [Ceq "func2" 16; Ceq "sz" 1; Ceq "m" 0; Ceq "func1" 4; Ceq "form" 0]
    [SVs1; SVs2] [DVd] [] (SmVec (VEl (OHadd false) I16) false false);
  (* coralnpu_arith.bin_fmt:429 coralnpu_arith.isa:1149 *)
  E "vhadd_h_vx" GArith FV2 [Ceq "func2" 16; Ceq "sz" 1; Ceq "m" 0; Ceq "func1" 4; Ceq "form" 2]
    [SVs1; SVs2] [DVd] [] (SmVec (VEl (OHadd false) I16) true false);
  (* coralnpu_arith.bin_fmt:430 coralnpu_arith.isa:1134 *)
  E "vhadd_h_vv_m" GArith FV2 [Ceq "func2" 16; Ceq "sz" 1; Ceq "m" 1; Ceq "func1" 4; Ceq "form" 0]
    [SVs1; SVs2] [DVd] [] (SmVec (VEl (OHadd false) I16) false true);
  (* coralnpu_arith.bin_fmt:431 coralnpu_arith.isa:1152 *)
  E "vhadd_h_vx_m" GArith FV2 [Ceq "func2" 16; Ceq "sz" 1; Ceq "m" 1; Ceq "func1" 4; Ceq "form" 2]
    [SVs1; SVs2] [DVd] [] (SmVec (VEl (OHadd false) I16) true true);
  (* coralnpu_arith.bin_fmt:432 coralnpu_arith.isa:1137 *)
  E "vhadd_w_vv" GArith FV2 [Ceq "func2" 16; Ceq "sz" 2; Ceq "m" 0; Ceq "func1" 4; Ceq "form" 0]
    [SVs1; SVs2] [DVd] [] (SmVec (VEl (OHadd false) I32) false false);
  (* coralnpu_arith.bin_fmt:433 coralnpu_arith.isa:1155 *)
  E "vhadd_w_vx" GArith FV2 [Ceq "func2" 16; Ceq "sz" 2; Ceq "m" 0; Ceq "func1" 4; Ceq "form" 2]
    [SVs1; SVs2] [DVd] [] (SmVec (VEl (OHadd false) I32) true false);
  (* coralnpu_arith.bin_fmt:434 coralnpu_arith.isa:1140 *)
  E "vhadd_w_vv_m" GArith FV2 [Ceq "func2" 16; Ceq "sz" 2; Ceq "m" 1; Ceq "func1" 4; Ceq "form" 0]
    [SVs1; SVs2] [DVd] [] (SmVec (VEl (OHadd false) I32) false true);
  (* coralnpu_arith.bin_fmt:435 coralnpu_arith.isa:1158 *)
  E "vhadd_w_vx_m" GArith FV2 [Ceq "func2" 16; Ceq "sz" 2; Ceq "m" 1; Ceq "func1" 4; Ceq "form" 2]
    [SVs1; SVs2] [DVd] [] (SmVec (VEl (OHadd false) I32) true true);
  (* coralnpu_arith.bin_fmt:438 coralnpu_arith.isa:1163 *)
  E "vhadd_b_r_vv" GArith FV2 [Ceq "func2" 18; Ceq "sz" 0; Ceq "m" 0; Ceq "func1" 4; Ceq "form" 0]
    [SVs1; SVs2] [DVd] [] (SmVec (VEl (OHadd true) I8) false false);
  (* coralnpu_arith.bin_fmt:439 coralnpu_arith.isa:1181 *)
  E "vhadd_b_r_vx" GArith FV2 [Ceq "func2" 18; Ceq "sz" 0; Ceq "m" 0; Ceq "func1" 4; Ceq "form" 2]
    [SVs1; SVs2] [DVd] [] (SmVec (VEl (OHadd true) I8) true false);
  (* coralnpu_arith.bin_fmt:440 coralnpu_arith.isa:1166 *)
  E "vhadd_b_r_vv_m" GArith FV2 [Ceq "func2" 18; Ceq "sz" 0; Ceq "m" 1; Ceq "func1" 4; Ceq "form" 0]
    [SVs1; SVs2] [DVd] [] (SmVec (VEl (OHadd true) I8) false true);
  (* coralnpu_arith.bin_fmt:441 coralnpu_arith.isa:1184 *)
  E "vhadd_b_r_vx_m" GArith FV2 [Ceq "func2" 18; Ceq "sz" 0; Ceq "m" 1; Ceq "func1" 4; Ceq "form" 2]
    [SVs1; SVs2] [DVd] [] (SmVec (VEl (OHadd true) I8) true true);
  (* coralnpu_arith.bin_fmt:442 coralnpu_arith.isa:1169 *)
  E "vhadd_h_r_vv" GArith FV2 [Ceq "func2" 18; Ceq "sz" 1; Ceq "m" 0; Ceq "func1" 4; Ceq "form" 0]
    [SVs1; SVs2] [DVd] [] (SmVec (VEl (OHadd true) I16) false false);
  (* coralnpu_arith.bin_fmt:443 coralnpu_arith.isa:1187 *)
  E "vhadd_h_r_vx" GArith FV2 [Ceq "func2" 18; Ceq "sz" 1; Ceq "m" 0; Ceq "func1" 4; Ceq "form" 2]
    [SVs1; SVs2] [DVd] [] (SmVec (VEl (OHadd true) I16) true false);
  (* coralnpu_arith.bin_fmt:444 coralnpu_arith.isa:1172 *)
  E "vhadd_h_r_vv_m" GArith FV2 [Ceq "func2" 18; Ceq "sz" 1; Ceq "m" 1; Ceq "func1" 4; Ceq "form" 0]
    [SVs1; SVs2] [DVd] [] (SmVec (VEl (OHadd true) I16) false true);
  (* coralnpu_arith.bin_fmt:445 coralnpu_arith.isa:1190 *)
  E "vhadd_h_r_vx_m" GArith FV2 [Ceq "func2" 18; Ceq "sz" 1; Ceq "m" 1; Ceq "func1" 4; Ceq "form" 2]
    [SVs1; SVs2] [DVd] [] (SmVec (VEl (OHadd true) I16) true true);
  (* coralnpu_arith.bin_fmt:446 coralnpu_arith.isa:1175 *)
  E "vhadd_w_r_vv" GArith FV2 [Ceq "func2" 18; Ceq "sz" 2; Ceq "m" 0; Ceq "func1" 4; Ceq "form" 0]
    [SVs1; SVs2] [DVd] [] (SmVec (VEl (OHadd true) I32) false false);
  (* coralnpu_arith.bin_fmt:447 coralnpu_arith.isa:1193 *)
  E "vhadd_w_r_vx" GArith FV2 [Ceq "func2" 18; Ceq "sz" 2; Ceq "m" 0; Ceq "func1" 4; Ceq "form" 2]
    [SVs1; SVs2] [DVd] [] (SmVec (VEl (OHadd true) I32) true false);
  (* coralnpu_arith.bin_fmt:448 coralnpu_arith.isa:1178 *)
  E "vhadd_w_r_vv_m" GArith FV2 [Ceq "func2" 18; Ceq "sz" 2; Ceq "m" 1; Ceq "func1" 4; Ceq "form" 0]
    [SVs1; SVs2] [DVd] [] (SmVec (VEl (OHadd true) I32) false true);
  (* coralnpu_arith.bin_fmt:449 coralnpu_arith.isa:1196 *)
  E "vhadd_w_r_vx_m" GArith FV2 [Ceq "func2" 18; Ceq "sz" 2; Ceq "m" 1; Ceq "func1" 4; Ceq "form" 2]
    [SVs1; SVs2] [DVd] [] (SmVec (VEl (OHadd true) I32) true true);
  (* coralnpu_arith.bin_fmt:452 coralnpu_arith.isa:1201 *)
  E "vhadd_b_u_vv" GArith FV2 [Ceq "func2" 17; Ceq "sz" 0; Ceq "m" 0; Ceq "func1" 4; Ceq "form" 0]
    [SVs1; SVs2] [DVd] [] (SmVec (VEl (OHadd false) U8) false false);
  (* coralnpu_arith.bin_fmt:453 coralnpu_arith.isa:1219 *)
  E "vhadd_b_u_vx" GArith FV2 [Ceq "func2" 17; Ceq "sz" 0; Ceq "m" 0; Ceq "func1" 4; Ceq "form" 2]
    [SVs1; SVs2] [DVd] [] (SmVec (VEl (OHadd false) U8) true false);
  (* coralnpu_arith.bin_fmt:454 coralnpu_arith.isa:1204 *)
  E "vhadd_b_u_vv_m" GArith FV2 [Ceq "func2" 17; Ceq "sz" 0; Ceq "m" 1; Ceq "func1" 4; Ceq "form" 0]
    [SVs1; SVs2] [DVd] [] (SmVec (VEl (OHadd false) U8) false true);
  (* coralnpu_arith.bin_fmt:455 coralnpu_arith.isa:1222 *)
  E "vhadd_b_u_vx_m" GArith FV2 [Ceq "func2" 17; Ceq "sz" 0; Ceq "m" 1; Ceq "func1" 4; Ceq "form" 2]
    [SVs1; SVs2] [DVd] [] (SmVec (VEl (OHadd false) U8) true true);
  (* coralnpu_arith.bin_fmt:456 coralnpu_arith.isa:1207 *)
  E "vhadd_h_u_vv" GArith FV2 [Ceq "func2" 17; Ceq "sz" 1; Ceq "m" 0; Ceq "func1" 4; Ceq "form" 0]
    [SVs1; SVs2] [DVd] [] (SmVec (VEl (OHadd false) U16) false false);
  (* coralnpu_arith.bin_fmt:457 coralnpu_arith.isa:1225 *)
  E "vhadd_h_u_vx" GArith FV2 [Ceq "func2" 17; Ceq "sz" 1; Ceq "m" 0; Ceq "func1" 4; Ceq "form" 2]
    [SVs1; SVs2] [DVd] [] (SmVec (VEl (OHadd false) U16) true false);
  (* coralnpu_arith.bin_fmt:458 coralnpu_arith.isa:1210 *)
  E "vhadd_h_u_vv_m" GArith FV2 [Ceq "func2" 17; Ceq "sz" 1; Ceq "m" 1; Ceq "func1" 4; Ceq "form" 0]
    [SVs1; SVs2] [DVd] [] (SmVec (VEl (OHadd false) U16) false true);
  (* coralnpu_arith.bin_fmt:459 coralnpu_arith.isa:1228 *)
  E "vhadd_h_u_vx_m" GArith FV2 [Ceq "func2" 17; Ceq "sz" 1; Ceq "m" 1; Ceq "func1" 4; Ceq "form" 2]
    [SVs1; SVs2] [DVd] [] (SmVec (VEl (OHadd false) U16) true true);
  (* coralnpu_arith.bin_fmt:460 coralnpu_arith.isa:1213 *)
  E "vhadd_w_u_vv" GArith FV2 [Ceq "func2" 17; Ceq "sz" 2; Ceq "m" 0; Ceq "func1" 4; Ceq "form" 0]
    [SVs1; SVs2] [DVd] [] (SmVec (VEl (OHadd false) U32) false false);
  (* coralnpu_arith.bin_fmt:461 coralnpu_arith.isa:1231 *)
  E "vhadd_w_u_vx" GArith FV2 [Ceq "func2" 17; Ceq "sz" 2; Ceq "m" 0; Ceq "func1" 4; Ceq "form" 2]
    [SVs1; SVs2] [DVd] [] (SmVec (VEl (OHadd false) U32) true false);
  (* coralnpu_arith.bin_fmt:462 coralnpu_arith.isa:1216 *)
  E "vhadd_w_u_vv_m" GArith FV2 [Ceq "func2" 17; Ceq "sz" 2; Ceq "m" 1; Ceq "func1" 4; Ceq "form" 0]
    [SVs1; SVs2] [DVd] [] (SmVec (VEl (OHadd false) U32) false true);
  (* coralnpu_arith.bin_fmt:463 coralnpu_arith.isa:1234 *)
  E "vhadd_w_u_vx_m" GArith FV2 [Ceq "func2" 17; Ceq "sz" 2; Ceq "m" 1; Ceq "func1" 4; Ceq "form" 2]
    [SVs1; SVs2] [DVd] [] (SmVec (VEl (OHadd false) U32) true true);
  (* coralnpu_arith.bin_fmt:466 coralnpu_arith.isa:1239 *)
  E "vhadd_b_ur_vv" GArith FV2 [Ceq "func2" 19; Ceq "sz" 0; Ceq "m" 0; Ceq "func1" 4; Ceq "form" 0]
    [SVs1; SVs2] [DVd] [] (SmVec (VEl (OHadd true) U8) false false);
  (* coralnpu_arith.bin_fmt:467 coralnpu_arith.isa:1257 *)
  E "vhadd_b_ur_vx" GArith FV2 [Ceq "func2" 19; Ceq "sz" 0; Ceq "m" 0; Ceq "func1" 4; Ceq "form" 2]
    [SVs1; SVs2] [DVd] [] (SmVec (VEl (OHadd true) U8) true false);
  (* coralnpu_arith.bin_fmt:468 coralnpu_arith.isa:1242 *)
  E "vhadd_b_ur_vv_m" GArith FV2 [Ceq "func2" 19; Ceq "sz" 0; Ceq "m" 1; Ceq "func1" 4; Ceq "form" 0]
    [SVs1; SVs2] [DVd] [] (SmVec (VEl (OHadd true) U8) false true);
  (* coralnpu_arith.bin_fmt:469 coralnpu_arith.isa:1260 *)
  E "vhadd_b_ur_vx_m" GArith FV2 [Ceq "func2" 19; Ceq "sz" 0; Ceq "m" 1; Ceq "func1" 4; Ceq "form" 2]
    [SVs1; SVs2] [DVd] [] (SmVec (VEl (OHadd true) U8) true true);
  (* coralnpu_arith.bin_fmt:470 coralnpu_arith.isa:1245 *)
  E "vhadd_h_ur_vv" GArith FV2 [Ceq "func2" 19; Ceq "sz" 1; Ceq "m" 0; Ceq "func1" 4; Ceq "form" 0]
    [SVs1; SVs2] [DVd] [] (SmVec (VEl (OHadd true) U16) false false);
  (* coralnpu_arith.bin_fmt:471 coralnpu_arith.isa:1263 *)
  E "vhadd_h_ur_vx" GArith FV2 [Ceq "func2" 19; Ceq "sz" 1; Ceq "m" 0; Ceq "func1" 4; Ceq "form" 2]
    [SVs1; SVs2] [DVd] [] (SmVec (VEl (OHadd true) U16) true false);
  (* coralnpu_arith.bin_fmt:472 coralnpu_arith.isa:1248 *)
  E "vhadd_h_ur_vv_m" GArith FV2 [Ceq "func2" 19; Ceq "sz" 1; Ceq "m" 1; Ceq "func1" 4; Ceq "form" 0]
    [SVs1; SVs2] [DVd] [] (SmVec (VEl (OHadd true) U16) false true);
  (* coralnpu_arith.bin_fmt:473 coralnpu_arith.isa:1266 *)
  E "vhadd_h_ur_vx_m" GArith FV2 [Ceq "func2" 19; Ceq "sz" 1; Ceq "m" 1; Ceq "func1" 4; Ceq "form" 2]
    [SVs1; SVs2] [DVd] [] (SmVec (VEl (OHadd true) U16) true true);
  (* coralnpu_arith.bin_fmt:474 coralnpu_arith.isa:1251 *)
  E "vhadd_w_ur_vv" GArith FV2 [Ceq "func2" 19; Ceq "sz" 2; Ceq "m" 0; Ceq "func1" 4; Ceq "form" 0]
    [SVs1; SVs2] [DVd] [] (SmVec (VEl (OHadd true) U32) false false);
  (* coralnpu_arith.bin_fmt:475 coralnpu_arith.isa:1269 *)
  E "vhadd_w_ur_vx" GArith FV2 [Ceq "func2" 19; Ceq "sz" 2; Ceq "m" 0; Ceq "func1" 4; Ceq "form" 2]
    [SVs1; SVs2] [DVd] [] (SmVec (VEl (OHadd true) U32) true false);
  (* coralnpu_arith.bin_fmt:476 coralnpu_arith.isa:1254 *)
  E "vhadd_w_ur_vv_m" GArith FV2 [Ceq "func2" 19; Ceq "sz" 2; Ceq "m" 1; Ceq "func1" 4; Ceq "form" 0]
    [SVs1; SVs2] [DVd] [] (SmVec (VEl (OHadd true) U32) false true);
  (* coralnpu_arith.bin_fmt:477 coralnpu_arith.isa:1272 *)
  E "vhadd_w_ur_vx_m" GArith FV2 [Ceq "func2" 19; Ceq "sz" 2; Ceq "m" 1; Ceq "func1" 4; Ceq "form" 2]
    [SVs1; SVs2] [DVd] [] (SmVec (VEl (OHadd true) U32) true true);
  (* coralnpu_arith.bin_fmt:480 coralnpu_arith.isa:1277 *)
  E "vhsub_b_vv" GArith FV2 [Ceq "func2" 20; Ceq "sz" 0; Ceq "m" 0; Ceq "func1" 4; Ceq "form" 0]
    [SVs1; SVs2] [DVd] [] (SmVec (VEl (OHsub false) I8) false false);
  (* coralnpu_arith.bin_fmt:481 coralnpu_arith.isa:1295 *)
  E "vhsub_b_vx" GArith FV2 [Ceq "func2" 20; Ceq "sz" 0; Ceq "m" 0; Ceq "func1" 4; Ceq "form" 2]
    [SVs1; SVs2] [DVd] [] (SmVec (VEl (OHsub false) I8) true false);
  (* coralnpu_arith.bin_fmt:482 coralnpu_arith.isa:1280 *)
  E "vhsub_b_vv_m" GArith FV2 [Ceq "func2" 20; Ceq "sz" 0; Ceq "m" 1; Ceq "func1" 4; Ceq "form" 0]
    [SVs1; SVs2] [DVd] [] (SmVec (VEl (OHsub false) I8) false true);
  (* coralnpu_arith.bin_fmt:483 coralnpu_arith.isa:1298 *)
  E "vhsub_b_vx_m" GArith FV2 [Ceq "func2" 20; Ceq "sz" 0; Ceq "m" 1; Ceq "func1" 4; Ceq "form" 2]
    [SVs1; SVs2] [DVd] [] (SmVec (VEl (OHsub false) I8) true true);
  (* coralnpu_arith.bin_fmt:484 coralnpu_arith.isa:1283 *)
  E "vhsub_h_vv" GArith FV2 [Ceq "func2" 20; Ceq "sz" 1; Ceq "m" 0; Ceq "func1" 4; Ceq "form" 0]
    [SVs1; SVs2] [DVd] [] (SmVec (VEl (OHsub false) I16) false false);
  (* coralnpu_arith.bin_fmt:485 coralnpu_arith.isa:1301 *)
  E "vhsub_h_vx" GArith FV2 [Ceq "func2" 20; Ceq "sz" 1; Ceq "m" 0; Ceq "func1" 4; Ceq "form" 2]
    [SVs1; SVs2] [DVd] [] (SmVec (VEl (OHsub false) I16) true false);
  (* coralnpu_arith.bin_fmt:486 coralnpu_arith.isa:1286 *)
  E "vhsub_h_vv_m" GArith FV2 [Ceq "func2" 20; Ceq "sz" 1; Ceq "m" 1; Ceq "func1" 4; Ceq "form" 0]
    [SVs1; SVs2] [DVd] [] (SmVec (VEl (OHsub false) I16) false true);
  (* coralnpu_arith.bin_fmt:487 coralnpu_arith.isa:1304 *)
  E "vhsub_h_vx_m" GArith FV2 [Ceq "func2" 20; Ceq "sz" 1; Ceq "m" 1; Ceq "func1" 4; Ceq "form" 2]
    [SVs1; SVs2] [DVd] [] (SmVec (VEl (OHsub false) I16) true true);
  (* coralnpu_arith.bin_fmt:488 coralnpu_arith.isa:1289 *)
  E "vhsub_w_vv" GArith FV2 [Ceq "func2" 20; Ceq "sz" 2; Ceq "m" 0; Ceq "func1" 4; Ceq "form" 0]
    [SVs1; SVs2] [DVd] [] (SmVec (VEl (OHsub false) I32) false false);
  (* coralnpu_arith.bin_fmt:489 coralnpu_arith.isa:1307 *)
  E "vhsub_w_vx" GArith FV2 [Ceq "func2" 20; Ceq "sz" 2; Ceq "m" 0; Ceq "func1" 4; Ceq "form" 2]
    [SVs1; SVs2] [DVd] [] (SmVec (VEl (OHsub false) I32) true false);
  (* coralnpu_arith.bin_fmt:490 coralnpu_arith.isa:1292 *)
  E "vhsub_w_vv_m" GArith FV2 [Ceq "func2" 20; Ceq "sz" 2; Ceq "m" 1; Ceq "func1" 4; Ceq "form" 0]
    [SVs1; SVs2] [DVd] [] (SmVec (VEl (OHsub false) I32) false true);
  (* coralnpu_arith.bin_fmt:491 coralnpu_arith.isa:1310 *)
  E "vhsub_w_vx_m" GArith FV2 [Ceq "func2" 20; Ceq "sz" 2; Ceq "m" 1; Ceq "func1" 4; Ceq "form" 2]
    [SVs1; SVs2] [DVd] [] (SmVec (VEl (OHsub false) I32) true true);
  (* coralnpu_arith.bin_fmt:494 coralnpu_arith.isa:1315 *)
  E "vhsub_b_r_vv" GArith FV2 [Ceq "func2" 22; Ceq "sz" 0; Ceq "m" 0; Ceq "func1" 4; Ceq "form" 0]
    [SVs1; SVs2] [DVd] [] (SmVec (VEl (OHsub true) I8) false false);
  (* coralnpu_arith.bin_fmt:495 coralnpu_arith.isa:1333 *)
  E "vhsub_b_r_vx" GArith FV2 [Ceq "func2" 22; Ceq "sz" 0; Ceq "m" 0; Ceq "func1" 4; Ceq "form" 2]
    [SVs1; SVs2] [DVd] [] (SmVec (VEl (OHsub true) I8) true false);
  (* coralnpu_arith.bin_fmt:496 coralnpu_arith.isa:1318 *)
  E "vhsub_b_r_vv_m" GArith FV2 [Ceq "func2" 22; Ceq "sz" 0; Ceq "m" 1; Ceq "func1" 4; Ceq "form" 0]
    [SVs1; SVs2] [DVd] [] (SmVec (VEl (OHsub true) I8) false true);
  (* coralnpu_arith.bin_fmt:497 coralnpu_arith.isa:1336 *)
  E "vhsub_b_r_vx_m" GArith FV2 [Ceq "func2" 22; Ceq "sz" 0; Ceq "m" 1; Ceq "func1" 4; Ceq "form" 2]
    [SVs1; SVs2] [DVd] [] (SmVec (VEl (OHsub true) I8) true true);
  (* coralnpu_arith.bin_fmt:498 coralnpu_arith.isa:1321 *)
  E "vhsub_h_r_vv" GArith FV2 [Ceq "func2" 22; Ceq "sz" 1; Ceq "m" 0; Ceq "func1" 4; Ceq "form" 0]
    [SVs1; SVs2] [DVd] [] (SmVec (VEl (OHsub true) I16) false false);
  (* coralnpu_arith.bin_fmt:499 coralnpu_arith.isa:1339 *)
  E "vhsub_h_r_vx" GArith FV2 [Ceq "func2" 22; Ceq "sz" 1; Ceq "m" 0; Ceq "func1" 4; Ceq "form" 2]
    [SVs1; SVs2] [DVd] [] (SmVec (VEl (OHsub true) I16) true false);
  (* coralnpu_arith.bin_fmt:500 coralnpu_arith.isa:1324 *)
  E "vhsub_h_r_vv_m" GArith FV2 [Ceq "func2" 22; Ceq "sz" 1; Ceq "m" 1; Ceq "func1" 4; Ceq "form" 0]
    [SVs1; SVs2] [DVd] [] (SmVec (VEl (OHsub true) I16) false true);
  (* coralnpu_arith.bin_fmt:501 coralnpu_arith.isa:1342 *)
  E "vhsub_h_r_vx_m" GArith FV2 [Ceq "func2" 22; Ceq "sz" 1; Ceq "m" 1; Ceq "func1" 4; Ceq "form" 2]
    [SVs1; SVs2] [DVd] [] (SmVec (VEl (OHsub true) I16) true true);
  (* coralnpu_arith.bin_fmt:502 coralnpu_arith.isa:1327 *)
  E "vhsub_w_r_vv" GArith FV2 [Ceq "func2" 22; Ceq "sz" 2; Ceq "m" 0; Ceq "func1" 4; Ceq "form" 0]
    [SVs1; SVs2] [DVd] [] (SmVec (VEl (OHsub true) I32) false false);
  (* coralnpu_arith.bin_fmt:503 coralnpu_arith.isa:1345 *)
  E "vhsub_w_r_vx" GArith FV2 [Ceq "func2" 22; Ceq "sz" 2; Ceq "m" 0; Ceq "func1" 4; Ceq "form" 2]
    [SVs1; SVs2] [DVd] [] (SmVec (VEl (OHsub true) I32) true false);
  (* coralnpu_arith.bin_fmt:504 coralnpu_arith.isa:1330 *)
  E "vhsub_w_r_vv_m" GArith FV2 [Ceq "func2" 22; Ceq "sz" 2; Ceq "m" 1; Ceq "func1" 4; Ceq "form" 0]
    [SVs1; SVs2] [DVd] [] (SmVec (VEl (OHsub true) I32) false true);
  (* coralnpu_arith.bin_fmt:505 coralnpu_arith.isa:1348 *)
  E "vhsub_w_r_vx_m" GArith FV2 [Ceq "func2" 22; Ceq "sz" 2; Ceq "m" 1; Ceq "func1" 4; Ceq "form" 2]
    [SVs1; SVs2] [DVd] [] (SmVec (VEl (OHsub true) I32) true true);
  (* coralnpu_arith.bin_fmt:508 coralnpu_arith.isa:1353 *)
  E "vhsub_b_u_vv" GArith FV2 [Ceq "func2" 21; Ceq "sz" 0; Ceq "m" 0; Ceq "func1" 4; Ceq "form" 0]
    [SVs1; SVs2] [DVd] [] (SmVec (VEl (OHsub false) U8) false false);
  (* coralnpu_arith.bin_fmt:509 coralnpu_arith.isa:1371 *)
  E "vhsub_b_u_vx" GArith FV2 [Ceq "func2" 21; Ceq "sz" 0; Ceq "m" 0; Ceq "func1" 4; Ceq "form" 2]
    [SVs1; SVs2] [DVd] [] (SmVec (VEl (OHsub false) U8) true false);
  (* coralnpu_arith.bin_fmt:510 coralnpu_arith.isa:1356 *)
  E "vhsub_b_u_vv_m" GArith FV2 [Ceq "func2" 21; Ceq "sz" 0; Ceq "m" 1; Ceq "func1" 4; Ceq "form" 0]
    [SVs1; SVs2] [DVd] [] (SmVec (VEl (OHsub false) U8) false true);
  (* coralnpu_arith.bin_fmt:511 coralnpu_arith.isa:1374 *)
  E "vhsub_b_u_vx_m" GArith FV2 [Ceq "func2" 21; Ceq "sz" 0; Ceq "m" 1; Ceq "func1" 4; Ceq "form" 2]
    [SVs1; SVs2] [DVd] [] (SmVec (VEl (OHsub false) U8) true true);
  (* coralnpu_arith.bin_fmt:512 coralnpu_arith.isa:1359 *)
  E "vhsub_h_u_vv" GArith FV2 [Ceq "func2" 21; Ceq "sz" 1; Ceq "m" 0; Ceq "func1" 4; Ceq "form" 0]
    [SVs1; SVs2] [DVd] [] (SmVec (VEl (OHsub false) U16) false false);
  (* coralnpu_arith.bin_fmt:513 coralnpu_arith.isa:1377 *)
  E "vhsub_h_u_vx" GArith FV2 [Ceq "func2" 21; Ceq "sz" 1; Ceq "m" 0; Ceq "func1" 4; Ceq "form" 2]
    [SVs1; SVs2] [DVd] [] (SmVec (VEl (OHsub false) U16) true false);
  (* coralnpu_arith.bin_fmt:514 coralnpu_arith.isa:1362 *)
  E "vhsub_h_u_vv_m" GArith FV2 [Ceq "func2" 21; Ceq "sz" 1; Ceq "m" 1; Ceq "func1" 4; Ceq "form" 0]
    [SVs1; SVs2] [DVd] [] (SmVec (VEl (OHsub false) U16) false true);
  (* coralnpu_arith.bin_fmt:515 coralnpu_arith.isa:1380 *)
  E "vhsub_h_u_vx_m" GArith FV2 [Ceq "func2" 21; Ceq "sz" 1; Ceq "m" 1; Ceq "func1" 4; Ceq "form" 2]
    [SVs1; SVs2] [DVd] [] (SmVec (VEl (OHsub false) U16) true true);
  (* coralnpu_arith.bin_fmt:516 coralnpu_arith.isa:1365 *)
  E "vhsub_w_u_vv" GArith FV2 [Ceq "func2" 21; Ceq "sz" 2; Ceq "m" 0; Ceq "func1" 4; Ceq "form" 0]
    [SVs1; SVs2] [DVd] [] (SmVec (VEl (OHsub false) U32) false false);
  (* coralnpu_arith.bin_fmt:517 coralnpu_arith.isa:1383 *)
  E "vhsub_w_u_vx" GArith FV2 [Ceq "func2" 21; Ceq "sz" 2; Ceq "m" 0; Ceq "func1" 4; Ceq "form" 2]
    [SVs1; SVs2] [DVd] [] (SmVec (VEl (OHsub false) U32) true false);
  (* coralnpu_arith.bin_fmt:518 coralnpu_arith.isa:1368 *)
  E "vhsub_w_u_vv_m" GArith FV2 [Ceq "func2" 21; Ceq "sz" 2; Ceq "m" 1; Ceq "func1" 4; Ceq "form" 0]
    [SVs1; SVs2] [DVd] [] (SmVec (VEl (OHsub false) U32) false true);
  (* coralnpu_arith.bin_fmt:519 coralnpu_arith.isa:1386 *)
  E "vhsub_w_u_vx_m" GArith FV2 [Ceq "func2" 21; Ceq "sz" 2; Ceq "m" 1; Ceq "func1" 4; Ceq "form" 2]
    [SVs1; SVs2] [DVd] [] (SmVec (VEl (OHsub false) U32) true true);
  (* coralnpu_arith.bin_fmt:522 coralnpu_arith.isa:1391 *)
  E "vhsub_b_ur_vv" GArith FV2 [Ceq "func2" 23; Ceq "sz" 0; Ceq "m" 0; Ceq "func1" 4; Ceq "form" 0]
    [SVs1; SVs2] [DVd] [] (SmVec (VEl (OHsub true) U8) false false);
  (* coralnpu_arith.bin_fmt:523 coralnpu_arith.isa:1409 *)
  E "vhsub_b_ur_vx" GArith FV2 [Ceq "func2" 23; Ceq "sz" 0; Ceq "m" 0; Ceq "func1" 4; Ceq "form" 2]
    [SVs1; SVs2] [DVd] [] (SmVec (VEl (OHsub true) U8) true false);
  (* coralnpu_arith.bin_fmt:524 coralnpu_arith.isa:1394 *)
  E "vhsub_b_ur_vv_m" GArith FV2 [Ceq "func2" 23; Ceq "sz" 0; Ceq "m" 1; Ceq "func1" 4; Ceq "form" 0]
    [SVs1; SVs2] [DVd] [] (SmVec (VEl (OHsub true) U8) false true);
  (* coralnpu_arith.bin_fmt:525 coralnpu_arith.isa:1412 *)
  E "vhsub_b_ur_vx_m" GArith FV2 [Ceq "func2" 23; Ceq "sz" 0; Ceq "m" 1; Ceq "func1" 4; Ceq "form" 2]
    [SVs1; SVs2] [DVd] [] (SmVec (VEl (OHsub true) U8) true true);
  (* coralnpu_arith.bin_fmt:526 coralnpu_arith.isa:1397 *)
  E "vhsub_h_ur_vv" GArith FV2 [Ceq "func2" 23; Ceq "sz" 1; Ceq "m" 0; Ceq "func1" 4; Ceq "form" 0]
    [SVs1; SVs2] [DVd] [] (SmVec (VEl (OHsub true) U16) false false);
  (* coralnpu_arith.bin_fmt:527 coralnpu_arith.isa:1415 *)
  E "vhsub_h_ur_vx" GArith FV2 [Ceq "func2" 23; Ceq "sz" 1; Ceq "m" 0; Ceq "func1" 4; Ceq "form" 2]
    [SVs1; SVs2] [DVd] [] (SmVec (VEl (OHsub true) U16) true false);
  (* coralnpu_arith.bin_fmt:528 coralnpu_arith.isa:1400 *)
  E "vhsub_h_ur_vv_m" GArith FV2 [Ceq "func2" 23; Ceq "sz" 1; Ceq "m" 1; Ceq "func1" 4; Ceq "form" 0]
    [SVs1; SVs2] [DVd] [] (SmVec (VEl (OHsub true) U16) false true);
  (* coralnpu_arith.bin_fmt:529 coralnpu_arith.isa:1418 *)
  E "vhsub_h_ur_vx_m" GArith FV2 [Ceq "func2" 23; Ceq "sz" 1; Ceq "m" 1; Ceq "func1" 4; Ceq "form" 2]
    [SVs1; SVs2] [DVd] [] (SmVec (VEl (OHsub true) U16) true true);
  (* coralnpu_arith.bin_fmt:530 coralnpu_arith.isa:1403 *)
  E "vhsub_w_ur_vv" GArith FV2 [Ceq "func2" 23; Ceq "sz" 2; Ceq "m" 0; Ceq "func1" 4; Ceq "form" 0]
    [SVs1; SVs2] [DVd] [] (SmVec (VEl (OHsub true) U32) false false);
  (* coralnpu_arith.bin_fmt:531 coralnpu_arith.isa:1421 *)
  E "vhsub_w_ur_vx" GArith FV2 [Ceq "func2" 23; Ceq "sz" 2; Ceq "m" 0; Ceq "func1" 4; Ceq "form" 2]
    [SVs1; SVs2] [DVd] [] (SmVec (VEl (OHsub true) U32) true false);
  (* coralnpu_arith.bin_fmt:532 coralnpu_arith.isa:1406 *)
  E "vhsub_w_ur_vv_m" GArith FV2 [Ceq "func2" 23; Ceq "sz" 2; Ceq "m" 1; Ceq "func1" 4; Ceq "form" 0]
    [SVs1; SVs2] [DVd] [] (SmVec (VEl (OHsub true) U32) false true);
  (* coralnpu_arith.bin_fmt:533 coralnpu_arith.isa:1424 *)
  E "vhsub_w_ur_vx_m" GArith FV2 [Ceq "func2" 23; Ceq "sz" 2; Ceq "m" 1; Ceq "func1" 4; Ceq "form" 2]
    [SVs1; SVs2] [DVd] [] (SmVec (VEl (OHsub true) U32) true true);
  (* coralnpu_arith.bin_fmt:536 coralnpu_arith.isa:1429 *)
  E "vand_vv" GArith FV2 [Ceq "func2" 0; Ceq "m" 0; Ceq "func1" 1; Ceq "form" 0]
    [SVs1; SVs2] [DVd] [] (SmVec (VEl OAnd U32) false false);
  (* coralnpu_arith.bin_fmt:537 coralnpu_arith.isa:1432 *)
  E "vand_vv_m" GArith FV2 [Ceq "func2" 0; Ceq "m" 1; Ceq "func1" 1; Ceq "form" 0]
    [SVs1; SVs2] [DVd] [] (SmVec (VEl OAnd U32) false true);
  (* coralnpu_arith.bin_fmt:538 coralnpu_arith.isa:1435 *)
  E "vand_b_vx" GArith FV2 [Ceq "func2" 0; Ceq "sz" 0; Ceq "m" 0; Ceq "func1" 1; Ceq "form" 2]
    [SVs1; SVs2] [DVd] [] (SmVec (VEl OAnd U8) true false);
  (* coralnpu_arith.bin_fmt:539 coralnpu_arith.isa:1438 *)
  E "vand_b_vx_m" GArith FV2 [Ceq "func2" 0; Ceq "sz" 0; Ceq "m" 1; Ceq "func1" 1; Ceq "form" 2]
    [SVs1; SVs2] [DVd] [] (SmVec (VEl OAnd U8) true true);
  (* coralnpu_arith.bin_fmt:540 coralnpu_arith.isa:1441 *)
  E "vand_h_vx" GArith FV2 [Ceq "func2" 0; Ceq "sz" 1; Ceq "m" 0; Ceq "func1" 1; Ceq "form" 2]
    [SVs1; SVs2] [DVd] [] (SmVec (VEl OAnd U16) true false);
  (* coralnpu_arith.bin_fmt:541 coralnpu_arith.isa:1444 *)
  E "vand_h_vx_m" GArith FV2 [Ceq "func2" 0; Ceq "sz" 1; Ceq "m" 1; Ceq "func1" 1; Ceq "form" 2]
    [SVs1; SVs2] [DVd] [] (SmVec (VEl OAnd U16) true true);
  (* coralnpu_arith.bin_fmt:542 coralnpu_arith.isa:1447 *)
  E "vand_w_vx" GArith FV2 [Ceq "func2" 0; Ceq "sz" 2; Ceq "m" 0; Ceq "func1" 1; Ceq "form" 2]
    [SVs1; SVs2] [DVd] [] (SmVec (VEl OAnd U32) true false);
  (* coralnpu_arith.bin_fmt:543 coralnpu_arith.isa:1450 *)
  E "vand_w_vx_m" GArith FV2 [Ceq "func2" 0; Ceq "sz" 2; Ceq "m" 1; Ceq "func1" 1; Ceq "form" 2]
    [SVs1; SVs2] [DVd] [] (SmVec (VEl OAnd U32) true true);
  (* coralnpu_arith.bin_fmt:546 coralnpu_arith.isa:1455 *)
  E "vor_vv" GArith FV2 [Ceq "func2" 1; Ceq "m" 0; Ceq "func1" 1; Ceq "form" 0]
    [SVs1; SVs2] [DVd] [] (SmVec (VEl OOr U32) false false);
  (* coralnpu_arith.bin_fmt:547 coralnpu_arith.isa:1458 *)
  E "vor_vv_m" GArith FV2 [Ceq "func2" 1; Ceq "m" 1; Ceq "func1" 1; Ceq "form" 0]
    [SVs1; SVs2] [DVd] [] (SmVec (VEl OOr U32) false true);
  (* coralnpu_arith.bin_fmt:548 coralnpu_arith.isa:1461 *)
  E "vor_b_vx" GArith FV2 [Ceq "func2" 1; Ceq "sz" 0; Ceq "m" 0; Ceq "func1" 1; Ceq "form" 2]
    [SVs1; SVs2] [DVd] [] (SmVec (VEl OOr U8) true false);
  (* coralnpu_arith.bin_fmt:549 coralnpu_arith.isa:1464 *)
  E "vor_b_vx_m" GArith FV2 [Ceq "func2" 1; Ceq "sz" 0; Ceq "m" 1; Ceq "func1" 1; Ceq "form" 2]
    [SVs1; SVs2] [DVd] [] (SmVec (VEl OOr U8) true true);
  (* coralnpu_arith.bin_fmt:550 coralnpu_arith.isa:1467 *)
  E "vor_h_vx" GArith FV2 [Ceq "func2" 1; Ceq "sz" 1; Ceq "m" 0; Ceq "func1" 1; Ceq "form" 2]
    [SVs1; SVs2] [DVd] [] (SmVec (VEl OOr U16) true false);
  (* coralnpu_arith.bin_fmt:551 coralnpu_arith.isa:1470 *)
  E "vor_h_vx_m" GArith FV2 [Ceq "func2" 1; Ceq "sz" 1; Ceq "m" 1; Ceq "func1" 1; Ceq "form" 2]
    [SVs1; SVs2] [DVd] [] (SmVec (VEl OOr U16) true true);
  (* coralnpu_arith.bin_fmt:552 coralnpu_arith.isa:1473 *)
  E "vor_w_vx" GArith FV2 [Ceq "func2" 1; Ceq "sz" 2; Ceq "m" 0; Ceq "func1" 1; Ceq "form" 2]
    [SVs1; SVs2] [DVd] [] (SmVec (VEl OOr U32) true false);
  (* coralnpu_arith.bin_fmt:553 coralnpu_arith.isa:1476 *)
  E "vor_w_vx_m" GArith FV2 [Ceq "func2" 1; Ceq "sz" 2; Ceq "m" 1; Ceq "func1" 1; Ceq "form" 2]
    [SVs1; SVs2] [DVd] [] (SmVec (VEl OOr U32) true true);
  (* coralnpu_arith.bin_fmt:556 coralnpu_arith.isa:1481 *)
  E "vxor_vv" GArith FV2 [Ceq "func2" 2; Ceq "m" 0; Ceq "func1" 1; Ceq "form" 0]
    [SVs1; SVs2] [DVd] [] (SmVec (VEl OXor U32) false false);
  (* coralnpu_arith.bin_fmt:557 coralnpu_arith.isa:1484 *)
  E "vxor_vv_m" GArith FV2 [Ceq "func2" 2; Ceq "m" 1; Ceq "func1" 1; Ceq "form" 0]
    [SVs1; SVs2] [DVd] [] (SmVec (VEl OXor U32) false true);
  (* coralnpu_arith.bin_fmt:558 coralnpu_arith.isa:1487 *)
  E "vxor_b_vx" GArith FV2 [Ceq "func2" 2; Ceq "sz" 0; Ceq "m" 0; Ceq "func1" 1; Ceq "form" 2]
    [SVs1; SVs2] [DVd] [] (SmVec (VEl OXor U8) true false);
  (* coralnpu_arith.bin_fmt:559 coralnpu_arith.isa:1490 *)
  E "vxor_b_vx_m" GArith FV2 [Ceq "func2" 2; Ceq "sz" 0; Ceq "m" 1; Ceq "func1" 1; Ceq "form" 2]
    [SVs1; SVs2] [DVd] [] (SmVec (VEl OXor U8) true true);
  (* coralnpu_arith.bin_fmt:560 coralnpu_arith.isa:1493 *)
  E "vxor_h_vx" GArith FV2 [Ceq "func2" 2; Ceq "sz" 1; Ceq "m" 0; Ceq "func1" 1; Ceq "form" 2]
    [SVs1; SVs2] [DVd] [] (SmVec (VEl OXor U16) true false);
  (* coralnpu_arith.bin_fmt:561 coralnpu_arith.isa:1496 *)
  E "vxor_h_vx_m" GArith FV2 [Ceq "func2" 2; Ceq "sz" 1; Ceq "m" 1; Ceq "func1" 1; Ceq "form" 2]
    [SVs1; SVs2] [DVd] [] (SmVec (VEl OXor U16) true true);
  (* coralnpu_arith.bin_fmt:562 coralnpu_arith.isa:1499 *)
  E "vxor_w_vx" GArith FV2 [Ceq "func2" 2; Ceq "sz" 2; Ceq "m" 0; Ceq "func1" 1; Ceq "form" 2]
    [SVs1; SVs2] [DVd] [] (SmVec (VEl OXor U32) true false);
  (* coralnpu_arith.bin_fmt:563 coralnpu_arith.isa:1502 *)
  E "vxor_w_vx_m" GArith FV2 [Ceq "func2" 2; Ceq "sz" 2; Ceq "m" 1; Ceq "func1" 1; Ceq "form" 2]
    [SVs1; SVs2] [DVd] [] (SmVec (VEl OXor U32) true true);
  (* coralnpu_arith.bin_fmt:566 coralnpu_arith.isa:1507 *)
  E "vrev_b_vv" GArith FV2 [Ceq "func2" 4; Ceq "sz" 0; Ceq "m" 0; Ceq "func1" 1; Ceq "form" 0]
    [SVs1; SVs2] [DVd] [] (SmVec (VEl ORev U8) false false);
  (* coralnpu_arith.bin_fmt:567 coralnpu_arith.isa:1510 *)
  E "vrev_b_vx" GArith FV2 [Ceq "func2" 4; Ceq "sz" 0; Ceq "m" 0; Ceq "func1" 1; Ceq "form" 2]
    [SVs1; SVs2] [DVd] [] (SmVec (VEl ORev U8) true false);
  (* coralnpu_arith.bin_fmt:568 coralnpu_arith.isa:1513 *)
  E "vrev_b_vv_m" GArith FV2 [Ceq "func2" 4; Ceq "sz" 0; Ceq "m" 1; Ceq "func1" 1; Ceq "form" 0]
    [SVs1; SVs2] [DVd] [] (SmVec (VEl ORev U8) false true);
  (* coralnpu_arith.bin_fmt:569 coralnpu_arith.isa:1516 *)
  E "vrev_b_vx_m" GArith FV2 [Ceq "func2" 4; Ceq "sz" 0; Ceq "m" 1; Ceq "func1" 1; Ceq "form" 2]
    [SVs1; SVs2] [DVd] [] (SmVec (VEl ORev U8) true true);
  (* coralnpu_arith.bin_fmt:570 coralnpu_arith.isa:1519 *)
  E "vrev_h_vv" GArith FV2 [Ceq "func2" 4; Ceq "sz" 1; Ceq "m" 0; Ceq "func1" 1; Ceq "form" 0]
    [SVs1; SVs2] [DVd] [] (SmVec (VEl ORev U16) false false);
  (* coralnpu_arith.bin_fmt:571 coralnpu_arith.isa:1522 *)
  E "vrev_h_vx" GArith FV2 [Ceq "func2" 4; Ceq "sz" 1; Ceq "m" 0; Ceq "func1" 1; Ceq "form" 2]
    [SVs1; SVs2] [DVd] [] (SmVec (VEl ORev U16) true false);
  (* coralnpu_arith.bin_fmt:572 coralnpu_arith.isa:1525 *)
  E "vrev_h_vv_m" GArith FV2 [Ceq "func2" 4; Ceq "sz" 1; Ceq "m" 1; Ceq "func1" 1; Ceq "form" 0]
    [SVs1; SVs2] [DVd] [] (SmVec (VEl ORev U16) false true);
  (* coralnpu_arith.bin_fmt:573 coralnpu_arith.isa:1528 *)
  E "vrev_h_vx_m" GArith FV2 [Ceq "func2" 4; Ceq "sz" 1; Ceq "m" 1; Ceq "func1" 1; Ceq "form" 2]
    [SVs1; SVs2] [DVd] [] (SmVec (VEl ORev U16) true true);
  (* coralnpu_arith.bin_fmt:574 coralnpu_arith.isa:1531 *)
  E "vrev_w_vv" GArith FV2 [Ceq "func2" 4; Ceq "sz" 2; Ceq "m" 0; Ceq "func1" 1; Ceq "form" 0]
    [SVs1; SVs2] [DVd] [] (SmVec (VEl ORev U32) false false);
  (* coralnpu_arith.bin_fmt:575 coralnpu_arith.isa:1534 *)
  E "vrev_w_vx" GArith FV2 [Ceq "func2" 4; Ceq "sz" 2; Ceq "m" 0; Ceq "func1" 1; Ceq "form" 2]
    [SVs1; SVs2] [DVd] [] (SmVec (VEl ORev U32) true false);
  (* coralnpu_arith.bin_fmt:576 coralnpu_arith.isa:1537 *)
  E "vrev_w_vv_m" GArith FV2 [Ceq "func2" 4; Ceq "sz" 2; Ceq "m" 1; Ceq "func1" 1; Ceq "form" 0]
    [SVs1; SVs2] [DVd] [] (SmVec (VEl ORev U32) false true);
  (* coralnpu_arith.bin_fmt:577 coralnpu_arith.isa:1540 *)
  E "vrev_w_vx_m" GArith FV2 [Ceq "func2" 4; Ceq "sz" 2; Ceq "m" 1; Ceq "func1" 1; Ceq "form" 2]
    [SVs1; SVs2] [DVd] [] (SmVec (VEl ORev U32) true true);
  (* coralnpu_arith.bin_fmt:580 coralnpu_arith.isa:1545 *)
  E "vror_b_vv" GArith FV2 [Ceq "func2" 5; Ceq "sz" 0; Ceq "m" 0; Ceq "func1" 1; Ceq "form" 0]
    [SVs1; SVs2] [DVd] [] (SmVec (VEl ORor U8) false false);
  (* coralnpu_arith.bin_fmt:581 coralnpu_arith.isa:1548 *)
  E "vror_b_vx" GArith FV2 [Ceq "func2" 5; Ceq "sz" 0; Ceq "m" 0; Ceq "func1" 1; Ceq "form" 2]
    [SVs1; SVs2] [DVd] [] (SmVec (VEl ORor U8) true false);
  (* coralnpu_arith.bin_fmt:582 coralnpu_arith.isa:1551 *)
  E "vror_b_vv_m" GArith FV2 [Ceq "func2" 5; Ceq "sz" 0; Ceq "m" 1; Ceq "func1" 1; Ceq "form" 0]
    [SVs1; SVs2] [DVd] [] (SmVec (VEl ORor U8) false true);
  (* coralnpu_arith.bin_fmt:583 coralnpu_arith.isa:1554 *)
  E "vror_b_vx_m" GArith FV2 [Ceq "func2" 5; Ceq "sz" 0; Ceq "m" 1; Ceq "func1" 1; Ceq "form" 2]
    [SVs1; SVs2] [DVd] [] (SmVec (VEl ORor U8) true true);
  (* coralnpu_arith.bin_fmt:584 coralnpu_arith.isa:1557 *)
  E "vror_h_vv" GArith FV2 [Ceq "func2" 5; Ceq "sz" 1; Ceq "m" 0; Ceq "func1" 1; Ceq "form" 0]
    [SVs1; SVs2] [DVd] [] (SmVec (VEl ORor U16) false false);
  (* coralnpu_arith.bin_fmt:585 coralnpu_arith.isa:1560 *)
  E "vror_h_vx" GArith FV2 [Ceq "func2" 5; Ceq "sz" 1; Ceq "m" 0; Ceq "func1" 1; Ceq "form" 2]
    [SVs1; SVs2] [DVd] [] (SmVec (VEl ORor U16) true false);
  (* coralnpu_arith.bin_fmt:586 coralnpu_arith.isa:1563 *)
  E "vror_h_vv_m" GArith FV2 [Ceq "func2" 5; Ceq "sz" 1; Ceq "m" 1; Ceq "func1" 1; Ceq "form" 0]
    [SVs1; SVs2] [DVd] [] (SmVec (VEl ORor U16) false true);
  (* coralnpu_arith.bin_fmt:587 coralnpu_arith.isa:1566 *)
  E "vror_h_vx_m" GArith FV2 [Ceq "func2" 5; Ceq "sz" 1; Ceq "m" 1; Ceq "func1" 1; Ceq "form" 2]
    [SVs1; SVs2] [DVd] [] (SmVec (VEl ORor U16) true true);
  (* coralnpu_arith.bin_fmt:588 coralnpu_arith.isa:1569 *)
  E "vror_w_vv" GArith FV2 [Ceq "func2" 5; Ceq "sz" 2; Ceq "m" 0; Ceq "func1" 1; Ceq "form" 0]
    [SVs1; SVs2] [DVd] [] (SmVec (VEl ORor U32) false false);
  (* coralnpu_arith.bin_fmt:589 coralnpu_arith.isa:1572 *)
  E "vror_w_vx" GArith FV2 [Ceq "func2" 5; Ceq "sz" 2; Ceq "m" 0; Ceq "func1" 1; Ceq "form" 2]
    [SVs1; SVs2] [DVd] [] (SmVec (VEl ORor U32) true false);
  (* coralnpu_arith.bin_fmt:590 coralnpu_arith.isa:1575 *)
  E "vror_w_vv_m" GArith FV2 [Ceq "func2" 5; Ceq "sz" 2; Ceq "m" 1; Ceq "func1" 1; Ceq "form" 0]
    [SVs1; SVs2] [DVd] [] (SmVec (VEl ORor U32) false true);
  (* coralnpu_arith.bin_fmt:591 coralnpu_arith.isa:1578 *)
  E "vror_w_vx_m" GArith FV2 [Ceq "func2" 5; Ceq "sz" 2; Ceq "m" 1; Ceq "func1" 1; Ceq "form" 2]
    [SVs1; SVs2] [DVd] [] (SmVec (VEl ORor U32) true true);
  (* coralnpu_arith.bin_fmt:594 coralnpu_arith.isa:1583 *)
  E "vmvp_vv" GArith FV2 [Ceq "func2" 13; Ceq "m" 0; Ceq "func1" 1; Ceq "form" 0]
    [SVs1; SVs2] [DVd] [] (SmVec (VPerm PMvp U32) false false);
  (* coralnpu_arith.bin_fmt:595 coralnpu_arith.isa:1586 *)
  E "vmvp_vv_m" GArith FV2 [Ceq "func2" 13; Ceq "m" 1; Ceq "func1" 1; Ceq "form" 0]
    [SVs1; SVs2] [DVd] [] (SmVec (VPerm PMvp U32) false true);
  (* coralnpu_arith.bin_fmt:596 coralnpu_arith.isa:1589 *)
  E "vmvp_b_vx" GArith FV2 [Ceq "func2" 13; Ceq "sz" 0; Ceq "m" 0; Ceq "func1" 1; Ceq "form" 2]
    [SVs1; SVs2] [DVd] [] (SmVec (VPerm PMvp U8) true false);
  (* coralnpu_arith.bin_fmt:597 coralnpu_arith.isa:1592 *)
  E "vmvp_b_vx_m" GArith FV2 [Ceq "func2" 13; Ceq "sz" 0; Ceq "m" 1; Ceq "func1" 1; Ceq "form" 2]
    [SVs1; SVs2] [DVd] [] (SmVec (VPerm PMvp U8) true true);
  (* coralnpu_arith.bin_fmt:598 coralnpu_arith.isa:1595 *)
  E "vmvp_h_vx" GArith FV2 [Ceq "func2" 13; Ceq "sz" 1; Ceq "m" 0; Ceq "func1" 1; Ceq "form" 2]
    [SVs1; SVs2] [DVd] [] (SmVec (VPerm PMvp U16) true false);
  (* coralnpu_arith.bin_fmt:599 coralnpu_arith.isa:1598 *)
  E "vmvp_h_vx_m" GArith FV2 [Ceq "func2" 13; Ceq "sz" 1; Ceq "m" 1; Ceq "func1" 1; Ceq "form" 2]
    [SVs1; SVs2] [DVd] [] (SmVec (VPerm PMvp U16) true true);
  (* coralnpu_arith.bin_fmt:600 coralnpu_arith.isa:1601 *)
  E "vmvp_w_vx" GArith FV2 [Ceq "func2" 13; Ceq "sz" 2; Ceq "m" 0; Ceq "func1" 1; Ceq "form" 2]
    [SVs1; SVs2] [DVd] [] (SmVec (VPerm PMvp U32) true false);
  (* coralnpu_arith.bin_fmt:601 coralnpu_arith.isa:1604 *)
  E "vmvp_w_vx_m" GArith FV2 [Ceq "func2" 13; Ceq "sz" 2; Ceq "m" 1; Ceq "func1" 1; Ceq "form" 2]
    [SVs1; SVs2] [DVd] [] (SmVec (VPerm PMvp U32) true true)
].

Definition tab_GConv : list entry := [
  (* coralnpu_conv.bin_fmt:3 coralnpu_mul.isa:537 *)
  E "aconv_vxv" GConv FV3 [Ceq "func3_hi" 2; Ceq "func3_lo" 0; Ceq "vd" 48; Ceq "vs1_low4" 0; Cne "vs2" 0; Ceq "vs3_low3" 0; Ceq "m" 0; Ceq "form" 5]
    [SVs1; SVs2; SVs3] [DVd] [] (SmConv);
  (* coralnpu_conv.bin_fmt:6 coralnpu_mul.isa:541 *)
  E "adwconv_vxv" GConv FV3 [Ceq "func3_hi" 2; Ceq "func3_lo" 2; Ceq "vd_low2" 0; Ceq "vs2_hi1" 1; Ceq "m" 0; Ceq "form" 5]
    [SVs1; SRs2; SVs3] [DVd] [] (SmDwconv false);
  (* coralnpu_conv.bin_fmt:7 coralnpu_mul.isa:545 *)
  E "vdwconv_vxv" GConv FV3 [Ceq "func3_hi" 2; Ceq "func3_lo" 2; Ceq "vd_low2" 0; Ceq "vs2_hi1" 0; Ceq "m" 0; Ceq "form" 5]
    [SVs1; SRs2; SVs3] [DVd] [] (SmDwconv true)
].

Definition tab_GMemory : list entry := [
  (* coralnpu_memory.bin_fmt:5 coralnpu_memory.isa:110 *)
  E "vld_b_x" GMemory FV2 [Ceq "func2" 0; Ceq "vs2" 0; Ceq "sz" 0; Ceq "m" 0; Ceq "func1" 7; Ceq "form" 3]
    [SVs1] [] [DVd] (SmLd I8 false false false I8 false);
  (* coralnpu_memory.bin_fmt:6 coralnpu_memory.isa:114 *)
  E "vld_h_x" GMemory FV2 [Ceq "func2" 0; Ceq "vs2" 0; Ceq "sz" 1; Ceq "m" 0; Ceq "func1" 7; Ceq "form" 3]
    [SVs1] [] [DVd] (SmLd I16 false false false I16 false);
  (* coralnpu_memory.bin_fmt:7 coralnpu_memory.isa:118 *)
  E "vld_w_x" GMemory FV2 [Ceq "func2" 0; Ceq "vs2" 0; Ceq "sz" 2; Ceq "m" 0; Ceq "func1" 7; Ceq "form" 3]
    [SVs1] [] [DVd] (SmLd I32 false false false I32 false);
  (* coralnpu_memory.bin_fmt:8 coralnpu_memory.isa:134 *)
  E "vld_b_p_x" GMemory FV2 [Ceq "func2" 4; Ceq "vs2" 0; Ceq "sz" 0; Ceq "m" 0; Ceq "func1" 7; Ceq "form" 3]
    [SVs1] [DVs1] [DVd] (SmLd I8 false false false I8 false);
  (* coralnpu_memory.bin_fmt:9 coralnpu_memory.isa:138 *)
  E "vld_h_p_x" GMemory FV2 [Ceq "func2" 4; Ceq "vs2" 0; Ceq "sz" 1; Ceq "m" 0; Ceq "func1" 7; Ceq "form" 3]
    [SVs1] [DVs1] [DVd] (SmLd I16 false false false I16 false);
  (* coralnpu_memory.bin_fmt:10 coralnpu_memory.isa:142 *)
  E "vld_w_p_x" GMemory FV2 [Ceq "func2" 4; Ceq "vs2" 0; Ceq "sz" 2; Ceq "m" 0; Ceq "func1" 7; Ceq "form" 3]
    [SVs1] [DVs1] [DVd] (SmLd I32 false false false I32 false);
  (* coralnpu_memory.bin_fmt:11 coralnpu_memory.isa:122 *)
  E "vld_b_x_m" GMemory FV2 [Ceq "func2" 0; Ceq "vs2" 0; Ceq "sz" 0; Ceq "m" 1; Ceq "func1" 7; Ceq "form" 3]
    [SVs1] [] [DVd] (SmLd I8 false false true I8 true);
  (* coralnpu_memory.bin_fmt:12 coralnpu_memory.isa:126 *)
  E "vld_h_x_m" GMemory FV2 [Ceq "func2" 0; Ceq "vs2" 0; Ceq "sz" 1; Ceq "m" 1; Ceq "func1" 7; Ceq "form" 3]
    [SVs1] [] [DVd] (SmLd I16 false false true I16 true);
  (* coralnpu_memory.bin_fmt:13 coralnpu_memory.isa:130 *)
  E "vld_w_x_m" GMemory FV2 [Ceq "func2" 0; Ceq "vs2" 0; Ceq "sz" 2; Ceq "m" 1; Ceq "func1" 7; Ceq "form" 3]
    [SVs1] [] [DVd] (SmLd I32 false false true I32 true);
  (* coralnpu_memory.bin_fmt:14 coralnpu_memory.isa:146 *)
  E "vld_b_p_x_m" GMemory FV2 [Ceq "func2" 4; Ceq "vs2" 0; Ceq "sz" 0; Ceq "m" 1; Ceq "func1" 7; Ceq "form" 3]
    [SVs1] [DVs1] [DVd] (SmLd I8 false false true I8 true);
  (* coralnpu_memory.bin_fmt:15 coralnpu_memory.isa:150 *)
  E "vld_h_p_x_m" GMemory FV2 [Ceq "func2" 4; Ceq "vs2" 0; Ceq "sz" 1; Ceq "m" 1; Ceq "func1" 7; Ceq "form" 3]
    [SVs1] [DVs1] [DVd] (SmLd I16 false false true I16 true);
  (* coralnpu_memory.bin_fmt:16 coralnpu_memory.isa:154 *)
  E "vld_w_p_x_m" GMemory FV2 [Ceq "func2" 4; Ceq "vs2" 0; Ceq "sz" 2; Ceq "m" 1; Ceq "func1" 7; Ceq "form" 3]
    [SVs1] [DVs1] [DVd] (SmLd I32 false false true I32 true);
  (* coralnpu_memory.bin_fmt:17 coralnpu_memory.isa:158 *)
  E "vld_b_p_xx" GMemory FV2 [Ceq "func2" 4; Cne "vs2" 0; Ceq "sz" 0; Ceq "m" 0; Ceq "func1" 7; Ceq "form" 3]
    [SVs1; SVs2] [DVs1] [DVd] (SmLd I8 false false false I8 false);
  (* coralnpu_memory.bin_fmt:18 coralnpu_memory.isa:162 *)
  E "vld_h_p_xx" GMemory FV2 [Ceq "func2" 4; Cne "vs2" 0; Ceq "sz" 1; Ceq "m" 0; Ceq "func1" 7; Ceq "form" 3]
    [SVs1; SVs2] [DVs1] [DVd] (SmLd I16 false false false I16 false);
  (* coralnpu_memory.bin_fmt:19 coralnpu_memory.isa:166 *)
  E "vld_w_p_xx" GMemory FV2 [Ceq "func2" 4; Cne "vs2" 0; Ceq "sz" 2; Ceq "m" 0; Ceq "func1" 7; Ceq "form" 3]
    [SVs1; SVs2] [DVs1] [DVd] (SmLd I32 false false false I32 false);
  (* coralnpu_memory.bin_fmt:20 coralnpu_memory.isa:170 *)
  E "vld_b_p_xx_m" GMemory FV2 [Ceq "func2" 4; Cne "vs2" 0; Ceq "sz" 0; Ceq "m" 1; Ceq "func1" 7; Ceq "form" 3]
    [SVs1; SVs2] [DVs1] [DVd] (SmLd I8 false false true I8 true);
  (* coralnpu_memory.bin_fmt:21 coralnpu_memory.isa:174 *)
  E "vld_h_p_xx_m" GMemory FV2 [Ceq "func2" 4; Cne "vs2" 0; Ceq "sz" 1; Ceq "m" 1; Ceq "func1" 7; Ceq "form" 3]
    [SVs1; SVs2] [DVs1] [DVd] (SmLd I16 false false true I16 true);
  (* coralnpu_memory.bin_fmt:22 coralnpu_memory.isa:178 *)
  E "vld_w_p_xx_m" GMemory FV2 [Ceq "func2" 4; Cne "vs2" 0; Ceq "sz" 2; Ceq "m" 1; Ceq "func1" 7; Ceq "form" 3]
    [SVs1; SVs2] [DVs1] [DVd] (SmLd I32 false false true I32 true);
  (* coralnpu_memory.bin_fmt:23 coralnpu_memory.isa:182 *)
  E "vld_b_l_xx" GMemory FV2 [Ceq "func2" 1; Cne "vs2" 0; Ceq "sz" 0; Ceq "m" 0; Ceq "func1" 7; Ceq "form" 3]
    [SVs1; SVs2] [] [DVd] (SmLd I8 true false false I8 false);
  (* coralnpu_memory.bin_fmt:24 coralnpu_memory.isa:186 *)
  E "vld_h_l_xx" GMemory FV2 [Ceq "func2" 1; Cne "vs2" 0; Ceq "sz" 1; Ceq "m" 0; Ceq "func1" 7; Ceq "form" 3]
    [SVs1; SVs2] [] [DVd] (SmLd I16 true false false I16 false);
  (* coralnpu_memory.bin_fmt:25 coralnpu_memory.isa:190 *)
  E "vld_w_l_xx" GMemory FV2 [Ceq "func2" 1; Cne "vs2" 0; Ceq "sz" 2; Ceq "m" 0; Ceq "func1" 7; Ceq "form" 3]
    [SVs1; SVs2] [] [DVd] (SmLd I32 true false false I32 false);
  (* coralnpu_memory.bin_fmt:26 coralnpu_memory.isa:206 *)
  E "vld_b_lp_xx" GMemory FV2 [Ceq "func2" 5; Cne "vs2" 0; Ceq "sz" 0; Ceq "m" 0; Ceq "func1" 7; Ceq "form" 3]
    [SVs1; SVs2] [DVs1] [DVd] (SmLd I8 true false false I8 false);
  (* coralnpu_memory.bin_fmt:27 coralnpu_memory.isa:210 *)
  E "vld_h_lp_xx" GMemory FV2 [Ceq "func2" 5; Cne "vs2" 0; Ceq "sz" 1; Ceq "m" 0; Ceq "func1" 7; Ceq "form" 3]
    [SVs1; SVs2] [DVs1] [DVd] (SmLd I16 true false false I16 false);
  (* coralnpu_memory.bin_fmt:28 coralnpu_memory.isa:214 *)
  E "vld_w_lp_xx" GMemory FV2 [Ceq "func2" 5; Cne "vs2" 0; Ceq "sz" 2; Ceq "m" 0; Ceq "func1" 7; Ceq "form" 3]
    [SVs1; SVs2] [DVs1] [DVd] (SmLd I32 true false false I32 false);
  (* coralnpu_memory.bin_fmt:29 coralnpu_memory.isa:194 *)
  E "vld_b_l_xx_m" GMemory FV2 [Ceq "func2" 1; Cne "vs2" 0; Ceq "sz" 0; Ceq "m" 1; Ceq "func1" 7; Ceq "form" 3]
    [SVs1; SVs2] [] [DVd] (SmLd I8 true false true I8 true);
  (* coralnpu_memory.bin_fmt:30 coralnpu_memory.isa:198 *)
  E "vld_h_l_xx_m" GMemory FV2 [Ceq "func2" 1; Cne "vs2" 0; Ceq "sz" 1; Ceq "m" 1; Ceq "func1" 7; Ceq "form" 3]
    [SVs1; SVs2] [] [DVd] (SmLd I16 true false true I16 true);
  (* coralnpu_memory.bin_fmt:31 coralnpu_memory.isa:202 *)
  E "vld_w_l_xx_m" GMemory FV2 [Ceq "func2" 1; Cne "vs2" 0; Ceq "sz" 2; Ceq "m" 1; Ceq "func1" 7; Ceq "form" 3]
    [SVs1; SVs2] [] [DVd] (SmLd I32 true false true I32 true);
  (* coralnpu_memory.bin_fmt:32 coralnpu_memory.isa:218 *)
  E "vld_b_lp_xx_m" GMemory FV2 [Ceq "func2" 5; Cne "vs2" 0; Ceq "sz" 0; Ceq "m" 1; Ceq "func1" 7; Ceq "form" 3]
    [SVs1; SVs2] [DVs1] [DVd] (SmLd I8 true false true I8 true);
  (* coralnpu_memory.bin_fmt:33 coralnpu_memory.isa:222 *)
  E "vld_h_lp_xx_m" GMemory FV2 [Ceq "func2" 5; Cne "vs2" 0; Ceq "sz" 1; Ceq "m" 1; Ceq "func1" 7; Ceq "form" 3]
    [SVs1; SVs2] [DVs1] [DVd] (SmLd I16 true false true I16 true);
  (* coralnpu_memory.bin_fmt:34 coralnpu_memory.isa:226 *)
  E "vld_w_lp_xx_m" GMemory FV2 [Ceq "func2" 5; Cne "vs2" 0; Ceq "sz" 2; Ceq "m" 1; Ceq "func1" 7; Ceq "form" 3]
    [SVs1; SVs2] [DVs1] [DVd] (SmLd I32 true false true I32 true);
  (* coralnpu_memory.bin_fmt:35 coralnpu_memory.isa:230 *)
  E "vld_b_s_xx" GMemory FV2 [Ceq "func2" 2; Cne "vs2" 0; Ceq "sz" 0; Ceq "m" 0; Ceq "func1" 7; Ceq "form" 3]
    [SVs1; SVs2] [] [DVd] (SmLd I8 false true false I8 false);
  (* coralnpu_memory.bin_fmt:36 coralnpu_memory.isa:234 *)
  E "vld_h_s_xx" GMemory FV2 [Ceq "func2" 2; Cne "vs2" 0; Ceq "sz" 1; Ceq "m" 0; Ceq "func1" 7; Ceq "form" 3]
    [SVs1; SVs2] [] [DVd] (SmLd I16 false true false I16 false);
  (* coralnpu_memory.bin_fmt:37 coralnpu_memory.isa:238 *)
  E "vld_w_s_xx" GMemory FV2 [Ceq "func2" 2; Cne "vs2" 0; Ceq "sz" 2; Ceq "m" 0; Ceq "func1" 7; Ceq "form" 3]
    [SVs1; SVs2] [] [DVd] (SmLd I32 false true false I32 false);
  (* coralnpu_memory.bin_fmt:38 coralnpu_memory.isa:254 *)
  E "vld_b_sp_xx" GMemory FV2 [Ceq "func2" 6; Cne "vs2" 0; Ceq "sz" 0; Ceq "m" 0; Ceq "func1" 7; Ceq "form" 3]
    [SVs1; SVs2] [DVs1] [DVd] (SmLd I8 false true false I8 false);
  (* coralnpu_memory.bin_fmt:39 coralnpu_memory.isa:258 *)
  E "vld_h_sp_xx" GMemory FV2 [Ceq "func2" 6; Cne "vs2" 0; Ceq "sz" 1; Ceq "m" 0; Ceq "func1" 7; Ceq "form" 3]
    [SVs1; SVs2] [DVs1] [DVd] (SmLd I16 false true false I16 false);
  (* coralnpu_memory.bin_fmt:40 coralnpu_memory.isa:262 *)
  E "vld_w_sp_xx" GMemory FV2 [Ceq "func2" 6; Cne "vs2" 0; Ceq "sz" 2; Ceq "m" 0; Ceq "func1" 7; Ceq "form" 3]
    [SVs1; SVs2] [DVs1] [DVd] (SmLd I32 false true false I32 false);
  (* coralnpu_memory.bin_fmt:41 coralnpu_memory.isa:242 *)
  E "vld_b_s_xx_m" GMemory FV2 [Ceq "func2" 2; Cne "vs2" 0; Ceq "sz" 0; Ceq "m" 1; Ceq "func1" 7; Ceq "form" 3]
    [SVs1; SVs2] [] [DVd] (SmLd I8 false true true I8 true);
  (* coralnpu_memory.bin_fmt:42 coralnpu_memory.isa:246 *)
  E "vld_h_s_xx_m" GMemory FV2 [Ceq "func2" 2; Cne "vs2" 0; Ceq "sz" 1; Ceq "m" 1; Ceq "func1" 7; Ceq "form" 3]
    [SVs1; SVs2] [] [DVd] (SmLd I16 false true true I16 true);
  (* coralnpu_memory.bin_fmt:43 coralnpu_memory.isa:250 *)
  E "vld_w_s_xx_m" GMemory FV2 [Ceq "func2" 2; Cne "vs2" 0; Ceq "sz" 2; Ceq "m" 1; Ceq "func1" 7; Ceq "form" 3]
    [SVs1; SVs2] [] [DVd] (SmLd I32 false true true I32 true);
  (* coralnpu_memory.bin_fmt:44 coralnpu_memory.isa:266 *)
  E "vld_b_sp_xx_m" GMemory FV2 [Ceq "func2" 6; Cne "vs2" 0; Ceq "sz" 0; Ceq "m" 1; Ceq "func1" 7; Ceq "form" 3]
    [SVs1; SVs2] [DVs1] [DVd] (SmLd I8 false true true I8 true);
  (* coralnpu_memory.bin_fmt:45 coralnpu_memory.isa:270 *)
  E "vld_h_sp_xx_m" GMemory FV2 [Ceq "func2" 6; Cne "vs2" 0; Ceq "sz" 1; Ceq "m" 1; Ceq "func1" 7; Ceq "form" 3]
    [SVs1; SVs2] [DVs1] [DVd] (SmLd I16 false true true I16 true);
  (* coralnpu_memory.bin_fmt:46 coralnpu_memory.isa:274 *)
  E "vld_w_sp_xx_m" GMemory FV2 [Ceq "func2" 6; Cne "vs2" 0; Ceq "sz" 2; Ceq "m" 1; Ceq "func1" 7; Ceq "form" 3]
    [SVs1; SVs2] [DVs1] [DVd] (SmLd I32 false true true I32 true);
  (* coralnpu_memory.bin_fmt:47 coralnpu_memory.isa:278 *)
  E "vld_b_tp_xx" GMemory FV2 [Ceq "func2" 7; Cne "vs2" 0; Ceq "sz" 0; Ceq "m" 0; Ceq "func1" 7; Ceq "form" 3]
    [SVs1; SVs2] [DVs1] [DVd] (SmLd I8 true true false I8 false);
  (* coralnpu_memory.bin_fmt:48 coralnpu_memory.isa:282 *)
  E "vld_h_tp_xx" GMemory FV2 [Ceq "func2" 7; Cne "vs2" 0; Ceq "sz" 1; Ceq "m" 0; Ceq "func1" 7; Ceq "form" 3]
    [SVs1; SVs2] [DVs1] [DVd] (SmLd I16 true true false I16 false);
  (* coralnpu_memory.bin_fmt:49 coralnpu_memory.isa:286 *)
  E "vld_w_tp_xx" GMemory FV2 [Ceq "func2" 7; Cne "vs2" 0; Ceq "sz" 2; Ceq "m" 0; Ceq "func1" 7; Ceq "form" 3]
    [SVs1; SVs2] [DVs1] [DVd] (SmLd I32 true true false I32 false);
  (* coralnpu_memory.bin_fmt:50 coralnpu_memory.isa:290 *)
  E "vld_b_tp_xx_m" GMemory FV2 [Ceq "func2" 7; Cne "vs2" 0; Ceq "sz" 0; Ceq "m" 1; Ceq "func1" 7; Ceq "form" 3]
    [SVs1; SVs2] [DVs1] [DVd] (SmLd I8 true true true I8 true);
  (* coralnpu_memory.bin_fmt:51 coralnpu_memory.isa:294 *)
  E "vld_h_tp_xx_m" GMemory FV2 [Ceq "func2" 7; Cne "vs2" 0; Ceq "sz" 1; Ceq "m" 1; Ceq "func1" 7; Ceq "form" 3]
    [SVs1; SVs2] [DVs1] [DVd] (SmLd I16 true true true I16 true);
  (* coralnpu_memory.bin_fmt:52 coralnpu_memory.isa:298 *)
  E "vld_w_tp_xx_m" GMemory FV2 [Ceq "func2" 7; Cne "vs2" 0; Ceq "sz" 2; Ceq "m" 1; Ceq "func1" 7; Ceq "form" 3]
    [SVs1; SVs2] [DVs1] [DVd] (SmLd I32 true true true I32 true);
  (* coralnpu_memory.bin_fmt:55 coralnpu_memory.isa:304 *)
  E "vst_b_x" GMemory FV2 [Ceq "func2" 8; Ceq "vs2" 0; Ceq "sz" 0; Ceq "m" 0; Ceq "func1" 7; Ceq "form" 3]
    [SVd; SVs1] [] [] (SmSt I8 false false false);
  (* coralnpu_memory.bin_fmt:56 coralnpu_memory.isa:307 *)
  E "vst_h_x" GMemory FV2 [Ceq "func2" 8; Ceq "vs2" 0; Ceq "sz" 1; Ceq "m" 0; Ceq "func1" 7; Ceq "form" 3]
    [SVd; SVs1] [] [] (SmSt I16 false false false);
  (* coralnpu_memory.bin_fmt:57 coralnpu_memory.isa:310 *)
  E "vst_w_x" GMemory FV2 [Ceq "func2" 8; Ceq "vs2" 0; Ceq "sz" 2; Ceq "m" 0; Ceq "func1" 7; Ceq "form" 3]
    [SVd; SVs1] [] [] (SmSt I32 false false false);
  (* coralnpu_memory.bin_fmt:58 coralnpu_memory.isa:322 *)
  E "vst_b_p_x" GMemory FV2 [Ceq "func2" 12; Ceq "vs2" 0; Ceq "sz" 0; Ceq "m" 0; Ceq "func1" 7; Ceq "form" 3]
    [SVd; SVs1] [DVs1] [] (SmSt I8 false false false);
  (* coralnpu_memory.bin_fmt:59 coralnpu_memory.isa:325 *)
  E "vst_h_p_x" GMemory FV2 [Ceq "func2" 12; Ceq "vs2" 0; Ceq "sz" 1; Ceq "m" 0; Ceq "func1" 7; Ceq "form" 3]
    [SVd; SVs1] [DVs1] [] (SmSt I16 false false false);
  (* coralnpu_memory.bin_fmt:60 coralnpu_memory.isa:328 *)
  E "vst_w_p_x" GMemory FV2 [Ceq "func2" 12; Ceq "vs2" 0; Ceq "sz" 2; Ceq "m" 0; Ceq "func1" 7; Ceq "form" 3]
    [SVd; SVs1] [DVs1] [] (SmSt I32 false false false);
  (* coralnpu_memory.bin_fmt:61 coralnpu_memory.isa:313 *)
  E "vst_b_x_m" GMemory FV2 [Ceq "func2" 8; Ceq "vs2" 0; Ceq "sz" 0; Ceq "m" 1; Ceq "func1" 7; Ceq "form" 3]
    [SVd; SVs1] [] [] (SmSt I8 false false true);
  (* coralnpu_memory.bin_fmt:62 coralnpu_memory.isa:316 *)
  E "vst_h_x_m" GMemory FV2 [Ceq "func2" 8; Ceq "vs2" 0; Ceq "sz" 1; Ceq "m" 1; Ceq "func1" 7; Ceq "form" 3]
    [SVd; SVs1] [] [] (SmSt I16 false false true);
  (* coralnpu_memory.bin_fmt:63 coralnpu_memory.isa:319 *)
  E "vst_w_x_m" GMemory FV2 [Ceq "func2" 8; Ceq "vs2" 0; Ceq "sz" 2; Ceq "m" 1; Ceq "func1" 7; Ceq "form" 3]
    [SVd; SVs1] [] [] (SmSt I32 false false true);
  (* coralnpu_memory.bin_fmt:64 coralnpu_memory.isa:331 *)
  E "vst_b_p_x_m" GMemory FV2 [Ceq "func2" 12; Ceq "vs2" 0; Ceq "sz" 0; Ceq "m" 1; Ceq "func1" 7; Ceq "form" 3]
    [SVd; SVs1] [DVs1] [] (SmSt I8 false false true);
  (* coralnpu_memory.bin_fmt:65 coralnpu_memory.isa:334 *)
  E "vst_h_p_x_m" GMemory FV2 [Ceq "func2" 12; Ceq "vs2" 0; Ceq "sz" 1; Ceq "m" 1; Ceq "func1" 7; Ceq "form" 3]
    [SVd; SVs1] [DVs1] [] (SmSt I16 false false true);
  (* coralnpu_memory.bin_fmt:66 coralnpu_memory.isa:337 *)
  E "vst_w_p_x_m" GMemory FV2 [Ceq "func2" 12; Ceq "vs2" 0; Ceq "sz" 2; Ceq "m" 1; Ceq "func1" 7; Ceq "form" 3]
    [SVd; SVs1] [DVs1] [] (SmSt I32 false false true);
  (* coralnpu_memory.bin_fmt:67 coralnpu_memory.isa:340 *)
  E "vst_b_p_xx" GMemory FV2 [Ceq "func2" 12; Cne "vs2" 0; Ceq "sz" 0; Ceq "m" 0; Ceq "func1" 7; Ceq "form" 3]
    [SVd; SVs1; SVs2] [DVs1] [] (SmSt I8 false false false);
  (* coralnpu_memory.bin_fmt:68 coralnpu_memory.isa:343 *)
  E "vst_h_p_xx" GMemory FV2 [Ceq "func2" 12; Cne "vs2" 0; Ceq "sz" 1; Ceq "m" 0; Ceq "func1" 7; Ceq "form" 3]
    [SVd; SVs1; SVs2] [DVs1] [] (SmSt I16 false false false);
  (* coralnpu_memory.bin_fmt:69 coralnpu_memory.isa:346 *)
  E "vst_w_p_xx" GMemory FV2 [Ceq "func2" 12; Cne "vs2" 0; Ceq "sz" 2; Ceq "m" 0; Ceq "func1" 7; Ceq "form" 3]
    [SVd; SVs1; SVs2] [DVs1] [] (SmSt I32 false false false);
  (* coralnpu_memory.bin_fmt:70 coralnpu_memory.isa:349 *)
  E "vst_b_p_xx_m" GMemory FV2 [Ceq "func2" 12; Cne "vs2" 0; Ceq "sz" 0; Ceq "m" 1; Ceq "func1" 7; Ceq "form" 3]
    [SVd; SVs1; SVs2] [DVs1] [] (SmSt I8 false false true);
  (* coralnpu_memory.bin_fmt:71 coralnpu_memory.isa:352 *)
  E "vst_h_p_xx_m" GMemory FV2 [Ceq "func2" 12; Cne "vs2" 0; Ceq "sz" 1; Ceq "m" 1; Ceq "func1" 7; Ceq "form" 3]
    [SVd; SVs1; SVs2] [DVs1] [] (SmSt I16 false false true);
  (* coralnpu_memory.bin_fmt:72 coralnpu_memory.isa:355 *)
  E "vst_w_p_xx_m" GMemory FV2 [Ceq "func2" 12; Cne "vs2" 0; Ceq "sz" 2; Ceq "m" 1; Ceq "func1" 7; Ceq "form" 3]
    [SVd; SVs1; SVs2] [DVs1] [] (SmSt I32 false false true);
  (* coralnpu_memory.bin_fmt:73 coralnpu_memory.isa:358 *)
  E "vst_b_l_xx" GMemory FV2 [Ceq "func2" 9; Cne "vs2" 0; Ceq "sz" 0; Ceq "m" 0; Ceq "func1" 7; Ceq "form" 3]
    [SVd; SVs1; SVs2] [] [] (SmSt I8 true false false);
  (* coralnpu_memory.bin_fmt:74 coralnpu_memory.isa:361 *)
  E "vst_h_l_xx" GMemory FV2 [Ceq "func2" 9; Cne "vs2" 0; Ceq "sz" 1; Ceq "m" 0; Ceq "func1" 7; Ceq "form" 3]
    [SVd; SVs1; SVs2] [] [] (SmSt I16 true false false);
  (* coralnpu_memory.bin_fmt:75 coralnpu_memory.isa:364 *)
  E "vst_w_l_xx" GMemory FV2 [Ceq "func2" 9; Cne "vs2" 0; Ceq "sz" 2; Ceq "m" 0; Ceq "func1" 7; Ceq "form" 3]
    [SVd; SVs1; SVs2] [] [] (SmSt I32 true false false);
  (* coralnpu_memory.bin_fmt:76 coralnpu_memory.isa:376 *)
  E "vst_b_lp_xx" GMemory FV2 [Ceq "func2" 13; Cne "vs2" 0; Ceq "sz" 0; Ceq "m" 0; Ceq "func1" 7; Ceq "form" 3]
    [SVd; SVs1; SVs2] [DVs1] [] (SmSt I8 true false false);
  (* coralnpu_memory.bin_fmt:77 coralnpu_memory.isa:379 *)
  E "vst_h_lp_xx" GMemory FV2 [Ceq "func2" 13; Cne "vs2" 0; Ceq "sz" 1; Ceq "m" 0; Ceq "func1" 7; Ceq "form" 3]
    [SVd; SVs1; SVs2] [DVs1] [] (SmSt I16 true false false);
  (* coralnpu_memory.bin_fmt:78 coralnpu_memory.isa:382 *)
  E "vst_w_lp_xx" GMemory FV2 [Ceq "func2" 13; Cne "vs2" 0; Ceq "sz" 2; Ceq "m" 0; Ceq "func1" 7; Ceq "form" 3]
    [SVd; SVs1; SVs2] [DVs1] [] (SmSt I32 true false false);
  (* coralnpu_memory.bin_fmt:79 coralnpu_memory.isa:367 *)
  E "vst_b_l_xx_m" GMemory FV2 [Ceq "func2" 9; Cne "vs2" 0; Ceq "sz" 0; Ceq "m" 1; Ceq "func1" 7; Ceq "form" 3]
    [SVd; SVs1; SVs2] [] [] (SmSt I8 true false true);
  (* coralnpu_memory.bin_fmt:80 coralnpu_memory.isa:370 *)
  E "vst_h_l_xx_m" GMemory FV2 [Ceq "func2" 9; Cne "vs2" 0; Ceq "sz" 1; Ceq "m" 1; Ceq "func1" 7; Ceq "form" 3]
    [SVd; SVs1; SVs2] [] [] (SmSt I16 true false true);
  (* coralnpu_memory.bin_fmt:81 coralnpu_memory.isa:373 *)
  E "vst_w_l_xx_m" GMemory FV2 [Ceq "func2" 9; Cne "vs2" 0; Ceq "sz" 2; Ceq "m" 1; Ceq "func1" 7; Ceq "form" 3]
    [SVd; SVs1; SVs2] [] [] (SmSt I32 true false true);
  (* coralnpu_memory.bin_fmt:82 coralnpu_memory.isa:385 *)
  E "vst_b_lp_xx_m" GMemory FV2 [Ceq "func2" 13; Cne "vs2" 0; Ceq "sz" 0; Ceq "m" 1; Ceq "func1" 7; Ceq "form" 3]
    [SVd; SVs1; SVs2] [DVs1] [] (SmSt I8 true false true);
  (* coralnpu_memory.bin_fmt:83 coralnpu_memory.isa:388 *)
  E "vst_h_lp_xx_m" GMemory FV2 [Ceq "func2" 13; Cne "vs2" 0; Ceq "sz" 1; Ceq "m" 1; Ceq "func1" 7; Ceq "form" 3]
    [SVd; SVs1; SVs2] [DVs1] [] (SmSt I16 true false true);
  (* coralnpu_memory.bin_fmt:84 coralnpu_memory.isa:391 *)
  E "vst_w_lp_xx_m" GMemory FV2 [Ceq "func2" 13; Cne "vs2" 0; Ceq "sz" 2; Ceq "m" 1; Ceq "func1" 7; Ceq "form" 3]
    [SVd; SVs1; SVs2] [DVs1] [] (SmSt I32 true false true);
  (* coralnpu_memory.bin_fmt:85 coralnpu_memory.isa:394 *)
  E "vst_b_s_xx" GMemory FV2 [Ceq "func2" 10; Cne "vs2" 0; Ceq "sz" 0; Ceq "m" 0; Ceq "func1" 7; Ceq "form" 3]
    [SVd; SVs1; SVs2] [] [] (SmSt I8 false true false);
  (* coralnpu_memory.bin_fmt:86 coralnpu_memory.isa:397 *)
  E "vst_h_s_xx" GMemory FV2 [Ceq "func2" 10; Cne "vs2" 0; Ceq "sz" 1; Ceq "m" 0; Ceq "func1" 7; Ceq "form" 3]
    [SVd; SVs1; SVs2] [] [] (SmSt I16 false true false);
  (* coralnpu_memory.bin_fmt:87 coralnpu_memory.isa:400 *)
  E "vst_w_s_xx" GMemory FV2 [Ceq "func2" 10; Cne "vs2" 0; Ceq "sz" 2; Ceq "m" 0; Ceq "func1" 7; Ceq "form" 3]
    [SVd; SVs1; SVs2] [] [] (SmSt I32 false true false);
  (* coralnpu_memory.bin_fmt:88 coralnpu_memory.isa:412 *)
  E "vst_b_sp_xx" GMemory FV2 [Ceq "func2" 14; Cne "vs2" 0; Ceq "sz" 0; Ceq "m" 0; Ceq "func1" 7; Ceq "form" 3]
    [SVd; SVs1; SVs2] [DVs1] [] (SmSt I8 false true false);
  (* coralnpu_memory.bin_fmt:89 coralnpu_memory.isa:415 *)
  E "vst_h_sp_xx" GMemory FV2 [Ceq "func2" 14; Cne "vs2" 0; Ceq "sz" 1; Ceq "m" 0; Ceq "func1" 7; Ceq "form" 3]
    [SVd; SVs1; SVs2] [DVs1] [] (SmSt I16 false true false);
  (* coralnpu_memory.bin_fmt:90 coralnpu_memory.isa:418 *)
  E "vst_w_sp_xx" GMemory FV2 [Ceq "func2" 14; Cne "vs2" 0; Ceq "sz" 2; Ceq "m" 0; Ceq "func1" 7; Ceq "form" 3]
    [SVd; SVs1; SVs2] [DVs1] [] (SmSt I32 false true false);
  (* coralnpu_memory.bin_fmt:91 coralnpu_memory.isa:403 *)
  E "vst_b_s_xx_m" GMemory FV2 [Ceq "func2" 10; Cne "vs2" 0; Ceq "sz" 0; Ceq "m" 1; Ceq "func1" 7; Ceq "form" 3]
    [SVd; SVs1; SVs2] [] [] (SmSt I8 false true true);
  (* coralnpu_memory.bin_fmt:92 coralnpu_memory.isa:406 *)
  E "vst_h_s_xx_m" GMemory FV2 [Ceq "func2" 10; Cne "vs2" 0; Ceq "sz" 1; Ceq "m" 1; Ceq "func1" 7; Ceq "form" 3]
    [SVd; SVs1; SVs2] [] [] (SmSt I16 false true true);
  (* coralnpu_memory.bin_fmt:93 coralnpu_memory.isa:409 *)
  E "vst_w_s_xx_m" GMemory FV2 [Ceq "func2" 10; Cne "vs2" 0; Ceq "sz" 2; Ceq "m" 1; Ceq "func1" 7; Ceq "form" 3]
    [SVd; SVs1; SVs2] [] [] (SmSt I32 false true true);
  (* coralnpu_memory.bin_fmt:94 coralnpu_memory.isa:421 *)
  E "vst_b_sp_xx_m" GMemory FV2 [Ceq "func2" 14; Cne "vs2" 0; Ceq "sz" 0; Ceq "m" 1; Ceq "func1" 7; Ceq "form" 3]
    [SVd; SVs1; SVs2] [DVs1] [] (SmSt I8 false true true);
  (* coralnpu_memory.bin_fmt:95 coralnpu_memory.isa:424 *)
  E "vst_h_sp_xx_m" GMemory FV2 [Ceq "func2" 14; Cne "vs2" 0; Ceq "sz" 1; Ceq "m" 1; Ceq "func1" 7; Ceq "form" 3]
    [SVd; SVs1; SVs2] [DVs1] [] (SmSt I16 false true true);
  (* coralnpu_memory.bin_fmt:96 coralnpu_memory.isa:427 *)
  E "vst_w_sp_xx_m" GMemory FV2 [Ceq "func2" 14; Cne "vs2" 0; Ceq "sz" 2; Ceq "m" 1; Ceq "func1" 7; Ceq "form" 3]
    [SVd; SVs1; SVs2] [DVs1] [] (SmSt I32 false true true);
  (* coralnpu_memory.bin_fmt:97 coralnpu_memory.isa:430 *)
  E "vst_b_tp_xx" GMemory FV2 [Ceq "func2" 15; Cne "vs2" 0; Ceq "sz" 0; Ceq "m" 0; Ceq "func1" 7; Ceq "form" 3]
    [SVd; SVs1; SVs2] [DVs1] [] (SmSt I8 true true false);
  (* coralnpu_memory.bin_fmt:98 coralnpu_memory.isa:433 *)
  E "vst_h_tp_xx" GMemory FV2 [Ceq "func2" 15; Cne "vs2" 0; Ceq "sz" 1; Ceq "m" 0; Ceq "func1" 7; Ceq "form" 3]
    [SVd; SVs1; SVs2] [DVs1] [] (SmSt I16 true true false);
  (* coralnpu_memory.bin_fmt:99 coralnpu_memory.isa:436 *)
  E "vst_w_tp_xx" GMemory FV2 [Ceq "func2" 15; Cne "vs2" 0; Ceq "sz" 2; Ceq "m" 0; Ceq "func1" 7; Ceq "form" 3]
    [SVd; SVs1; SVs2] [DVs1] [] (SmSt I32 true true false);
  (* coralnpu_memory.bin_fmt:100 coralnpu_memory.isa:439 *)
  E "vst_b_tp_xx_m" GMemory FV2 [Ceq "func2" 15; Cne "vs2" 0; Ceq "sz" 0; Ceq "m" 1; Ceq "func1" 7; Ceq "form" 3]
    [SVd; SVs1; SVs2] [DVs1] [] (SmSt I8 true true true);
  (* coralnpu_memory.bin_fmt:101 coralnpu_memory.isa:442 *)
  E "vst_h_tp_xx_m" GMemory FV2 [Ceq "func2" 15; Cne "vs2" 0; Ceq "sz" 1; Ceq "m" 1; Ceq "func1" 7; Ceq "form" 3]
    [SVd; SVs1; SVs2] [DVs1] [] (SmSt I16 true true true);
  (* coralnpu_memory.bin_fmt:102 coralnpu_memory.isa:445 *)
  E "vst_w_tp_xx_m" GMemory FV2 [Ceq "func2" 15; Cne "vs2" 0; Ceq "sz" 2; Ceq "m" 1; Ceq "func1" 7; Ceq "form" 3]
    [SVd; SVs1; SVs2] [DVs1] [] (SmSt I32 true true true);
  (* coralnpu_memory.bin_fmt:103 coralnpu_memory.isa:448 *)
  E "vstq_b_s_xx" GMemory FV2 [Ceq "func2" 26; Cne "vs2" 0; Ceq "sz" 0; Ceq "m" 0; Ceq "func1" 7; Ceq "form" 3]
    [SVd; SVs1; SVs2] [] [] (SmStq I8 false);
  (* coralnpu_memory.bin_fmt:104 coralnpu_memory.isa:451 *)
  E "vstq_h_s_xx" GMemory FV2 [Ceq "func2" 26; Cne "vs2" 0; Ceq "sz" 1; Ceq "m" 0; Ceq "func1" 7; Ceq "form" 3]
    [SVd; SVs1; SVs2] [] [] (SmStq I16 false);
  (* coralnpu_memory.bin_fmt:105 coralnpu_memory.isa:454 *)
  E "vstq_w_s_xx" GMemory FV2 [Ceq "func2" 26; Cne "vs2" 0; Ceq "sz" 2; Ceq "m" 0; Ceq "func1" 7; Ceq "form" 3]
    [SVd; SVs1; SVs2] [] [] (SmStq I32 false);
  (* coralnpu_memory.bin_fmt:106 coralnpu_memory.isa:457 *)
  E "vstq_b_sp_xx" GMemory FV2 [Ceq "func2" 30; Cne "vs2" 0; Ceq "sz" 0; Ceq "m" 0; Ceq "func1" 7; Ceq "form" 3]
    [SVd; SVs1; SVs2] [DVs1] [] (SmStq I8 false);
  (* coralnpu_memory.bin_fmt:107 coralnpu_memory.isa:460 *)
  E "vstq_h_sp_xx" GMemory FV2 [Ceq "func2" 30; Cne "vs2" 0; Ceq "sz" 1; Ceq "m" 0; Ceq "func1" 7; Ceq "form" 3]
    [SVd; SVs1; SVs2] [DVs1] [] (SmStq I16 false);
  (* coralnpu_memory.bin_fmt:108 coralnpu_memory.isa:463 *)
  E "vstq_w_sp_xx" GMemory FV2 [Ceq "func2" 30; Cne "vs2" 0; Ceq "sz" 2; Ceq "m" 0; Ceq "func1" 7; Ceq "form" 3]
    [SVd; SVs1; SVs2] [DVs1] [] (SmStq I32 false);
  (* coralnpu_memory.bin_fmt:109 coralnpu_memory.isa:466 *)
  E "vstq_b_s_xx_m" GMemory FV2 [Ceq "func2" 26; Cne "vs2" 0; Ceq "sz" 0; Ceq "m" 1; Ceq "func1" 7; Ceq "form" 3]
    [SVd; SVs1; SVs2] [] [] (SmStq I8 true);
  (* coralnpu_memory.bin_fmt:110 coralnpu_memory.isa:469 *)
  E "vstq_h_s_xx_m" GMemory FV2 [Ceq "func2" 26; Cne "vs2" 0; Ceq "sz" 1; Ceq "m" 1; Ceq "func1" 7; Ceq "form" 3]
    [SVd; SVs1; SVs2] [] [] (SmStq I16 true);
  (* coralnpu_memory.bin_fmt:111 coralnpu_memory.isa:472 *)
  E "vstq_w_s_xx_m" GMemory FV2 [Ceq "func2" 26; Cne "vs2" 0; Ceq "sz" 2; Ceq "m" 1; Ceq "func1" 7; Ceq "form" 3]
    [SVd; SVs1; SVs2] [] [] (SmStq I32 true);
  (* coralnpu_memory.bin_fmt:112 coralnpu_memory.isa:475 *)
  E "vstq_b_sp_xx_m" GMemory FV2 [Ceq "func2" 30; Cne "vs2" 0; Ceq "sz" 0; Ceq "m" 1; Ceq "func1" 7; Ceq "form" 3]
    [SVd; SVs1; SVs2] [DVs1] [] (SmStq I8 true);
  (* coralnpu_memory.bin_fmt:113 coralnpu_memory.isa:478 *)
  E "vstq_h_sp_xx_m" GMemory FV2 [Ceq "func2" 30; Cne "vs2" 0; Ceq "sz" 1; Ceq "m" 1; Ceq "func1" 7; Ceq "form" 3]
    [SVd; SVs1; SVs2] [DVs1] [] (SmStq I16 true);
  (* coralnpu_memory.bin_fmt:114 coralnpu_memory.isa:481 *)
  E "vstq_w_sp_xx_m" GMemory FV2 [Ceq "func2" 30; Cne "vs2" 0; Ceq "sz" 2; Ceq "m" 1; Ceq "func1" 7; Ceq "form" 3]
    [SVd; SVs1; SVs2] [DVs1] [] (SmStq I32 true);
  (* coralnpu_memory.bin_fmt:117 coralnpu_memory.isa:484 *)
  E "vdup_b_x" GMemory FV2 [Ceq "func2" 16; Ceq "vs1" 0; Ceq "sz" 0; Ceq "m" 0; Ceq "func1" 7; Ceq "form" 3]
    [SVs2] [DVd] [] (SmDup I8 false);
  (* coralnpu_memory.bin_fmt:118 coralnpu_memory.isa:487 *)
  E "vdup_h_x" GMemory FV2 [Ceq "func2" 16; Ceq "vs1" 0; Ceq "sz" 1; Ceq "m" 0; Ceq "func1" 7; Ceq "form" 3]
    [SVs2] [DVd] [] (SmDup I16 false);
  (* coralnpu_memory.bin_fmt:119 coralnpu_memory.isa:490 *)
  E "vdup_w_x" GMemory FV2 [Ceq "func2" 16; Ceq "vs1" 0; Ceq "sz" 2; Ceq "m" 0; Ceq "func1" 7; Ceq "form" 3]
    [SVs2] [DVd] [] (SmDup I32 false);
  (* coralnpu_memory.bin_fmt:120 coralnpu_memory.isa:493 *)
  E "vdup_b_x_m" GMemory FV2 [Ceq "func2" 16; Ceq "vs1" 0; Ceq "sz" 0; Ceq "m" 1; Ceq "func1" 7; Ceq "form" 3]
    [SVs2] [DVd] [] (SmDup I8 true);
  (* coralnpu_memory.bin_fmt:121 coralnpu_memory.isa:496 *)
  E "vdup_h_x_m" GMemory FV2 [Ceq "func2" 16; Ceq "vs1" 0; Ceq "sz" 1; Ceq "m" 1; Ceq "func1" 7; Ceq "form" 3]
    [SVs2] [DVd] [] (SmDup I16 true);
  (* coralnpu_memory.bin_fmt:122 coralnpu_memory.isa:499 *)
  E "vdup_w_x_m" GMemory FV2 [Ceq "func2" 16; Ceq "vs1" 0; Ceq "sz" 2; Ceq "m" 1; Ceq "func1" 7; Ceq "form" 3]
    [SVs2] [DVd] [] (SmDup I32 true);
  (* coralnpu_memory.bin_fmt:125 coralnpu_memory.isa:504 *)
  E "vcget" GMemory FV2 [Ceq "func2" 20; Ceq "vs2" 0; Ceq "vs1" 0; Ceq "vd" 48; Ceq "func1" 7; Ceq "form" 3]
    [] [DVd] [] (SmVcGet);
  (* coralnpu_memory.bin_fmt:128 coralnpu_memory.isa:509 *)
  E "acset" GMemory FV2 [Ceq "func2" 16; Ceq "vs2" 0; Ceq "m" 0; Ceq "vd" 48]
    [SVs1] [DVd] [] (SmAcSet false);
  (* coralnpu_memory.bin_fmt:129 coralnpu_memory.isa:512 *)
  E "actr" GMemory FV2 [Ceq "func2" 17; Ceq "vs2" 0; Ceq "vs1_low4" 0; Ceq "m" 0; Ceq "vd" 48]
    [SVs1] [DVd] [] (SmAcSet true);
  (* coralnpu_memory.bin_fmt:130 coralnpu_memory.isa:515 *)
  E "adwinit" GMemory FV2 [Ceq "func2" 18; Ceq "vs2" 0; Ceq "vs1_low2" 0; Ceq "sz" 0; Ceq "m" 0; Ceq "vd_low2" 0]
    [SVs1] [DVd] [] (SmADwInit)
].

Definition tab_GMul : list entry := [
  (* coralnpu_mul.bin_fmt:5 coralnpu_mul.isa:19 *)
  E "vmul_b_vv" GMul FV2 [Ceq "func2" 0; Ceq "sz" 0; Ceq "m" 0; Ceq "func1" 3; Ceq "form" 0]
    [SVs1; SVs2] [DVd] [] (SmVec (VEl OMul I8) false false);
  (* coralnpu_mul.bin_fmt:6 coralnpu_mul.isa:37 *)
  E "vmul_b_vx" GMul FV2 [Ceq "func2" 0; Ceq "sz" 0; Ceq "m" 0; Ceq "func1" 3; Ceq "form" 2]
    [SVs1; SVs2] [DVd] [] (SmVec (VEl OMul I8) true false);
  (* coralnpu_mul.bin_fmt:7 coralnpu_mul.isa:22 *)
  E "vmul_b_vv_m" GMul FV2 [Ceq "func2" 0; Ceq "sz" 0; Ceq "m" 1; Ceq "func1" 3; Ceq "form" 0]
    [SVs1; SVs2] [DVd] [] (SmVec (VEl OMul I8) false true);
  (* coralnpu_mul.bin_fmt:8 coralnpu_mul.isa:40 *)
  E "vmul_b_vx_m" GMul FV2 [Ceq "func2" 0; Ceq "sz" 0; Ceq "m" 1; Ceq "func1" 3; Ceq "form" 2]
    [SVs1; SVs2] [DVd] [] (SmVec (VEl OMul I8) true true);
  (* coralnpu_mul.bin_fmt:9 coralnpu_mul.isa:25 *)
  E "vmul_h_vv" GMul FV2 [Ceq "func2" 0; Ceq "sz" 1; Ceq "m" 0; Ceq "func1" 3; Ceq "form" 0]
    [SVs1; SVs2] [DVd] [] (SmVec (VEl OMul I16) false false);
  (* coralnpu_mul.bin_fmt:10 coralnpu_mul.isa:43 *)
  E "vmul_h_vx" GMul FV2 [Ceq "func2" 0; Ceq "sz" 1; Ceq "m" 0; Ceq "func1" 3; Ceq "form" 2]
    [SVs1; SVs2] [DVd] [] (SmVec (VEl OMul I16) true false);
  (* coralnpu_mul.bin_fmt:11 coralnpu_mul.isa:28 *)
  E "vmul_h_vv_m" GMul FV2 [Ceq "func2" 0; Ceq "sz" 1; Ceq "m" 1; Ceq "func1" 3; Ceq "form" 0]
    [SVs1; SVs2] [DVd] [] (SmVec (VEl OMul I16) false true);
  (* coralnpu_mul.bin_fmt:12 coralnpu_mul.isa:46 *)
  E "vmul_h_vx_m" GMul FV2 [Ceq "func2" 0; Ceq "sz" 1; Ceq "m" 1; Ceq "func1" 3; Ceq "form" 2]
    [SVs1; SVs2] [DVd] [] (SmVec (VEl OMul I16) true true);
  (* coralnpu_mul.bin_fmt:13 coralnpu_mul.isa:31 *)
  E "vmul_w_vv" GMul FV2 [Ceq "func2" 0; Ceq "sz" 2; Ceq "m" 0; Ceq "func1" 3; Ceq "form" 0]
    [SVs1; SVs2] [DVd] [] (SmVec (VEl OMul I32) false false);
  (* coralnpu_mul.bin_fmt:14 coralnpu_mul.isa:49 *)
  E "vmul_w_vx" GMul FV2 [Ceq "func2" 0; Ceq "sz" 2; Ceq "m" 0; Ceq "func1" 3; Ceq "form" 2]
    [SVs1; SVs2] [DVd] [] (SmVec (VEl OMul I32) true false);
  (* coralnpu_mul.bin_fmt:15 coralnpu_mul.isa:34 *)
  E "vmul_w_vv_m" GMul FV2 [Ceq "func2" 0; Ceq "sz" 2; Ceq "m" 1; Ceq "func1" 3; Ceq "form" 0]
    [SVs1; SVs2] [DVd] [] (SmVec (VEl OMul I32) false true);
  (* coralnpu_mul.bin_fmt:16 coralnpu_mul.isa:52 *)
  E "vmul_w_vx_m" GMul FV2 [Ceq "func2" 0; Ceq "sz" 2; Ceq "m" 1; Ceq "func1" 3; Ceq "form" 2]
    [SVs1; SVs2] [DVd] [] (SmVec (VEl OMul I32) true true);
  (* coralnpu_mul.bin_fmt:19 coralnpu_mul.isa:57 *)
  E "vmuls_b_vv" GMul FV2 [Ceq "func2" 2; Ceq "sz" 0; Ceq "m" 0; Ceq "func1" 3; Ceq "form" 0]
    [SVs1; SVs2] [DVd] [] (SmVec (VEl OMuls I8) false false);
  (* coralnpu_mul.bin_fmt:20 coralnpu_mul.isa:75 *)
  E "vmuls_b_vx" GMul FV2 [Ceq "func2" 2; Ceq "sz" 0; Ceq "m" 0; Ceq "func1" 3; Ceq "form" 2]
    [SVs1; SVs2] [DVd] [] (SmVec (VEl OMuls I8) true false);
  (* coralnpu_mul.bin_fmt:21 coralnpu_mul.isa:60 *)
  E "vmuls_b_vv_m" GMul FV2 [Ceq "func2" 2; Ceq "sz" 0; Ceq "m" 1; Ceq "func1" 3; Ceq "form" 0]
    [SVs1; SVs2] [DVd] [] (SmVec (VEl OMuls I8) false true);
  (* coralnpu_mul.bin_fmt:22 coralnpu_mul.isa:78 *)
  E "vmuls_b_vx_m" GMul FV2 [Ceq "func2" 2; Ceq "sz" 0; Ceq "m" 1; Ceq "func1" 3; Ceq "form" 2]
    [SVs1; SVs2] [DVd] [] (SmVec (VEl OMuls I8) true true);
  (* coralnpu_mul.bin_fmt:23 coralnpu_mul.isa:63 *)
  E "vmuls_h_vv" GMul FV2 [Ceq "func2" 2; Ceq "sz" 1; Ceq "m" 0; Ceq "func1" 3; Ceq "form" 0]
    [SVs1; SVs2] [DVd] [] (SmVec (VEl OMuls I16) false false);
  (* coralnpu_mul.bin_fmt:24 coralnpu_mul.isa:81 *)
  E "vmuls_h_vx" GMul FV2 [Ceq "func2" 2; Ceq "sz" 1; Ceq "m" 0; Ceq "func1" 3; Ceq "form" 2]
    [SVs1; SVs2] [DVd] [] (SmVec (VEl OMuls I16) true false);
  (* coralnpu_mul.bin_fmt:25 coralnpu_mul.isa:66 *)
  E "vmuls_h_vv_m" GMul FV2 [Ceq "func2" 2; Ceq "sz" 1; Ceq "m" 1; Ceq "func1" 3; Ceq "form" 0]
    [SVs1; SVs2] [DVd] [] (SmVec (VEl OMuls I16) false true);
  (* coralnpu_mul.bin_fmt:26 coralnpu_mul.isa:84 *)
  E "vmuls_h_vx_m" GMul FV2 [Ceq "func2" 2; Ceq "sz" 1; Ceq "m" 1; Ceq "func1" 3; Ceq "form" 2]
    [SVs1; SVs2] [DVd] [] (SmVec (VEl OMuls I16) true true);
  (* coralnpu_mul.bin_fmt:27 coralnpu_mul.isa:69 *)
  E "vmuls_w_vv" GMul FV2 [Ceq "func2" 2; Ceq "sz" 2; Ceq "m" 0; Ceq "func1" 3; Ceq "form" 0]
    [SVs1; SVs2] [DVd] [] (SmVec (VEl OMuls I32) false false);
  (* coralnpu_mul.bin_fmt:28 coralnpu_mul.isa:87 *)
  E "vmuls_w_vx" GMul FV2 [Ceq "func2" 2; Ceq "sz" 2; Ceq "m" 0; Ceq "func1" 3; Ceq "form" 2]
    [SVs1; SVs2] [DVd] [] (SmVec (VEl OMuls I32) true false);
  (* coralnpu_mul.bin_fmt:29 coralnpu_mul.isa:72 *)
  E "vmuls_w_vv_m" GMul FV2 [Ceq "func2" 2; Ceq "sz" 2; Ceq "m" 1; Ceq "func1" 3; Ceq "form" 0]
    [SVs1; SVs2] [DVd] [] (SmVec (VEl OMuls I32) false true);
  (* coralnpu_mul.bin_fmt:30 coralnpu_mul.isa:90 *)
  E "vmuls_w_vx_m" GMul FV2 [Ceq "func2" 2; Ceq "sz" 2; Ceq "m" 1; Ceq "func1" 3; Ceq "form" 2]
    [SVs1; SVs2] [DVd] [] (SmVec (VEl OMuls I32) true true);
  (* coralnpu_mul.bin_fmt:33 coralnpu_mul.isa:95 *)
  E "vmulsu_b_vv" GMul FV2 [Ceq "func2" 3; Ceq "sz" 0; Ceq "m" 0; Ceq "func1" 3; Ceq "form" 0]
    [SVs1; SVs2] [DVd] [] (SmVec (VEl OMuls U8) false false);
  (* coralnpu_mul.bin_fmt:34 coralnpu_mul.isa:113 *)
  E "vmulsu_b_vx" GMul FV2 [Ceq "func2" 3; Ceq "sz" 0; Ceq "m" 0; Ceq "func1" 3; Ceq "form" 2]
    [SVs1; SVs2] [DVd] [] (SmVec (VEl OMuls U8) true false);
  (* coralnpu_mul.bin_fmt:35 coralnpu_mul.isa:98 *)
  E "vmulsu_b_vv_m" GMul FV2 [Ceq "func2" 3; Ceq "sz" 0; Ceq "m" 1; Ceq "func1" 3; Ceq "form" 0]
    [SVs1; SVs2] [DVd] [] (SmVec (VEl OMuls U8) false true);
  (* coralnpu_mul.bin_fmt:36 coralnpu_mul.isa:116 *)
  E "vmulsu_b_vx_m" GMul FV2 [Ceq "func2" 3; Ceq "sz" 0; Ceq "m" 1; Ceq "func1" 3; Ceq "form" 2]
    [SVs1; SVs2] [DVd] [] (SmVec (VEl OMuls U8) true true);
  (* coralnpu_mul.bin_fmt:37 coralnpu_mul.isa:101 *)
  E "vmulsu_h_vv" GMul FV2 [Ceq "func2" 3; Ceq "sz" 1; Ceq "m" 0; Ceq "func1" 3; Ceq "form" 0]
    [SVs1; SVs2] [DVd] [] (SmVec (VEl OMuls U16) false false);
  (* coralnpu_mul.bin_fmt:38 coralnpu_mul.isa:119 *)
  E "vmulsu_h_vx" GMul FV2 [Ceq "func2" 3; Ceq "sz" 1; Ceq "m" 0; Ceq "func1" 3; Ceq "form" 2]
    [SVs1; SVs2] [DVd] [] (SmVec (VEl OMuls U16) true false);
  (* coralnpu_mul.bin_fmt:39 coralnpu_mul.isa:104 *)
  E "vmulsu_h_vv_m" GMul FV2 [Ceq "func2" 3; Ceq "sz" 1; Ceq "m" 1; Ceq "func1" 3; Ceq "form" 0]
    [SVs1; SVs2] [DVd] [] (SmVec (VEl OMuls U16) false true);
  (* coralnpu_mul.bin_fmt:40 coralnpu_mul.isa:122 *)
  E "vmulsu_h_vx_m" GMul FV2 [Ceq "func2" 3; Ceq "sz" 1; Ceq "m" 1; Ceq "func1" 3; Ceq "form" 2]
    [SVs1; SVs2] [DVd] [] (SmVec (VEl OMuls U16) true true);
  (* coralnpu_mul.bin_fmt:41 coralnpu_mul.isa:107 *)
  E "vmulsu_w_vv" GMul FV2 [Ceq "func2" 3; Ceq "sz" 2; Ceq "m" 0; Ceq "func1" 3; Ceq "form" 0]
    [SVs1; SVs2] [DVd] [] (SmVec (VEl OMuls U32) false false);
  (* coralnpu_mul.bin_fmt:42 coralnpu_mul.isa:125 *)
  E "vmulsu_w_vx" GMul FV2 [Ceq "func2" 3; Ceq "sz" 2; Ceq "m" 0; Ceq "func1" 3; Ceq "form" 2]
    [SVs1; SVs2] [DVd] [] (SmVec (VEl OMuls U32) true false);
  (* coralnpu_mul.bin_fmt:43 coralnpu_mul.isa:110 *)
  E "vmulsu_w_vv_m" GMul FV2 [Ceq "func2" 3; Ceq "sz" 2; Ceq "m" 1; Ceq "func1" 3; Ceq "form" 0]
    [SVs1; SVs2] [DVd] [] (SmVec (VEl OMuls U32) false true);
  (* coralnpu_mul.bin_fmt:44 coralnpu_mul.isa:128 *)
  E "vmulsu_w_vx_m" GMul FV2 [Ceq "func2" 3; Ceq "sz" 2; Ceq "m" 1; Ceq "func1" 3; Ceq "form" 2]
    [SVs1; SVs2] [DVd] [] (SmVec (VEl OMuls U32) true true);
  (* coralnpu_mul.bin_fmt:47 coralnpu_mul.isa:133 *)
  E "vmulw_h_vv" GMul FV2 [Ceq "func2" 4; Ceq "sz" 1; Ceq "m" 0; Ceq "func1" 3; Ceq "form" 0]
    [SVs1; SVs2] [DVd] [] (SmVec (VWiden WMul I16 I8) false false);
  (* coralnpu_mul.bin_fmt:48 coralnpu_mul.isa:145 *)
  E "vmulw_h_vx" GMul FV2 [Ceq "func2" 4; Ceq "sz" 1; Ceq "m" 0; Ceq "func1" 3; Ceq "form" 2]
    [SVs1; SVs2] [DVd] [] (SmVec (VWiden WMul I16 I8) true false);
  (* coralnpu_mul.bin_fmt:49 coralnpu_mul.isa:136 *)
  E "vmulw_h_vv_m" GMul FV2 [Ceq "func2" 4; Ceq "sz" 1; Ceq "m" 1; Ceq "func1" 3; Ceq "form" 0]
    [SVs1; SVs2] [DVd] [] (SmVec (VWiden WMul I16 I8) false true);
  (* coralnpu_mul.bin_fmt:50 coralnpu_mul.isa:148 *)
  E "vmulw_h_vx_m" GMul FV2 [Ceq "func2" 4; Ceq "sz" 1; Ceq "m" 1; Ceq "func1" 3; Ceq "form" 2]
    [SVs1; SVs2] [DVd] [] (SmVec (VWiden WMul I16 I8) true true);
  (* coralnpu_mul.bin_fmt:51 coralnpu_mul.isa:139 *)
  E "vmulw_w_vv" GMul FV2 [Ceq "func2" 4; Ceq "sz" 2; Ceq "m" 0; Ceq "func1" 3; Ceq "form" 0]
    [SVs1; SVs2] [DVd] [] (SmVec (VWiden WMul I32 I16) false false);
  (* coralnpu_mul.bin_fmt:52 coralnpu_mul.isa:151 *)
  E "vmulw_w_vx" GMul FV2 [Ceq "func2" 4; Ceq "sz" 2; Ceq "m" 0; Ceq "func1" 3; Ceq "form" 2]
    [SVs1; SVs2] [DVd] [] (SmVec (VWiden WMul I32 I16) true false);
  (* coralnpu_mul.bin_fmt:53 coralnpu_mul.isa:142 *)
  E "vmulw_w_vv_m" GMul FV2 [Ceq "func2" 4; Ceq "sz" 2; Ceq "m" 1; Ceq "func1" 3; Ceq "form" 0]
    [SVs1; SVs2] [DVd] [] (SmVec (VWiden WMul I32 I16) false true);
  (* coralnpu_mul.bin_fmt:54 coralnpu_mul.isa:154 *)
  E "vmulw_w_vx_m" GMul FV2 [Ceq "func2" 4; Ceq "sz" 2; Ceq "m" 1; Ceq "func1" 3; Ceq "form" 2]
    [SVs1; SVs2] [DVd] [] (SmVec (VWiden WMul I32 I16) true true);
  (* coralnpu_mul.bin_fmt:57 coralnpu_mul.isa:159 *)
  E "vmulw_h_u_vv" GMul FV2 [Ceq "func2" 5; Ceq "sz" 1; Ceq "m" 0; Ceq "func1" 3; Ceq "form" 0]
    [SVs1; SVs2] [DVd] [] (SmVec (VWiden WMul U16 U8) false false);
  (* coralnpu_mul.bin_fmt:58 coralnpu_mul.isa:171 *)
  E "vmulw_h_u_vx" GMul FV2 [Ceq "func2" 5; Ceq "sz" 1; Ceq "m" 0; Ceq "func1" 3; Ceq "form" 2]
    [SVs1; SVs2] [DVd] [] (SmVec (VWiden WMul U16 U8) true false);
  (* coralnpu_mul.bin_fmt:59 coralnpu_mul.isa:162 *)
  E "vmulw_h_u_vv_m" GMul FV2 [Ceq "func2" 5; Ceq "sz" 1; Ceq "m" 1; Ceq "func1" 3; Ceq "form" 0]
    [SVs1; SVs2] [DVd] [] (SmVec (VWiden WMul U16 U8) false true);
  (* coralnpu_mul.bin_fmt:60 coralnpu_mul.isa:174 *)
  E "vmulw_h_u_vx_m" GMul FV2 [Ceq "func2" 5; Ceq "sz" 1; Ceq "m" 1; Ceq "func1" 3; Ceq "form" 2]
    [SVs1; SVs2] [DVd] [] (SmVec (VWiden WMul U16 U8) true true);
  (* coralnpu_mul.bin_fmt:61 coralnpu_mul.isa:165 *)
  E "vmulw_w_u_vv" GMul FV2 [Ceq "func2" 5; Ceq "sz" 2; Ceq "m" 0; Ceq "func1" 3; Ceq "form" 0]
    [SVs1; SVs2] [DVd] [] (SmVec (VWiden WMul U32 U16) false false);
  (* coralnpu_mul.bin_fmt:62 coralnpu_mul.isa:177 *)
  E "vmulw_w_u_vx" GMul FV2 [Ceq "func2" 5; Ceq "sz" 2; Ceq "m" 0; Ceq "func1" 3; Ceq "form" 2]
    [SVs1; SVs2] [DVd] [] (SmVec (VWiden WMul U32 U16) true false);
  (* coralnpu_mul.bin_fmt:63 coralnpu_mul.isa:168 *)
  E "vmulw_w_u_vv_m" GMul FV2 [Ceq "func2" 5; Ceq "sz" 2; Ceq "m" 1; Ceq "func1" 3; Ceq "form" 0]
    [SVs1; SVs2] [DVd] [] (SmVec (VWiden WMul U32 U16) false true);
  (* coralnpu_mul.bin_fmt:64 coralnpu_mul.isa:180 *)
  E "vmulw_w_u_vx_m" GMul FV2 [Ceq "func2" 5; Ceq "sz" 2; Ceq "m" 1; Ceq "func1" 3; Ceq "form" 2]
    [SVs1; SVs2] [DVd] [] (SmVec (VWiden WMul U32 U16) true true);
  (* coralnpu_mul.bin_fmt:67 coralnpu_mul.isa:185 *)
  E "vmulh_b_vv" GMul FV2 [Ceq "func2" 8; Ceq "sz" 0; Ceq "m" 0; Ceq "func1" 3; Ceq "form" 0]
    [SVs1; SVs2] [DVd] [] (SmVec (VEl (OMulh false) I8) false false);
  (* coralnpu_mul.bin_fmt:68 coralnpu_mul.isa:203 *)
  E "vmulh_b_vx" GMul FV2 [Ceq "func2" 8; Ceq "sz" 0; Ceq "m" 0; Ceq "func1" 3; Ceq "form" 2]
    [SVs1; SVs2] [DVd] [] (SmVec (VEl (OMulh false) I8) true false);
  (* coralnpu_mul.bin_fmt:69 coralnpu_mul.isa:188 *)
  E "vmulh_b_vv_m" GMul FV2 [Ceq "func2" 8; Ceq "sz" 0; Ceq "m" 1; Ceq "func1" 3; Ceq "form" 0]
    [SVs1; SVs2] [DVd] [] (SmVec (VEl (OMulh false) I8) false true);
  (* coralnpu_mul.bin_fmt:70 coralnpu_mul.isa:206 *)
  E "vmulh_b_vx_m" GMul FV2 [Ceq "func2" 8; Ceq "sz" 0; Ceq "m" 1; Ceq "func1" 3; Ceq "form" 2]
    [SVs1; SVs2] [DVd] [] (SmVec (VEl (OMulh false) I8) true true);
  (* coralnpu_mul.bin_fmt:71 coralnpu_mul.isa:191 *)
  E "vmulh_h_vv" GMul FV2 [Ceq "func2" 8; Ceq "sz" 1; Ceq "m" 0; Ceq "func1" 3; Ceq "form" 0]
    [SVs1; SVs2] [DVd] [] (SmVec (VEl (OMulh false) I16) false false);
  (* coralnpu_mul.bin_fmt:72 coralnpu_mul.isa:209 *)
  E "vmulh_h_vx" GMul FV2 [Ceq "func2" 8; Ceq "sz" 1; Ceq "m" 0; Ceq "func1" 3; Ceq "form" 2]
    [SVs1; SVs2] [DVd] [] (SmVec (VEl (OMulh false) I16) true false);
  (* coralnpu_mul.bin_fmt:73 coralnpu_mul.isa:194 *)
  E "vmulh_h_vv_m" GMul FV2 [Ceq "func2" 8; Ceq "sz" 1; Ceq "m" 1; Ceq "func1" 3; Ceq "form" 0]
    [SVs1; SVs2] [DVd] [] (SmVec (VEl (OMulh false) I16) false true);
  (* coralnpu_mul.bin_fmt:74 coralnpu_mul.isa:212 *)
  E "vmulh_h_vx_m" GMul FV2 [Ceq "func2" 8; Ceq "sz" 1; Ceq "m" 1; Ceq "func1" 3; Ceq "form" 2]
    [SVs1; SVs2] [DVd] [] (SmVec (VEl (OMulh false) I16) true true);
  (* coralnpu_mul.bin_fmt:75 coralnpu_mul.isa:197 *)
  E "vmulh_w_vv" GMul FV2 [Ceq "func2" 8; Ceq "sz" 2; Ceq "m" 0; Ceq "func1" 3; Ceq "form" 0]
    [SVs1; SVs2] [DVd] [] (SmVec (VEl (OMulh false) I32) false false);
  (* coralnpu_mul.bin_fmt:76 coralnpu_mul.isa:215 *)
  E "vmulh_w_vx" GMul FV2 [Ceq "func2" 8; Ceq "sz" 2; Ceq "m" 0; Ceq "func1" 3; Ceq "form" 2]
    [SVs1; SVs2] [DVd] [] (SmVec (VEl (OMulh false) I32) true false);
  (* coralnpu_mul.bin_fmt:77 coralnpu_mul.isa:200 *)
  E "vmulh_w_vv_m" GMul FV2 [Ceq "func2" 8; Ceq "sz" 2; Ceq "m" 1; Ceq "func1" 3; Ceq "form" 0]
    [SVs1; SVs2] [DVd] [] (SmVec (VEl (OMulh false) I32) false true);
  (* coralnpu_mul.bin_fmt:78 coralnpu_mul.isa:218 *)
  E "vmulh_w_vx_m" GMul FV2 [Ceq "func2" 8; Ceq "sz" 2; Ceq "m" 1; Ceq "func1" 3; Ceq "form" 2]
    [SVs1; SVs2] [DVd] [] (SmVec (VEl (OMulh false) I32) true true);
  (* coralnpu_mul.bin_fmt:81 coralnpu_mul.isa:223 *)
  E "vmulh_b_r_vv" GMul FV2 [Ceq "func2" 10; Ceq "sz" 0; Ceq "m" 0; Ceq "func1" 3; Ceq "form" 0]
    [SVs1; SVs2] [DVd] [] (SmVec (VEl (OMulh true) I8) false false);
  (* coralnpu_mul.bin_fmt:82 coralnpu_mul.isa:241 *)
  E "vmulh_b_r_vx" GMul FV2 [Ceq "func2" 10; Ceq "sz" 0; Ceq "m" 0; Ceq "func1" 3; Ceq "form" 2]
    [SVs1; SVs2] [DVd] [] (SmVec (VEl (OMulh true) I8) true false);
  (* coralnpu_mul.bin_fmt:83 coralnpu_mul.isa:226 *)
  E "vmulh_b_r_vv_m" GMul FV2 [Ceq "func2" 10; Ceq "sz" 0; Ceq "m" 1; Ceq "func1" 3; Ceq "form" 0]
    [SVs1; SVs2] [DVd] [] (SmVec (VEl (OMulh true) I8) false true);
  (* coralnpu_mul.bin_fmt:84 coralnpu_mul.isa:244 *)
  E "vmulh_b_r_vx_m" GMul FV2 [Ceq "func2" 10; Ceq "sz" 0; Ceq "m" 1; Ceq "func1" 3; Ceq "form" 2]
    [SVs1; SVs2] [DVd] [] (SmVec (VEl (OMulh true) I8) true true);
  (* coralnpu_mul.bin_fmt:85 coralnpu_mul.isa:229 *)
  E "vmulh_h_r_vv" GMul FV2 [Ceq "func2" 10; Ceq "sz" 1; Ceq "m" 0; Ceq "func1" 3; Ceq "form" 0]
    [SVs1; SVs2] [DVd] [] (SmVec (VEl (OMulh true) I16) false false);
  (* coralnpu_mul.bin_fmt:86 coralnpu_mul.isa:247 *)
  E "vmulh_h_r_vx" GMul FV2 [Ceq "func2" 10; Ceq "sz" 1; Ceq "m" 0; Ceq "func1" 3; Ceq "form" 2]
    [SVs1; SVs2] [DVd] [] (SmVec (VEl (OMulh true) I16) true false);
  (* coralnpu_mul.bin_fmt:87 coralnpu_mul.isa:232 *)
  E "vmulh_h_r_vv_m" GMul FV2 [Ceq "func2" 10; Ceq "sz" 1; Ceq "m" 1; Ceq "func1" 3; Ceq "form" 0]
    [SVs1; SVs2] [DVd] [] (SmVec (VEl (OMulh true) I16) false true);
  (* coralnpu_mul.bin_fmt:88 coralnpu_mul.isa:250 *)
  E "vmulh_h_r_vx_m" GMul FV2 [Ceq "func2" 10; Ceq "sz" 1; Ceq "m" 1; Ceq "func1" 3; Ceq "form" 2]
    [SVs1; SVs2] [DVd] [] (SmVec (VEl (OMulh true) I16) true true);
  (* coralnpu_mul.bin_fmt:89 coralnpu_mul.isa:235 *)
  E "vmulh_w_r_vv" GMul FV2 [Ceq "func2" 10; Ceq "sz" 2; Ceq "m" 0; Ceq "func1" 3; Ceq "form" 0]
    [SVs1; SVs2] [DVd] [] (SmVec (VEl (OMulh true) I32) false false);
  (* coralnpu_mul.bin_fmt:90 coralnpu_mul.isa:253 *)
  E "vmulh_w_r_vx" GMul FV2 [Ceq "func2" 10; Ceq "sz" 2; Ceq "m" 0; Ceq "func1" 3; Ceq "form" 2]
    [SVs1; SVs2] [DVd] [] (SmVec (VEl (OMulh true) I32) true false);
  (* coralnpu_mul.bin_fmt:91 coralnpu_mul.isa:238 *)
  E "vmulh_w_r_vv_m" GMul FV2 [Ceq "func2" 10; Ceq "sz" 2; Ceq "m" 1; Ceq "func1" 3; Ceq "form" 0]
    [SVs1; SVs2] [DVd] [] (SmVec (VEl (OMulh true) I32) false true);
  (* coralnpu_mul.bin_fmt:92 coralnpu_mul.isa:256 *)
  E "vmulh_w_r_vx_m" GMul FV2 [Ceq "func2" 10; Ceq "sz" 2; Ceq "m" 1; Ceq "func1" 3; Ceq "form" 2]
    [SVs1; SVs2] [DVd] [] (SmVec (VEl (OMulh true) I32) true true);
  (* coralnpu_mul.bin_fmt:95 coralnpu_mul.isa:261 *)
  E "vmulh_b_u_vv" GMul FV2 [Ceq "func2" 9; Ceq "sz" 0; Ceq "m" 0; Ceq "func1" 3; Ceq "form" 0]
    [SVs1; SVs2] [DVd] [] (SmVec (VEl (OMulh false) U8) false false);
  (* coralnpu_mul.bin_fmt:96 coralnpu_mul.isa:279 *)
  E "vmulh_b_u_vx" GMul FV2 [Ceq "func2" 9; Ceq "sz" 0; Ceq "m" 0; Ceq "func1" 3; Ceq "form" 2]
    [SVs1; SVs2] [DVd] [] (SmVec (VEl (OMulh false) U8) true false);
  (* coralnpu_mul.bin_fmt:97 coralnpu_mul.isa:264 *)
  E "vmulh_b_u_vv_m" GMul FV2 [Ceq "func2" 9; Ceq "sz" 0; Ceq "m" 1; Ceq "func1" 3; Ceq "form" 0]
    [SVs1; SVs2] [DVd] [] (SmVec (VEl (OMulh false) U8) false true);
  (* coralnpu_mul.bin_fmt:98 coralnpu_mul.isa:282 *)
  E "vmulh_b_u_vx_m" GMul FV2 [Ceq "func2" 9; Ceq "sz" 0; Ceq "m" 1; Ceq "func1" 3; Ceq "form" 2]
    [SVs1; SVs2] [DVd] [] (SmVec (VEl (OMulh false) U8) true true);
  (* coralnpu_mul.bin_fmt:99 coralnpu_mul.isa:267 *)
  E "vmulh_h_u_vv" GMul FV2 [Ceq "func2" 9; Ceq "sz" 1; Ceq "m" 0; Ceq "func1" 3; Ceq "form" 0]
    [SVs1; SVs2] [DVd] [] (SmVec (VEl (OMulh false) U16) false false);
  (* coralnpu_mul.bin_fmt:100 coralnpu_mul.isa:285 *)
  E "vmulh_h_u_vx" GMul FV2 [Ceq "func2" 9; Ceq "sz" 1; Ceq "m" 0; Ceq "func1" 3; Ceq "form" 2]
    [SVs1; SVs2] [DVd] [] (SmVec (VEl (OMulh false) U16) true false);
  (* coralnpu_mul.bin_fmt:101 coralnpu_mul.isa:270 *)
  E "vmulh_h_u_vv_m" GMul FV2 [Ceq "func2" 9; Ceq "sz" 1; Ceq "m" 1; Ceq "func1" 3; Ceq "form" 0]
    [SVs1; SVs2] [DVd] [] (SmVec (VEl (OMulh false) U16) false true);
  (* coralnpu_mul.bin_fmt:102 coralnpu_mul.isa:288 *)
  E "vmulh_h_u_vx_m" GMul FV2 [Ceq "func2" 9; Ceq "sz" 1; Ceq "m" 1; Ceq "func1" 3; Ceq "form" 2]
    [SVs1; SVs2] [DVd] [] (SmVec (VEl (OMulh false) U16) true true);
  (* coralnpu_mul.bin_fmt:103 coralnpu_mul.isa:273 *)
  E "vmulh_w_u_vv" GMul FV2 [Ceq "func2" 9; Ceq "sz" 2; Ceq "m" 0; Ceq "func1" 3; Ceq "form" 0]
    [SVs1; SVs2] [DVd] [] (SmVec (VEl (OMulh false) U32) false false);
  (* coralnpu_mul.bin_fmt:104 coralnpu_mul.isa:291 *)
  E "vmulh_w_u_vx" GMul FV2 [Ceq "func2" 9; Ceq "sz" 2; Ceq "m" 0; Ceq "func1" 3; Ceq "form" 2]
    [SVs1; SVs2] [DVd] [] (SmVec (VEl (OMulh false) U32) true false);
  (* coralnpu_mul.bin_fmt:105 coralnpu_mul.isa:276 *)
  E "vmulh_w_u_vv_m" GMul FV2 [Ceq "func2" 9; Ceq "sz" 2; Ceq "m" 1; Ceq "func1" 3; Ceq "form" 0]
    [SVs1; SVs2] [DVd] [] (SmVec (VEl (OMulh false) U32) false true);
  (* coralnpu_mul.bin_fmt:106 coralnpu_mul.isa:294 *)
  E "vmulh_w_u_vx_m" GMul FV2 [Ceq "func2" 9; Ceq "sz" 2; Ceq "m" 1; Ceq "func1" 3; Ceq "form" 2]
    [SVs1; SVs2] [DVd] [] (SmVec (VEl (OMulh false) U32) true true);
  (* coralnpu_mul.bin_fmt:109 coralnpu_mul.isa:299 *)
  E "vmulh_b_ur_vv" GMul FV2 [Ceq "func2" 11; Ceq "sz" 0; Ceq "m" 0; Ceq "func1" 3; Ceq "form" 0]
    [SVs1; SVs2] [DVd] [] (SmVec (VEl (OMulh true) U8) false false);
  (* coralnpu_mul.bin_fmt:110 coralnpu_mul.isa:317 *)
  E "vmulh_b_ur_vx" GMul FV2 [Ceq "func2" 11; Ceq "sz" 0; Ceq "m" 0; Ceq "func1" 3; Ceq "form" 2]
    [SVs1; SVs2] [DVd] [] (SmVec (VEl (OMulh true) U8) true false);
  (* coralnpu_mul.bin_fmt:111 coralnpu_mul.isa:302 *)
  E "vmulh_b_ur_vv_m" GMul FV2 [Ceq "func2" 11; Ceq "sz" 0; Ceq "m" 1; Ceq "func1" 3; Ceq "form" 0]
    [SVs1; SVs2] [DVd] [] (SmVec (VEl (OMulh true) U8) false true);
  (* coralnpu_mul.bin_fmt:112 coralnpu_mul.isa:320 *)
  E "vmulh_b_ur_vx_m" GMul FV2 [Ceq "func2" 11; Ceq "sz" 0; Ceq "m" 1; Ceq "func1" 3; Ceq "form" 2]
    [SVs1; SVs2] [DVd] [] (SmVec (VEl (OMulh true) U8) true true);
  (* coralnpu_mul.bin_fmt:113 coralnpu_mul.isa:305 *)
  E "vmulh_h_ur_vv" GMul FV2 [Ceq "func2" 11; Ceq "sz" 1; Ceq "m" 0; Ceq "func1" 3; Ceq "form" 0]
    [SVs1; SVs2] [DVd] [] (SmVec (VEl (OMulh true) U16) false false);
  (* coralnpu_mul.bin_fmt:114 coralnpu_mul.isa:323 *)
  E "vmulh_h_ur_vx" GMul FV2 [Ceq "func2" 11; Ceq "sz" 1; Ceq "m" 0; Ceq "func1" 3; Ceq "form" 2]
    [SVs1; SVs2] [DVd] [] (SmVec (VEl (OMulh true) U16) true false);
  (* coralnpu_mul.bin_fmt:115 coralnpu_mul.isa:308 *)
  E "vmulh_h_ur_vv_m" GMul FV2 [Ceq "func2" 11; Ceq "sz" 1; Ceq "m" 1; Ceq "func1" 3; Ceq "form" 0]
    [SVs1; SVs2] [DVd] [] (SmVec (VEl (OMulh true) U16) false true);
  (* coralnpu_mul.bin_fmt:116 coralnpu_mul.isa:326 *)
  E "vmulh_h_ur_vx_m" GMul FV2 [Ceq "func2" 11; Ceq "sz" 1; Ceq "m" 1; Ceq "func1" 3; Ceq "form" 2]
    [SVs1; SVs2] [DVd] [] (SmVec (VEl (OMulh true) U16) true true);
  (* coralnpu_mul.bin_fmt:117 coralnpu_mul.isa:311 *)
  E "vmulh_w_ur_vv" GMul FV2 [Ceq "func2" 11; Ceq "sz" 2; Ceq "m" 0; Ceq "func1" 3; Ceq "form" 0]
    [SVs1; SVs2] [DVd] [] (SmVec (VEl (OMulh true) U32) false false);
  (* coralnpu_mul.bin_fmt:118 coralnpu_mul.isa:329 *)
  E "vmulh_w_ur_vx" GMul FV2 [Ceq "func2" 11; Ceq "sz" 2; Ceq "m" 0; Ceq "func1" 3; Ceq "form" 2]
    [SVs1; SVs2] [DVd] [] (SmVec (VEl (OMulh true) U32) true false);
  (* coralnpu_mul.bin_fmt:119 coralnpu_mul.isa:314 *)
  E "vmulh_w_ur_vv_m" GMul FV2 [Ceq "func2" 11; Ceq "sz" 2; Ceq "m" 1; Ceq "func1" 3; Ceq "form" 0]
    [SVs1; SVs2] [DVd] [] (SmVec (VEl (OMulh true) U32) false true);
  (* coralnpu_mul.bin_fmt:120 coralnpu_mul.isa:332 *)
  E "vmulh_w_ur_vx_m" GMul FV2 [Ceq "func2" 11; Ceq "sz" 2; Ceq "m" 1; Ceq "func1" 3; Ceq "form" 2]
    [SVs1; SVs2] [DVd] [] (SmVec (VEl (OMulh true) U32) true true);
  (* coralnpu_mul.bin_fmt:123 coralnpu_mul.isa:337 *)
  E "vdmulh_b_vv" GMul FV2 [Ceq "func2" 16; Ceq "sz" 0; Ceq "m" 0; Ceq "func1" 3; Ceq "form" 0]
    [SVs1; SVs2] [DVd] [] (SmVec (VEl (ODmulh false false) I8) false false);
  (* coralnpu_mul.bin_fmt:124 coralnpu_mul.isa:355 *)
  E "vdmulh_b_vx" GMul FV2 [Ceq "func2" 16; Ceq "sz" 0; Ceq "m" 0; Ceq "func1" 3; Ceq "form" 2]
    [SVs1; SVs2] [DVd] [] (SmVec (VEl (ODmulh false false) I8) true false);
  (* coralnpu_mul.bin_fmt:125 coralnpu_mul.isa:340 *)
  E "vdmulh_b_vv_m" GMul FV2 [Ceq "func2" 16; Ceq "sz" 0; Ceq "m" 1; Ceq "func1" 3; Ceq "form" 0]
    [SVs1; SVs2] [DVd] [] (SmVec (VEl (ODmulh false false) I8) false true);
  (* coralnpu_mul.bin_fmt:126 coralnpu_mul.isa:358 *)
  E "vdmulh_b_vx_m" GMul FV2 [Ceq "func2" 16; Ceq "sz" 0; Ceq "m" 1; Ceq "func1" 3; Ceq "form" 2]
    [SVs1; SVs2] [DVd] [] (SmVec (VEl (ODmulh false false) I8) true true);
  (* coralnpu_mul.bin_fmt:127 coralnpu_mul.isa:343 *)
  E "vdmulh_h_vv" GMul FV2 [Ceq "func2" 16; Ceq "sz" 1; Ceq "m" 0; Ceq "func1" 3; Ceq "form" 0]
    [SVs1; SVs2] [DVd] [] (SmVec (VEl (ODmulh false false) I16) false false);
  (* coralnpu_mul.bin_fmt:128 coralnpu_mul.isa:361 *)
  E "vdmulh_h_vx" GMul FV2 [Ceq "func2" 16; Ceq "sz" 1; Ceq "m" 0; Ceq "func1" 3; Ceq "form" 2]
    [SVs1; SVs2] [DVd] [] (SmVec (VEl (ODmulh false false) I16) true false);
  (* coralnpu_mul.bin_fmt:129 coralnpu_mul.isa:346 *)
  E "vdmulh_h_vv_m" GMul FV2 [Ceq "func2" 16; Ceq "sz" 1; Ceq "m" 1; Ceq "func1" 3; Ceq "form" 0]
    [SVs1; SVs2] [DVd] [] (SmVec (VEl (ODmulh false false) I16) false true);
  (* coralnpu_mul.bin_fmt:130 coralnpu_mul.isa:364 *)
  E "vdmulh_h_vx_m" GMul FV2 [Ceq "func2" 16; Ceq "sz" 1; Ceq "m" 1; Ceq "func1" 3; Ceq "form" 2]
    [SVs1; SVs2] [DVd] [] (SmVec (VEl (ODmulh false false) I16) true true);
  (* coralnpu_mul.bin_fmt:131 coralnpu_mul.isa:349 *)
  E "vdmulh_w_vv" GMul FV2 [Ceq "func2" 16; Ceq "sz" 2; Ceq "m" 0; Ceq "func1" 3; Ceq "form" 0]
    [SVs1; SVs2] [DVd] [] (SmVec (VEl (ODmulh false false) I32) false false);
  (* coralnpu_mul.bin_fmt:132 coralnpu_mul.isa:367 *)
  E "vdmulh_w_vx" GMul FV2 [Ceq "func2" 16; Ceq "sz" 2; Ceq "m" 0; Ceq "func1" 3; Ceq "form" 2]
    [SVs1; SVs2] [DVd] [] (SmVec (VEl (ODmulh false false) I32) true false);
  (* coralnpu_mul.bin_fmt:133 coralnpu_mul.isa:352 *)
  E "vdmulh_w_vv_m" GMul FV2 [Ceq "func2" 16; Ceq "sz" 2; Ceq "m" 1; Ceq "func1" 3; Ceq "form" 0]
    [SVs1; SVs2] [DVd] [] (SmVec (VEl (ODmulh false false) I32) false true);
  (* coralnpu_mul.bin_fmt:134 coralnpu_mul.isa:370 *)
  E "vdmulh_w_vx_m" GMul FV2 [Ceq "func2" 16; Ceq "sz" 2; Ceq "m" 1; Ceq "func1" 3; Ceq "form" 2]
    [SVs1; SVs2] [DVd] [] (SmVec (VEl (ODmulh false false) I32) true true);
  (* coralnpu_mul.bin_fmt:137 coralnpu_mul.isa:375 *)
  E "vdmulh_b_r_vv" GMul FV2 [Ceq "func2" 18; Ceq "sz" 0; Ceq "m" 0; Ceq "func1" 3; Ceq "form" 0]
    [SVs1; SVs2] [DVd] [] (SmVec (VEl (ODmulh true false) I8) false false);
  (* coralnpu_mul.bin_fmt:138 coralnpu_mul.isa:393 *)
  E "vdmulh_b_r_vx" GMul FV2 [Ceq "func2" 18; Ceq "sz" 0; Ceq "m" 0; Ceq "func1" 3; Ceq "form" 2]
    [SVs1; SVs2] [DVd] [] (SmVec (VEl (ODmulh true false) I8) true false);
  (* coralnpu_mul.bin_fmt:139 coralnpu_mul.isa:378 *)
  E "vdmulh_b_r_vv_m" GMul FV2 [Ceq "func2" 18; Ceq "sz" 0; Ceq "m" 1; Ceq "func1" 3; Ceq "form" 0]
    [SVs1; SVs2] [DVd] [] (SmVec (VEl (ODmulh true false) I8) false true);
  (* coralnpu_mul.bin_fmt:140 coralnpu_mul.isa:396 *)
  E "vdmulh_b_r_vx_m" GMul FV2 [Ceq "func2" 18; Ceq "sz" 0; Ceq "m" 1; Ceq "func1" 3; Ceq "form" 2]
    [SVs1; SVs2] [DVd] [] (SmVec (VEl (ODmulh true false) I8) true true);
  (* coralnpu_mul.bin_fmt:141 coralnpu_mul.isa:381 *)
  E "vdmulh_h_r_vv" GMul FV2 [Ceq "func2" 18; Ceq "sz" 1; Ceq "m" 0; Ceq "func1" 3; Ceq "form" 0]
    [SVs1; SVs2] [DVd] [] (SmVec (VEl (ODmulh true false) I16) false false);
  (* coralnpu_mul.bin_fmt:142 coralnpu_mul.isa:399 *)
  E "vdmulh_h_r_vx" GMul FV2 [Ceq "func2" 18; Ceq "sz" 1; Ceq "m" 0; Ceq "func1" 3; Ceq "form" 2]
    [SVs1; SVs2] [DVd] [] (SmVec (VEl (ODmulh true false) I16) true false);
  (* coralnpu_mul.bin_fmt:143 coralnpu_mul.isa:384 *)
  E "vdmulh_h_r_vv_m" GMul FV2 [Ceq "func2" 18; Ceq "sz" 1; Ceq "m" 1; Ceq "func1" 3; Ceq "form" 0]
    [SVs1; SVs2] [DVd] [] (SmVec (VEl (ODmulh true false) I16) false true);
  (* coralnpu_mul.bin_fmt:144 coralnpu_mul.isa:402 *)
  E "vdmulh_h_r_vx_m" GMul FV2 [Ceq "func2" 18; Ceq "sz" 1; Ceq "m" 1; Ceq "func1" 3; Ceq "form" 2]
    [SVs1; SVs2] [DVd] [] (SmVec (VEl (ODmulh true false) I16) true true);
  (* coralnpu_mul.bin_fmt:145 coralnpu_mul.isa:387 *)
  E "vdmulh_w_r_vv" GMul FV2 [Ceq "func2" 18; Ceq "sz" 2; Ceq "m" 0; Ceq "func1" 3; Ceq "form" 0]
    [SVs1; SVs2] [DVd] [] (SmVec (VEl (ODmulh true false) I32) false false);
  (* coralnpu_mul.bin_fmt:146 coralnpu_mul.isa:405 *)
  E "vdmulh_w_r_vx" GMul FV2 [Ceq "func2" 18; Ceq "sz" 2; Ceq "m" 0; Ceq "func1" 3; Ceq "form" 2]
    [SVs1; SVs2] [DVd] [] (SmVec (VEl (ODmulh true false) I32) true false);
  (* coralnpu_mul.bin_fmt:147 coralnpu_mul.isa:390 *)
  E "vdmulh_w_r_vv_m" GMul FV2 [Ceq "func2" 18; Ceq "sz" 2; Ceq "m" 1; Ceq "func1" 3; Ceq "form" 0]
    [SVs1; SVs2] [DVd] [] (SmVec (VEl (ODmulh true false) I32) false true);
  (* coralnpu_mul.bin_fmt:148 coralnpu_mul.isa:408 *)
  E "vdmulh_w_r_vx_m" GMul FV2 [Ceq "func2" 18; Ceq "sz" 2; Ceq "m" 1; Ceq "func1" 3; Ceq "form" 2]
    [SVs1; SVs2] [DVd] [] (SmVec (VEl (ODmulh true false) I32) true true);
  (* coralnpu_mul.bin_fmt:151 coralnpu_mul.isa:413 *)
  E "vdmulh_b_rn_vv" GMul FV2 [Ceq "func2" 19; Ceq "sz" 0; Ceq "m" 0; Ceq "func1" 3; Ceq "form" 0]
    [SVs1; SVs2] [DVd] [] (SmVec (VEl (ODmulh true true) I8) false false);
  (* coralnpu_mul.bin_fmt:152 coralnpu_mul.isa:431 *)
  E "vdmulh_b_rn_vx" GMul FV2 [Ceq "func2" 19; Ceq "sz" 0; Ceq "m" 0; Ceq "func1" 3; Ceq "form" 2]
    [SVs1; SVs2] [DVd] [] (SmVec (VEl (ODmulh true true) I8) true false);
  (* coralnpu_mul.bin_fmt:153 coralnpu_mul.isa:416 *)
  E "vdmulh_b_rn_vv_m" GMul FV2 [Ceq "func2" 19; Ceq "sz" 0; Ceq "m" 1; Ceq "func1" 3; Ceq "form" 0]
    [SVs1; SVs2] [DVd] [] (SmVec (VEl (ODmulh true true) I8) false true);
  (* coralnpu_mul.bin_fmt:154 coralnpu_mul.isa:434 *)
  E "vdmulh_b_rn_vx_m" GMul FV2 [Ceq "func2" 19; Ceq "sz" 0; Ceq "m" 1; Ceq "func1" 3; Ceq "form" 2]
    [SVs1; SVs2] [DVd] [] (SmVec (VEl (ODmulh true true) I8) true true);
  (* coralnpu_mul.bin_fmt:155 coralnpu_mul.isa:419 *)
  E "vdmulh_h_rn_vv" GMul FV2 [Ceq "func2" 19; Ceq "sz" 1; Ceq "m" 0; Ceq "func1" 3; Ceq "form" 0]
    [SVs1; SVs2] [DVd] [] (SmVec (VEl (ODmulh true true) I16) false false);
  (* coralnpu_mul.bin_fmt:156 coralnpu_mul.isa:437 *)
  E "vdmulh_h_rn_vx" GMul FV2 [Ceq "func2" 19; Ceq "sz" 1; Ceq "m" 0; Ceq "func1" 3; Ceq "form" 2]
    [SVs1; SVs2] [DVd] [] (SmVec (VEl (ODmulh true true) I16) true false);
  (* coralnpu_mul.bin_fmt:157 coralnpu_mul.isa:422 *)
  E "vdmulh_h_rn_vv_m" GMul FV2 [Ceq "func2" 19; Ceq "sz" 1; Ceq "m" 1; Ceq "func1" 3; Ceq "form" 0]
    [SVs1; SVs2] [DVd] [] (SmVec (VEl (ODmulh true true) I16) false true);
  (* coralnpu_mul.bin_fmt:158 coralnpu_mul.isa:440 *)
  E "vdmulh_h_rn_vx_m" GMul FV2 [Ceq "func2" 19; Ceq "sz" 1; Ceq "m" 1; Ceq "func1" 3; Ceq "form" 2]
    [SVs1; SVs2] [DVd] [] (SmVec (VEl (ODmulh true true) I16) true true);
  (* coralnpu_mul.bin_fmt:159 coralnpu_mul.isa:425 *)
  E "vdmulh_w_rn_vv" GMul FV2 [Ceq "func2" 19; Ceq "sz" 2; Ceq "m" 0; Ceq "func1" 3; Ceq "form" 0]
    [SVs1; SVs2] [DVd] [] (SmVec (VEl (ODmulh true true) I32) false false);
  (* coralnpu_mul.bin_fmt:160 coralnpu_mul.isa:443 *)
  E "vdmulh_w_rn_vx" GMul FV2 [Ceq "func2" 19; Ceq "sz" 2; Ceq "m" 0; Ceq "func1" 3; Ceq "form" 2]
    [SVs1; SVs2] [DVd] [] (SmVec (VEl (ODmulh true true) I32) true false);
  (* coralnpu_mul.bin_fmt:161 coralnpu_mul.isa:428 *)
  E "vdmulh_w_rn_vv_m" GMul FV2 [Ceq "func2" 19; Ceq "sz" 2; Ceq "m" 1; Ceq "func1" 3; Ceq "form" 0]
    [SVs1; SVs2] [DVd] [] (SmVec (VEl (ODmulh true true) I32) false true);
  (* coralnpu_mul.bin_fmt:162 coralnpu_mul.isa:446 *)
  E "vdmulh_w_rn_vx_m" GMul FV2 [Ceq "func2" 19; Ceq "sz" 2; Ceq "m" 1; Ceq "func1" 3; Ceq "form" 2]
    [SVs1; SVs2] [DVd] [] (SmVec (VEl (ODmulh true true) I32) true true);
  (* coralnpu_mul.bin_fmt:165 coralnpu_mul.isa:451 *)
  E "vmacc_b_vv" GMul FV2 [Ceq "func2" 20; Ceq "sz" 0; Ceq "m" 0; Ceq "func1" 3; Ceq "form" 0]
    [SVs1; SVs2] [DVd] [] (SmVec (VEl OMacc I8) false false);
  (* coralnpu_mul.bin_fmt:166 coralnpu_mul.isa:469 *)
  E "vmacc_b_vx" GMul FV2 [Ceq "func2" 20; Ceq "sz" 0; Ceq "m" 0; Ceq "func1" 3; Ceq "form" 2]
    [SVs1; SVs2] [DVd] [] (SmVec (VEl OMacc I8) true false);
  (* coralnpu_mul.bin_fmt:167 coralnpu_mul.isa:454 *)
  E "vmacc_b_vv_m" GMul FV2 [Ceq "func2" 20; Ceq "sz" 0; Ceq "m" 1; Ceq "func1" 3; Ceq "form" 0]
    [SVs1; SVs2] [DVd] [] (SmVec (VEl OMacc I8) false true);
  (* coralnpu_mul.bin_fmt:168 coralnpu_mul.isa:472 *)
  E "vmacc_b_vx_m" GMul FV2 [Ceq "func2" 20; Ceq "sz" 0; Ceq "m" 1; Ceq "func1" 3; Ceq "form" 2]
    [SVs1; SVs2] [DVd] [] (SmVec (VEl OMacc I8) true true);
  (* coralnpu_mul.bin_fmt:169 coralnpu_mul.isa:457 *)
  E "vmacc_h_vv" GMul FV2 [Ceq "func2" 20; Ceq "sz" 1; Ceq "m" 0; Ceq "func1" 3; Ceq "form" 0]
    [SVs1; SVs2] [DVd] [] (SmVec (VEl OMacc I16) false false);
  (* coralnpu_mul.bin_fmt:170 coralnpu_mul.isa:475 *)
  E "vmacc_h_vx" GMul FV2 [Ceq "func2" 20; Ceq "sz" 1; Ceq "m" 0; Ceq "func1" 3; Ceq "form" 2]
    [SVs1; SVs2] [DVd] [] (SmVec (VEl OMacc I16) true false);
  (* coralnpu_mul.bin_fmt:171 coralnpu_mul.isa:460 *)
  E "vmacc_h_vv_m" GMul FV2 [Ceq "func2" 20; Ceq "sz" 1; Ceq "m" 1; Ceq "func1" 3; Ceq "form" 0]
    [SVs1; SVs2] [DVd] [] (SmVec (VEl OMacc I16) false true);
  (* coralnpu_mul.bin_fmt:172 coralnpu_mul.isa:478 *)
  E "vmacc_h_vx_m" GMul FV2 [Ceq "func2" 20; Ceq "sz" 1; Ceq "m" 1; Ceq "func1" 3; Ceq "form" 2]
    [SVs1; SVs2] [DVd] [] (SmVec (VEl OMacc I16) true true);
  (* coralnpu_mul.bin_fmt:173 coralnpu_mul.isa:463 *)
  E "vmacc_w_vv" GMul FV2 [Ceq "func2" 20; Ceq "sz" 2; Ceq "m" 0; Ceq "func1" 3; Ceq "form" 0]
    [SVs1; SVs2] [DVd] [] (SmVec (VEl OMacc I32) false false);
  (* coralnpu_mul.bin_fmt:174 coralnpu_mul.isa:481 *)
  E "vmacc_w_vx" GMul FV2 [Ceq "func2" 20; Ceq "sz" 2; Ceq "m" 0; Ceq "func1" 3; Ceq "form" 2]
    [SVs1; SVs2] [DVd] [] (SmVec (VEl OMacc I32) true false);
  (* coralnpu_mul.bin_fmt:175 coralnpu_mul.isa:466 *)
  E "vmacc_w_vv_m" GMul FV2 [Ceq "func2" 20; Ceq "sz" 2; Ceq "m" 1; Ceq "func1" 3; Ceq "form" 0]
    [SVs1; SVs2] [DVd] [] (SmVec (VEl OMacc I32) false true);
  (* coralnpu_mul.bin_fmt:176 coralnpu_mul.isa:484 *)
  E "vmacc_w_vx_m" GMul FV2 [Ceq "func2" 20; Ceq "sz" 2; Ceq "m" 1; Ceq "func1" 3; Ceq "form" 2]
    [SVs1; SVs2] [DVd] [] (SmVec (VEl OMacc I32) true true);
  (* coralnpu_mul.bin_fmt:179 coralnpu_mul.isa:489 *)
  E "vmadd_b_vv" GMul FV2 [Ceq "func2" 21; Ceq "sz" 0; Ceq "m" 0; Ceq "func1" 3; Ceq "form" 0]
    [SVs1; SVs2] [DVd] [] (SmVec (VEl OMadd I8) false false);
  (* coralnpu_mul.bin_fmt:180 coralnpu_mul.isa:507 *)
  E "vmadd_b_vx" GMul FV2 [Ceq "func2" 21; Ceq "sz" 0; Ceq "m" 0; Ceq "func1" 3; Ceq "form" 2]
    [SVs1; SVs2] [DVd] [] (SmVec (VEl OMadd I8) true false);
  (* coralnpu_mul.bin_fmt:181 coralnpu_mul.isa:492 *)
  E "vmadd_b_vv_m" GMul FV2 [Ceq "func2" 21; Ceq "sz" 0; Ceq "m" 1; Ceq "func1" 3; Ceq "form" 0]
    [SVs1; SVs2] [DVd] [] (SmVec (VEl OMadd I8) false true);
  (* coralnpu_mul.bin_fmt:182 coralnpu_mul.isa:510 *)
  E "vmadd_b_vx_m" GMul FV2 [Ceq "func2" 21; Ceq "sz" 0; Ceq "m" 1; Ceq "func1" 3; Ceq "form" 2]
    [SVs1; SVs2] [DVd] [] (SmVec (VEl OMadd I8) true true);
  (* coralnpu_mul.bin_fmt:183 coralnpu_mul.isa:495 *)
  E "vmadd_h_vv" GMul FV2 [Ceq "func2" 21; Ceq "sz" 1; Ceq "m" 0; Ceq "func1" 3; Ceq "form" 0]
    [SVs1; SVs2] [DVd] [] (SmVec (VEl OMadd I16) false false);
  (* coralnpu_mul.bin_fmt:184 coralnpu_mul.isa:513 *)
  E "vmadd_h_vx" GMul FV2 [Ceq "func2" 21; Ceq "sz" 1; Ceq "m" 0; Ceq "func1" 3; Ceq "form" 2]
    [SVs1; SVs2] [DVd] [] (SmVec (VEl OMadd I16) true false);
  (* coralnpu_mul.bin_fmt:185 coralnpu_mul.isa:498 *)
  E "vmadd_h_vv_m" GMul FV2 [Ceq "func2" 21; Ceq "sz" 1; Ceq "m" 1; Ceq "func1" 3; Ceq "form" 0]
    [SVs1; SVs2] [DVd] [] (SmVec (VEl OMadd I16) false true);
  (* coralnpu_mul.bin_fmt:186 coralnpu_mul.isa:516 *)
  E "vmadd_h_vx_m" GMul FV2 [Ceq "func2" 21; Ceq "sz" 1; Ceq "m" 1; Ceq "func1" 3; Ceq "form" 2]
    [SVs1; SVs2] [DVd] [] (SmVec (VEl OMadd I16) true true);
  (* coralnpu_mul.bin_fmt:187 coralnpu_mul.isa:501 *)
  E "vmadd_w_vv" GMul FV2 [Ceq "func2" 21; Ceq "sz" 2; Ceq "m" 0; Ceq "func1" 3; Ceq "form" 0]
    [SVs1; SVs2] [DVd] [] (SmVec (VEl OMadd I32) false false);
  (* coralnpu_mul.bin_fmt:188 coralnpu_mul.isa:519 *)
  E "vmadd_w_vx" GMul FV2 [Ceq "func2" 21; Ceq "sz" 2; Ceq "m" 0; Ceq "func1" 3; Ceq "form" 2]
    [SVs1; SVs2] [DVd] [] (SmVec (VEl OMadd I32) true false);
  (* coralnpu_mul.bin_fmt:189 coralnpu_mul.isa:504 *)
  E "vmadd_w_vv_m" GMul FV2 [Ceq "func2" 21; Ceq "sz" 2; Ceq "m" 1; Ceq "func1" 3; Ceq "form" 0]
    [SVs1; SVs2] [DVd] [] (SmVec (VEl OMadd I32) false true);
  (* coralnpu_mul.bin_fmt:190 coralnpu_mul.isa:522 *)
  E "vmadd_w_vx_m" GMul FV2 [Ceq "func2" 21; Ceq "sz" 2; Ceq "m" 1; Ceq "func1" 3; Ceq "form" 2]
    [SVs1; SVs2] [DVd] [] (SmVec (VEl OMadd I32) true true)
].

Definition tab_GShift : list entry := [
  (* coralnpu_shift.bin_fmt:5 coralnpu_shift.isa:20 *)
  E "vsll_b_vv" GShift FV2 [Ceq "func2" 1; Ceq "sz" 0; Ceq "m" 0; Ceq "func1" 2; Ceq "form" 0]
    [SVs1; SVs2] [DVd] [] (SmVec (VEl OSll U8) false false);
  (* coralnpu_shift.bin_fmt:6 coralnpu_shift.isa:38 *)
  E "vsll_b_vx" GShift FV2 [Ceq "func2" 1; Ceq "sz" 0; Ceq "m" 0; Ceq "func1" 2; Ceq "form" 2]
    [SVs1; SVs2] [DVd] [] (SmVec (VEl OSll U8) true false);
  (* coralnpu_shift.bin_fmt:7 coralnpu_shift.isa:23 *)
  E "vsll_b_vv_m" GShift FV2 [Ceq "func2" 1; Ceq "sz" 0; Ceq "m" 1; Ceq "func1" 2; Ceq "form" 0]
    [SVs1; SVs2] [DVd] [] (SmVec (VEl OSll U8) false true);
  (* coralnpu_shift.bin_fmt:8 coralnpu_shift.isa:41 *)
  E "vsll_b_vx_m" GShift FV2 [Ceq "func2" 1; Ceq "sz" 0; Ceq "m" 1; Ceq "func1" 2; Ceq "form" 2]
    [SVs1; SVs2] [DVd] [] (SmVec (VEl OSll U8) true true);
  (* coralnpu_shift.bin_fmt:9 coralnpu_shift.isa:26 *)
  E "vsll_h_vv" GShift FV2 [Ceq "func2" 1; Ceq "sz" 1; Ceq "m" 0; Ceq "func1" 2; Ceq "form" 0]
    [SVs1; SVs2] [DVd] [] (SmVec (VEl OSll U16) false false);
  (* coralnpu_shift.bin_fmt:10 coralnpu_shift.isa:44 *)
  E "vsll_h_vx" GShift FV2 [Ceq "func2" 1; Ceq "sz" 1; Ceq "m" 0; Ceq "func1" 2; Ceq "form" 2]
    [SVs1; SVs2] [DVd] [] (SmVec (VEl OSll U16) true false);
  (* coralnpu_shift.bin_fmt:11 coralnpu_shift.isa:29 *)
  E "vsll_h_vv_m" GShift FV2 [Ceq "func2" 1; Ceq "sz" 1; Ceq "m" 1; Ceq "func1" 2; Ceq "form" 0]
    [SVs1; SVs2] [DVd] [] (SmVec (VEl OSll U16) false true);
  (* coralnpu_shift.bin_fmt:12 coralnpu_shift.isa:47 *)
  E "vsll_h_vx_m" GShift FV2 [Ceq "func2" 1; Ceq "sz" 1; Ceq "m" 1; Ceq "func1" 2; Ceq "form" 2]
    [SVs1; SVs2] [DVd] [] (SmVec (VEl OSll U16) true true);
  (* coralnpu_shift.bin_fmt:13 coralnpu_shift.isa:32 *)
  E "vsll_w_vv" GShift FV2 [Ceq "func2" 1; Ceq "sz" 2; Ceq "m" 0; Ceq "func1" 2; Ceq "form" 0]
    [SVs1; SVs2] [DVd] [] (SmVec (VEl OSll U32) false false);
  (* coralnpu_shift.bin_fmt:14 coralnpu_shift.isa:50 *)
  E "vsll_w_vx" GShift FV2 [Ceq "func2" 1; Ceq "sz" 2; Ceq "m" 0; Ceq "func1" 2; Ceq "form" 2]
    [SVs1; SVs2] [DVd] [] (SmVec (VEl OSll U32) true false);
  (* coralnpu_shift.bin_fmt:15 coralnpu_shift.isa:35 *)
  E "vsll_w_vv_m" GShift FV2 [Ceq "func2" 1; Ceq "sz" 2; Ceq "m" 1; Ceq "func1" 2; Ceq "form" 0]
    [SVs1; SVs2] [DVd] [] (SmVec (VEl OSll U32) false true);
  (* coralnpu_shift.bin_fmt:16 coralnpu_shift.isa:53 *)
  E "vsll_w_vx_m" GShift FV2 [Ceq "func2" 1; Ceq "sz" 2; Ceq "m" 1; Ceq "func1" 2; Ceq "form" 2]
    [SVs1; SVs2] [DVd] [] (SmVec (VEl OSll U32) true true);
  (* coralnpu_shift.bin_fmt:19 coralnpu_shift.isa:58 *)
  E "vsra_b_vv" GShift FV2 [Ceq "func2" 2; Ceq "sz" 0; Ceq "m" 0; Ceq "func1" 2; Ceq "form" 0]
    [SVs1; SVs2] [DVd] [] (SmVec (VEl OSra I8) false false);
  (* coralnpu_shift.bin_fmt:20 coralnpu_shift.isa:76 *)
  E "vsra_b_vx" GShift FV2 [Ceq "func2" 2; Ceq "sz" 0; Ceq "m" 0; Ceq "func1" 2; Ceq "form" 2]
    [SVs1; SVs2] [DVd] [] (SmVec (VEl OSra I8) true false);
  (* coralnpu_shift.bin_fmt:21 coralnpu_shift.isa:61 *)
  E "vsra_b_vv_m" GShift FV2 [Ceq "func2" 2; Ceq "sz" 0; Ceq "m" 1; Ceq "func1" 2; Ceq "form" 0]
    [SVs1; SVs2] [DVd] [] (SmVec (VEl OSra I8) false true);
  (* coralnpu_shift.bin_fmt:22 coralnpu_shift.isa:79 *)
  E "vsra_b_vx_m" GShift FV2 [Ceq "func2" 2; Ceq "sz" 0; Ceq "m" 1; Ceq "func1" 2; Ceq "form" 2]
    [SVs1; SVs2] [DVd] [] (SmVec (VEl OSra I8) true true);
  (* coralnpu_shift.bin_fmt:23 coralnpu_shift.isa:64 *)
  E "vsra_h_vv" GShift FV2 [Ceq "func2" 2; Ceq "sz" 1; Ceq "m" 0; Ceq "func1" 2; Ceq "form" 0]
    [SVs1; SVs2] [DVd] [] (SmVec (VEl OSra I16) false false);
  (* coralnpu_shift.bin_fmt:24 coralnpu_shift.isa:82 *)
  E "vsra_h_vx" GShift FV2 [Ceq "func2" 2; Ceq "sz" 1; Ceq "m" 0; Ceq "func1" 2; Ceq "form" 2]
    [SVs1; SVs2] [DVd] [] (SmVec (VEl OSra I16) true false);
  (* coralnpu_shift.bin_fmt:25 coralnpu_shift.isa:67 *)
  E "vsra_h_vv_m" GShift FV2 [Ceq "func2" 2; Ceq "sz" 1; Ceq "m" 1; Ceq "func1" 2; Ceq "form" 0]
    [SVs1; SVs2] [DVd] [] (SmVec (VEl OSra I16) false true);
  (* coralnpu_shift.bin_fmt:26 coralnpu_shift.isa:85 *)
  E "vsra_h_vx_m" GShift FV2 [Ceq "func2" 2; Ceq "sz" 1; Ceq "m" 1; Ceq "func1" 2; Ceq "form" 2]
    [SVs1; SVs2] [DVd] [] (SmVec (VEl OSra I16) true true);
  (* coralnpu_shift.bin_fmt:27 coralnpu_shift.isa:70 *)
  E "vsra_w_vv" GShift FV2 [Ceq "func2" 2; Ceq "sz" 2; Ceq "m" 0; Ceq "func1" 2; Ceq "form" 0]
    [SVs1; SVs2] [DVd] [] (SmVec (VEl OSra I32) false false);
  (* coralnpu_shift.bin_fmt:28 coralnpu_shift.isa:88 *)
  E "vsra_w_vx" GShift FV2 [Ceq "func2" 2; Ceq "sz" 2; Ceq "m" 0; Ceq "func1" 2; Ceq "form" 2]
    [SVs1; SVs2] [DVd] [] (SmVec (VEl OSra I32) true false);
  (* coralnpu_shift.bin_fmt:29 coralnpu_shift.isa:73 *)
  E "vsra_w_vv_m" GShift FV2 [Ceq "func2" 2; Ceq "sz" 2; Ceq "m" 1; Ceq "func1" 2; Ceq "form" 0]
    [SVs1; SVs2] [DVd] [] (SmVec (VEl OSra I32) false true);
  (* coralnpu_shift.bin_fmt:30 coralnpu_shift.isa:91 *)
  E "vsra_w_vx_m" GShift FV2 [Ceq "func2" 2; Ceq "sz" 2; Ceq "m" 1; Ceq "func1" 2; Ceq "form" 2]
    [SVs1; SVs2] [DVd] [] (SmVec (VEl OSra I32) true true);
  (* coralnpu_shift.bin_fmt:33 coralnpu_shift.isa:96 *)
  E "vsrl_b_vv" GShift FV2 [Ceq "func2" 3; Ceq "sz" 0; Ceq "m" 0; Ceq "func1" 2; Ceq "form" 0]
    [SVs1; SVs2] [DVd] [] (SmVec (VEl OSrl U8) false false);
  (* coralnpu_shift.bin_fmt:34 coralnpu_shift.isa:114 *)
  E "vsrl_b_vx" GShift FV2 [Ceq "func2" 3; Ceq "sz" 0; Ceq "m" 0; Ceq "func1" 2; Ceq "form" 2]
    [SVs1; SVs2] [DVd] [] (SmVec (VEl OSrl U8) true false);
  (* coralnpu_shift.bin_fmt:35 coralnpu_shift.isa:99 *)
  E "vsrl_b_vv_m" GShift FV2 [Ceq "func2" 3; Ceq "sz" 0; Ceq "m" 1; Ceq "func1" 2; Ceq "form" 0]
    [SVs1; SVs2] [DVd] [] (SmVec (VEl OSrl U8) false true);
  (* coralnpu_shift.bin_fmt:36 coralnpu_shift.isa:117 *)
  E "vsrl_b_vx_m" GShift FV2 [Ceq "func2" 3; Ceq "sz" 0; Ceq "m" 1; Ceq "func1" 2; Ceq "form" 2]
    [SVs1; SVs2] [DVd] [] (SmVec (VEl OSrl U8) true true);
  (* coralnpu_shift.bin_fmt:37 coralnpu_shift.isa:102 *)
  E "vsrl_h_vv" GShift FV2 [Ceq "func2" 3; Ceq "sz" 1; Ceq "m" 0; Ceq "func1" 2; Ceq "form" 0]
    [SVs1; SVs2] [DVd] [] (SmVec (VEl OSrl U16) false false);
  (* coralnpu_shift.bin_fmt:38 coralnpu_shift.isa:120 *)
  E "vsrl_h_vx" GShift FV2 [Ceq "func2" 3; Ceq "sz" 1; Ceq "m" 0; Ceq "func1" 2; Ceq "form" 2]
    [SVs1; SVs2] [DVd] [] (SmVec (VEl OSrl U16) true false);
  (* coralnpu_shift.bin_fmt:39 coralnpu_shift.isa:105 *)
  E "vsrl_h_vv_m" GShift FV2 [Ceq "func2" 3; Ceq "sz" 1; Ceq "m" 1; Ceq "func1" 2; Ceq "form" 0]
    [SVs1; SVs2] [DVd] [] (SmVec (VEl OSrl U16) false true);
  (* coralnpu_shift.bin_fmt:40 coralnpu_shift.isa:123 *)
  E "vsrl_h_vx_m" GShift FV2 [Ceq "func2" 3; Ceq "sz" 1; Ceq "m" 1; Ceq "func1" 2; Ceq "form" 2]
    [SVs1; SVs2] [DVd] [] (SmVec (VEl OSrl U16) true true);
  (* coralnpu_shift.bin_fmt:41 coralnpu_shift.isa:108 *)
  E "vsrl_w_vv" GShift FV2 [Ceq "func2" 3; Ceq "sz" 2; Ceq "m" 0; Ceq "func1" 2; Ceq "form" 0]
    [SVs1; SVs2] [DVd] [] (SmVec (VEl OSrl U32) false false);
  (* coralnpu_shift.bin_fmt:42 coralnpu_shift.isa:126 *)
  E "vsrl_w_vx" GShift FV2 [Ceq "func2" 3; Ceq "sz" 2; Ceq "m" 0; Ceq "func1" 2; Ceq "form" 2]
    [SVs1; SVs2] [DVd] [] (SmVec (VEl OSrl U32) true false);
  (* coralnpu_shift.bin_fmt:43 coralnpu_shift.isa:111 *)
  E "vsrl_w_vv_m" GShift FV2 [Ceq "func2" 3; Ceq "sz" 2; Ceq "m" 1; Ceq "func1" 2; Ceq "form" 0]
    [SVs1; SVs2] [DVd] [] (SmVec (VEl OSrl U32) false true);
  (* coralnpu_shift.bin_fmt:44 coralnpu_shift.isa:129 *)
  E "vsrl_w_vx_m" GShift FV2 [Ceq "func2" 3; Ceq "sz" 2; Ceq "m" 1; Ceq "func1" 2; Ceq "form" 2]
    [SVs1; SVs2] [DVd] [] (SmVec (VEl OSrl U32) true true);
  (* coralnpu_shift.bin_fmt:47 coralnpu_shift.isa:134 *)
  E "vsha_b_vv" GShift FV2 [Ceq "func2" 8; Ceq "sz" 0; Ceq "m" 0; Ceq "func1" 2; Ceq "form" 0]
    [SVs1; SVs2] [DVd] [] (SmVec (VEl (OShift false) I8) false false);
  (* coralnpu_shift.bin_fmt:48 coralnpu_shift.isa:137 *)
  E "vsha_b_vx" GShift FV2 [Ceq "func2" 8; Ceq "sz" 0; Ceq "m" 0; Ceq "func1" 2; Ceq "form" 2]
    [SVs1; SVs2] [DVd] [] (SmVec (VEl (OShift false) I8) true false);
  (* coralnpu_shift.bin_fmt:49 coralnpu_shift.isa:140 *)
  E "vsha_b_vv_m" GShift FV2 [Ceq "func2" 8; Ceq "sz" 0; Ceq "m" 1; Ceq "func1" 2; Ceq "form" 0]
    [SVs1; SVs2] [DVd] [] (SmVec (VEl (OShift false) I8) false true);
  (* coralnpu_shift.bin_fmt:50 coralnpu_shift.isa:143 *)
  E "vsha_b_vx_m" GShift FV2 [Ceq "func2" 8; Ceq "sz" 0; Ceq "m" 1; Ceq "func1" 2; Ceq "form" 2]
    [SVs1; SVs2] [DVd] [] (SmVec (VEl (OShift false) I8) true true);
  (* coralnpu_shift.bin_fmt:51 coralnpu_shift.isa:146 *)
  E "vsha_h_vv" GShift FV2 [Ceq "func2" 8; Ceq "sz" 1; Ceq "m" 0; Ceq "func1" 2; Ceq "form" 0]
    [SVs1; SVs2] [DVd] [] (SmVec (VEl (OShift false) I16) false false);
  (* coralnpu_shift.bin_fmt:52 coralnpu_shift.isa:149 *)
  E "vsha_h_vx" GShift FV2 [Ceq "func2" 8; Ceq "sz" 1; Ceq "m" 0; Ceq "func1" 2; Ceq "form" 2]
    [SVs1; SVs2] [DVd] [] (SmVec (VEl (OShift false) I16) true false);
  (* coralnpu_shift.bin_fmt:53 coralnpu_shift.isa:152 *)
  E "vsha_h_vv_m" GShift FV2 [Ceq "func2" 8; Ceq "sz" 1; Ceq "m" 1; Ceq "func1" 2; Ceq "form" 0]
    [SVs1; SVs2] [DVd] [] (SmVec (VEl (OShift false) I16) false true);
  (* coralnpu_shift.bin_fmt:54 coralnpu_shift.isa:155 *)
  E "vsha_h_vx_m" GShift FV2 [Ceq "func2" 8; Ceq "sz" 1; Ceq "m" 1; Ceq "func1" 2; Ceq "form" 2]
    [SVs1; SVs2] [DVd] [] (SmVec (VEl (OShift false) I16) true true);
  (* coralnpu_shift.bin_fmt:55 coralnpu_shift.isa:158 *)
  E "vsha_w_vv" GShift FV2 [Ceq "func2" 8; Ceq "sz" 2; Ceq "m" 0; Ceq "func1" 2; Ceq "form" 0]
    [SVs1; SVs2] [DVd] [] (SmVec (VEl (OShift false) I32) false false);
  (* coralnpu_shift.bin_fmt:56 coralnpu_shift.isa:161 *)
  E "vsha_w_vx" GShift FV2 [Ceq "func2" 8; Ceq "sz" 2; Ceq "m" 0; Ceq "func1" 2; Ceq "form" 2]
    [SVs1; SVs2] [DVd] [] (SmVec (VEl (OShift false) I32) true false);
  (* coralnpu_shift.bin_fmt:57 coralnpu_shift.isa:164 *)
  E "vsha_w_vv_m" GShift FV2 [Ceq "func2" 8; Ceq "sz" 2; Ceq "m" 1; Ceq "func1" 2; Ceq "form" 0]
    [SVs1; SVs2] [DVd] [] (SmVec (VEl (OShift false) I32) false true);
  (* coralnpu_shift.bin_fmt:58 coralnpu_shift.isa:167 *)
  E "vsha_w_vx_m" GShift FV2 [Ceq "func2" 8; Ceq "sz" 2; Ceq "m" 1; Ceq "func1" 2; Ceq "form" 2]
    [SVs1; SVs2] [DVd] [] (SmVec (VEl (OShift false) I32) true true);
  (* coralnpu_shift.bin_fmt:59 coralnpu_shift.isa:170 *)
  E "vsha_b_r_vv" GShift FV2 [Ceq "func2" 10; Ceq "sz" 0; Ceq "m" 0; Ceq "func1" 2; Ceq "form" 0]
    [SVs1; SVs2] [DVd] [] (SmVec (VEl (OShift true) I8) false false);
  (* coralnpu_shift.bin_fmt:60 coralnpu_shift.isa:173 *)
  E "vsha_b_r_vx" GShift FV2 [Ceq "func2" 10; Ceq "sz" 0; Ceq "m" 0; Ceq "func1" 2; Ceq "form" 2]
    [SVs1; SVs2] [DVd] [] (SmVec (VEl (OShift true) I8) true false);
  (* coralnpu_shift.bin_fmt:61 coralnpu_shift.isa:176 *)
  E "vsha_b_r_vv_m" GShift FV2 [Ceq "func2" 10; Ceq "sz" 0; Ceq "m" 1; Ceq "func1" 2; Ceq "form" 0]
    [SVs1; SVs2] [DVd] [] (SmVec (VEl (OShift true) I8) false true);
  (* coralnpu_shift.bin_fmt:62 coralnpu_shift.isa:179 *)
  E "vsha_b_r_vx_m" GShift FV2 [Ceq "func2" 10; Ceq "sz" 0; Ceq "m" 1; Ceq "func1" 2; Ceq "form" 2]
    [SVs1; SVs2] [DVd] [] (SmVec (VEl (OShift true) I8) true true);
  (* coralnpu_shift.bin_fmt:63 coralnpu_shift.isa:182 *)
  E "vsha_h_r_vv" GShift FV2 [Ceq "func2" 10; Ceq "sz" 1; Ceq "m" 0; Ceq "func1" 2; Ceq "form" 0]
    [SVs1; SVs2] [DVd] [] (SmVec (VEl (OShift true) I16) false false);
  (* coralnpu_shift.bin_fmt:64 coralnpu_shift.isa:185 *)
  E "vsha_h_r_vx" GShift FV2 [Ceq "func2" 10; Ceq "sz" 1; Ceq "m" 0; Ceq "func1" 2; Ceq "form" 2]
    [SVs1; SVs2] [DVd] [] (SmVec (VEl (OShift true) I16) true false);
  (* coralnpu_shift.bin_fmt:65 coralnpu_shift.isa:188 *)
  E "vsha_h_r_vv_m" GShift FV2 [Ceq "func2" 10; Ceq "sz" 1; Ceq "m" 1; Ceq "func1" 2; Ceq "form" 0]
    [SVs1; SVs2] [DVd] [] (SmVec (VEl (OShift true) I16) false true);
  (* coralnpu_shift.bin_fmt:66 coralnpu_shift.isa:191 *)
  E "vsha_h_r_vx_m" GShift FV2 [Ceq "func2" 10; Ceq "sz" 1; Ceq "m" 1; Ceq "func1" 2; Ceq "form" 2]
    [SVs1; SVs2] [DVd] [] (SmVec (VEl (OShift true) I16) true true);
  (* coralnpu_shift.bin_fmt:67 coralnpu_shift.isa:194 *)
  E "vsha_w_r_vv" GShift FV2 [Ceq "func2" 10; Ceq "sz" 2; Ceq "m" 0; Ceq "func1" 2; Ceq "form" 0]
    [SVs1; SVs2] [DVd] [] (SmVec (VEl (OShift true) I32) false false);
  (* coralnpu_shift.bin_fmt:68 coralnpu_shift.isa:197 *)
  E "vsha_w_r_vx" GShift FV2 [Ceq "func2" 10; Ceq "sz" 2; Ceq "m" 0; Ceq "func1" 2; Ceq "form" 2]
    [SVs1; SVs2] [DVd] [] (SmVec (VEl (OShift true) I32) true false);
  (* coralnpu_shift.bin_fmt:69 coralnpu_shift.isa:200 *)
  E "vsha_w_r_vv_m" GShift FV2 [Ceq "func2" 10; Ceq "sz" 2; Ceq "m" 1; Ceq "func1" 2; Ceq "form" 0]
    [SVs1; SVs2] [DVd] [] (SmVec (VEl (OShift true) I32) false true);
  (* coralnpu_shift.bin_fmt:70 coralnpu_shift.isa:203 *)
  E "vsha_w_r_vx_m" GShift FV2 [Ceq "func2" 10; Ceq "sz" 2; Ceq "m" 1; Ceq "func1" 2; Ceq "form" 2]
    [SVs1; SVs2] [DVd] [] (SmVec (VEl (OShift true) I32) true true);
  (* coralnpu_shift.bin_fmt:73 coralnpu_shift.isa:208 *)
  E "vshl_b_vv" GShift FV2 [Ceq "func2" 9; Ceq "sz" 0; Ceq "m" 0; Ceq "func1" 2; Ceq "form" 0]
    [SVs1; SVs2] [DVd] [] (SmVec (VEl (OShift false) U8) false false);
  (* coralnpu_shift.bin_fmt:74 coralnpu_shift.isa:211 *)
  E "vshl_b_vx" GShift FV2 [Ceq "func2" 9; Ceq "sz" 0; Ceq "m" 0; Ceq "func1" 2; Ceq "form" 2]
    [SVs1; SVs2] [DVd] [] (SmVec (VEl (OShift false) U8) true false);
  (* coralnpu_shift.bin_fmt:75 coralnpu_shift.isa:214 *)
  E "vshl_b_vv_m" GShift FV2 [Ceq "func2" 9; Ceq "sz" 0; Ceq "m" 1; Ceq "func1" 2; Ceq "form" 0]
    [SVs1; SVs2] [DVd] [] (SmVec (VEl (OShift false) U8) false true);
  (* coralnpu_shift.bin_fmt:76 coralnpu_shift.isa:217 *)
  E "vshl_b_vx_m" GShift FV2 [Ceq "func2" 9; Ceq "sz" 0; Ceq "m" 1; Ceq "func1" 2; Ceq "form" 2]
    [SVs1; SVs2] [DVd] [] (SmVec (VEl (OShift false) U8) true true);
  (* coralnpu_shift.bin_fmt:77 coralnpu_shift.isa:220 *)
  E "vshl_h_vv" GShift FV2 [Ceq "func2" 9; Ceq "sz" 1; Ceq "m" 0; Ceq "func1" 2; Ceq "form" 0]
    [SVs1; SVs2] [DVd] [] (SmVec (VEl (OShift false) U16) false false);
  (* coralnpu_shift.bin_fmt:78 coralnpu_shift.isa:223 *)
  E "vshl_h_vx" GShift FV2 [Ceq "func2" 9; Ceq "sz" 1; Ceq "m" 0; Ceq "func1" 2; Ceq "form" 2]
    [SVs1; SVs2] [DVd] [] (SmVec (VEl (OShift false) U16) true false);
  (* coralnpu_shift.bin_fmt:79 coralnpu_shift.isa:226 *)
  E "vshl_h_vv_m" GShift FV2 [Ceq "func2" 9; Ceq "sz" 1; Ceq "m" 1; Ceq "func1" 2; Ceq "form" 0]
    [SVs1; SVs2] [DVd] [] (SmVec (VEl (OShift false) U16) false true);
  (* coralnpu_shift.bin_fmt:80 coralnpu_shift.isa:229 *)
  E "vshl_h_vx_m" GShift FV2 [Ceq "func2" 9; Ceq "sz" 1; Ceq "m" 1; Ceq "func1" 2; Ceq "form" 2]
    [SVs1; SVs2] [DVd] [] (SmVec (VEl (OShift false) U16) true true);
  (* coralnpu_shift.bin_fmt:81 coralnpu_shift.isa:232 *)
  E "vshl_w_vv" GShift FV2 [Ceq "func2" 9; Ceq "sz" 2; Ceq "m" 0; Ceq "func1" 2; Ceq "form" 0]
    [SVs1; SVs2] [DVd] [] (SmVec (VEl (OShift false) U32) false false);
  (* coralnpu_shift.bin_fmt:82 coralnpu_shift.isa:235 *)
  E "vshl_w_vx" GShift FV2 [Ceq "func2" 9; Ceq "sz" 2; Ceq "m" 0; Ceq "func1" 2; Ceq "form" 2]
    [SVs1; SVs2] [DVd] [] (SmVec (VEl (OShift false) U32) true false);
  (* coralnpu_shift.bin_fmt:83 coralnpu_shift.isa:238 *)
  E "vshl_w_vv_m" GShift FV2 [Ceq "func2" 9; Ceq "sz" 2; Ceq "m" 1; Ceq "func1" 2; Ceq "form" 0]
    [SVs1; SVs2] [DVd] [] (SmVec (VEl (OShift false) U32) false true);
  (* coralnpu_shift.bin_fmt:84 coralnpu_shift.isa:241 *)
  E "vshl_w_vx_m" GShift FV2 [Ceq "func2" 9; Ceq "sz" 2; Ceq "m" 1; Ceq "func1" 2; Ceq "form" 2]
    [SVs1; SVs2] [DVd] [] (SmVec (VEl (OShift false) U32) true true);
  (* coralnpu_shift.bin_fmt:85 coralnpu_shift.isa:244 *)
  E "vshl_b_r_vv" GShift FV2 [Ceq "func2" 11; Ceq "sz" 0; Ceq "m" 0; Ceq "func1" 2; Ceq "form" 0]
    [SVs1; SVs2] [DVd] [] (SmVec (VEl (OShift true) U8) false false);
  (* coralnpu_shift.bin_fmt:86 coralnpu_shift.isa:247 *)
  E "vshl_b_r_vx" GShift FV2 [Ceq "func2" 11; Ceq "sz" 0; Ceq "m" 0; Ceq "func1" 2; Ceq "form" 2]
    [SVs1; SVs2] [DVd] [] (SmVec (VEl (OShift true) U8) true false);
  (* coralnpu_shift.bin_fmt:87 coralnpu_shift.isa:250 *)
  E "vshl_b_r_vv_m" GShift FV2 [Ceq "func2" 11; Ceq "sz" 0; Ceq "m" 1; Ceq "func1" 2; Ceq "form" 0]
    [SVs1; SVs2] [DVd] [] (SmVec (VEl (OShift true) U8) false true);
  (* coralnpu_shift.bin_fmt:88 coralnpu_shift.isa:253 *)
  E "vshl_b_r_vx_m" GShift FV2 [Ceq "func2" 11; Ceq "sz" 0; Ceq "m" 1; Ceq "func1" 2; Ceq "form" 2]
    [SVs1; SVs2] [DVd] [] (SmVec (VEl (OShift true) U8) true true);
  (* coralnpu_shift.bin_fmt:89 coralnpu_shift.isa:256 *)
  E "vshl_h_r_vv" GShift FV2 [Ceq "func2" 11; Ceq "sz" 1; Ceq "m" 0; Ceq "func1" 2; Ceq "form" 0]
    [SVs1; SVs2] [DVd] [] (SmVec (VEl (OShift true) U16) false false);
  (* coralnpu_shift.bin_fmt:90 coralnpu_shift.isa:259 *)
  E "vshl_h_r_vx" GShift FV2 [Ceq "func2" 11; Ceq "sz" 1; Ceq "m" 0; Ceq "func1" 2; Ceq "form" 2]
    [SVs1; SVs2] [DVd] [] (SmVec (VEl (OShift true) U16) true false);
  (* coralnpu_shift.bin_fmt:91 coralnpu_shift.isa:262 *)
  E "vshl_h_r_vv_m" GShift FV2 [Ceq "func2" 11; Ceq "sz" 1; Ceq "m" 1; Ceq "func1" 2; Ceq "form" 0]
    [SVs1; SVs2] [DVd] [] (SmVec (VEl (OShift true) U16) false true);
  (* coralnpu_shift.bin_fmt:92 coralnpu_shift.isa:265 *)
  E "vshl_h_r_vx_m" GShift FV2 [Ceq "func2" 11; Ceq "sz" 1; Ceq "m" 1; Ceq "func1" 2; Ceq "form" 2]
    [SVs1; SVs2] [DVd] [] (SmVec (VEl (OShift true) U16) true true);
  (* coralnpu_shift.bin_fmt:93 coralnpu_shift.isa:268 *)
  E "vshl_w_r_vv" GShift FV2 [Ceq "func2" 11; Ceq "sz" 2; Ceq "m" 0; Ceq "func1" 2; Ceq "form" 0]
    [SVs1; SVs2] [DVd] [] (SmVec (VEl (OShift true) U32) false false);
  (* coralnpu_shift.bin_fmt:94 coralnpu_shift.isa:271 *)
  E "vshl_w_r_vx" GShift FV2 [Ceq "func2" 11; Ceq "sz" 2; Ceq "m" 0; Ceq "func1" 2; Ceq "form" 2]
    [SVs1; SVs2] [DVd] [] (SmVec (VEl (OShift true) U32) true false);
  (* coralnpu_shift.bin_fmt:95 coralnpu_shift.isa:274 *)
  E "vshl_w_r_vv_m" GShift FV2 [Ceq "func2" 11; Ceq "sz" 2; Ceq "m" 1; Ceq "func1" 2; Ceq "form" 0]
    [SVs1; SVs2] [DVd] [] (SmVec (VEl (OShift true) U32) false true);
  (* coralnpu_shift.bin_fmt:96 coralnpu_shift.isa:277 *)
  E "vshl_w_r_vx_m" GShift FV2 [Ceq "func2" 11; Ceq "sz" 2; Ceq "m" 1; Ceq "func1" 2; Ceq "form" 2]
    [SVs1; SVs2] [DVd] [] (SmVec (VEl (OShift true) U32) true true);
  (* coralnpu_shift.bin_fmt:99 coralnpu_shift.isa:282 *)
  E "vnot_v" GShift FV2 [Ceq "func2" 3; Ceq "vs2" 0; Ceq "m" 0; Ceq "func1" 1; Ceq "form" 2]
    [SVs1] [DVd] [] (SmVec (VUn UNot I32) false false);
  (* coralnpu_shift.bin_fmt:100 coralnpu_shift.isa:285 *)
  E "vnot_v_m" GShift FV2 [Ceq "func2" 3; Ceq "vs2" 0; Ceq "m" 1; Ceq "func1" 1; Ceq "form" 2]
    [SVs1] [DVd] [] (SmVec (VUn UNot I32) false true);
  (* coralnpu_shift.bin_fmt:103 coralnpu_shift.isa:290 *)
  E "vclb_b_v" GShift FV2 [Ceq "func2" 8; Ceq "sz" 0; Ceq "vs2" 0; Ceq "m" 0; Ceq "func1" 1; Ceq "form" 2]
    [SVs1] [DVd] [] (SmVec (VUn UClb U8) false false);
  (* coralnpu_shift.bin_fmt:104 coralnpu_shift.isa:293 *)
  E "vclb_b_v_m" GShift FV2 [Ceq "func2" 8; Ceq "sz" 0; Ceq "vs2" 0; Ceq "m" 1; Ceq "func1" 1; Ceq "form" 2]
    [SVs1] [DVd] [] (SmVec (VUn UClb U8) false true);
  (* coralnpu_shift.bin_fmt:105 coralnpu_shift.isa:296 *)
  E "vclb_h_v" GShift FV2 [Ceq "func2" 8; Ceq "sz" 1; Ceq "vs2" 0; Ceq "m" 0; Ceq "func1" 1; Ceq "form" 2]
    [SVs1] [DVd] [] (SmVec (VUn UClb U16) false false);
  (* coralnpu_shift.bin_fmt:106 coralnpu_shift.isa:299 *)
  E "vclb_h_v_m" GShift FV2 [Ceq "func2" 8; Ceq "sz" 1; Ceq "vs2" 0; Ceq "m" 1; Ceq "func1" 1; Ceq "form" 2]
    [SVs1] [DVd] [] (SmVec (VUn UClb U16) false true);
  (* coralnpu_shift.bin_fmt:107 coralnpu_shift.isa:302 *)
  E "vclb_w_v" GShift FV2 [Ceq "func2" 8; Ceq "sz" 2; Ceq "vs2" 0; Ceq "m" 0; Ceq "func1" 1; Ceq "form" 2]
    [SVs1] [DVd] [] (SmVec (VUn UClb U32) false false);
  (* coralnpu_shift.bin_fmt:108 coralnpu_shift.isa:305 *)
  E "vclb_w_v_m" GShift FV2 [Ceq "func2" 8; Ceq "sz" 2; Ceq "vs2" 0; Ceq "m" 1; Ceq "func1" 1; Ceq "form" 2]
    [SVs1] [DVd] [] (SmVec (VUn UClb U32) false true);
  (* coralnpu_shift.bin_fmt:111 coralnpu_shift.isa:310 *)
  E "vclz_b_v" GShift FV2 [Ceq "func2" 9; Ceq "sz" 0; Ceq "vs2" 0; Ceq "m" 0; Ceq "func1" 1; Ceq "form" 2]
    [SVs1] [DVd] [] (SmVec (VUn UClz U8) false false);
  (* coralnpu_shift.bin_fmt:112 coralnpu_shift.isa:313 *)
  E "vclz_b_v_m" GShift FV2 [Ceq "func2" 9; Ceq "sz" 0; Ceq "vs2" 0; Ceq "m" 1; Ceq "func1" 1; Ceq "form" 2]
    [SVs1] [DVd] [] (SmVec (VUn UClz U8) false true);
  (* coralnpu_shift.bin_fmt:113 coralnpu_shift.isa:316 *)
  E "vclz_h_v" GShift FV2 [Ceq "func2" 9; Ceq "sz" 1; Ceq "vs2" 0; Ceq "m" 0; Ceq "func1" 1; Ceq "form" 2]
    [SVs1] [DVd] [] (SmVec (VUn UClz U16) false false);
  (* coralnpu_shift.bin_fmt:114 coralnpu_shift.isa:319 *)
  E "vclz_h_v_m" GShift FV2 [Ceq "func2" 9; Ceq "sz" 1; Ceq "vs2" 0; Ceq "m" 1; Ceq "func1" 1; Ceq "form" 2]
    [SVs1] [DVd] [] (SmVec (VUn UClz U16) false true);
  (* coralnpu_shift.bin_fmt:115 coralnpu_shift.isa:322 *)
  E "vclz_w_v" GShift FV2 [Ceq "func2" 9; Ceq "sz" 2; Ceq "vs2" 0; Ceq "m" 0; Ceq "func1" 1; Ceq "form" 2]
    [SVs1] [DVd] [] (SmVec (VUn UClz U32) false false);
  (* coralnpu_shift.bin_fmt:116 coralnpu_shift.isa:325 *)
  E "vclz_w_v_m" GShift FV2 [Ceq "func2" 9; Ceq "sz" 2; Ceq "vs2" 0; Ceq "m" 1; Ceq "func1" 1; Ceq "form" 2]
    [SVs1] [DVd] [] (SmVec (VUn UClz U32) false true);
  (* coralnpu_shift.bin_fmt:119 coralnpu_shift.isa:330 *)
  E "vcpop_b_v" GShift FV2 [Ceq "func2" 10; Ceq "sz" 0; Ceq "vs2" 0; Ceq "m" 0; Ceq "func1" 1; Ceq "form" 2]
    [SVs1] [DVd] [] (SmVec (VUn UCpop U8) false false);
  (* coralnpu_shift.bin_fmt:120 coralnpu_shift.isa:333 *)
  E "vcpop_b_v_m" GShift FV2 [Ceq "func2" 10; Ceq "sz" 0; Ceq "vs2" 0; Ceq "m" 1; Ceq "func1" 1; Ceq "form" 2]
    [SVs1] [DVd] [] (SmVec (VUn UCpop U8) false true);
  (* coralnpu_shift.bin_fmt:121 coralnpu_shift.isa:336 *)
  E "vcpop_h_v" GShift FV2 [Ceq "func2" 10; Ceq "sz" 1; Ceq "vs2" 0; Ceq "m" 0; Ceq "func1" 1; Ceq "form" 2]
    [SVs1] [DVd] [] (SmVec (VUn UCpop U16) false false);
  (* coralnpu_shift.bin_fmt:122 coralnpu_shift.isa:339 *)
  E "vcpop_h_v_m" GShift FV2 [Ceq "func2" 10; Ceq "sz" 1; Ceq "vs2" 0; Ceq "m" 1; Ceq "func1" 1; Ceq "form" 2]
    [SVs1] [DVd] [] (SmVec (VUn UCpop U16) false true);
  (* coralnpu_shift.bin_fmt:123 coralnpu_shift.isa:342 *)
  E "vcpop_w_v" GShift FV2 [Ceq "func2" 10; Ceq "sz" 2; Ceq "vs2" 0; Ceq "m" 0; Ceq "func1" 1; Ceq "form" 2]
    [SVs1] [DVd] [] (SmVec (VUn UCpop U32) false false);
  (* coralnpu_shift.bin_fmt:124 coralnpu_shift.isa:345 *)
  E "vcpop_w_v_m" GShift FV2 [Ceq "func2" 10; Ceq "sz" 2; Ceq "vs2" 0; Ceq "m" 1; Ceq "func1" 1; Ceq "form" 2]
    [SVs1] [DVd] [] (SmVec (VUn UCpop U32) false true);
  (* coralnpu_shift.bin_fmt:127 coralnpu_shift.isa:350 *)
  E "vmv_v" GShift FV2 [Ceq "func2" 12; Ceq "vs2" 0; Ceq "m" 0; Ceq "func1" 1; Ceq "form" 2]
    [SVs1] [DVd] [] (SmVec (VUn UMv I32) false false);
  (* coralnpu_shift.bin_fmt:128 coralnpu_shift.isa:353 *)
  E "vmv_v_m" GShift FV2 [Ceq "func2" 12; Ceq "vs2" 0; Ceq "m" 1; Ceq "func1" 1; Ceq "form" 2]
    [SVs1] [DVd] [] (SmVec (VUn UMv I32) false true);
  (* coralnpu_shift.bin_fmt:131 coralnpu_shift.isa:358 *)
  E "vsrans_b_vv" GShift FV2 [Ceq "func2" 16; Ceq "sz" 0; Ceq "m" 0; Ceq "func1" 2; Ceq "form" 0]
    [SVs1; SVs2] [DVd] [] (SmVec (VNarrow false I8 I16) false false);
  (* coralnpu_shift.bin_fmt:132 coralnpu_shift.isa:370 *)
  E "vsrans_b_vx" GShift FV2 [Ceq "func2" 16; Ceq "sz" 0; Ceq "m" 0; Ceq "func1" 2; Ceq "form" 2]
    [SVs1; SVs2] [DVd] [] (SmVec (VNarrow false I8 I16) true false);
  (* coralnpu_shift.bin_fmt:133 coralnpu_shift.isa:361 *)
  E "vsrans_b_vv_m" GShift FV2 [Ceq "func2" 16; Ceq "sz" 0; Ceq "m" 1; Ceq "func1" 2; Ceq "form" 0]
    [SVs1; SVs2] [DVd] [] (SmVec (VNarrow false I8 I16) false true);
  (* coralnpu_shift.bin_fmt:134 coralnpu_shift.isa:373 *)
  E "vsrans_b_vx_m" GShift FV2 [Ceq "func2" 16; Ceq "sz" 0; Ceq "m" 1; Ceq "func1" 2; Ceq "form" 2]
    [SVs1; SVs2] [DVd] [] (SmVec (VNarrow false I8 I16) true true);
  (* coralnpu_shift.bin_fmt:135 coralnpu_shift.isa:364 *)
  E "vsrans_h_vv" GShift FV2 [Ceq "func2" 16; Ceq "sz" 1; Ceq "m" 0; Ceq "func1" 2; Ceq "form" 0]
    [SVs1; SVs2] [DVd] [] (SmVec (VNarrow false I16 I32) false false);
  (* coralnpu_shift.bin_fmt:136 coralnpu_shift.isa:376 *)
  E "vsrans_h_vx" GShift FV2 [Ceq "func2" 16; Ceq "sz" 1; Ceq "m" 0; Ceq "func1" 2; Ceq "form" 2]
    [SVs1; SVs2] [DVd] [] (SmVec (VNarrow false I16 I32) true false);
  (* coralnpu_shift.bin_fmt:137 coralnpu_shift.isa:367 *)
  E "vsrans_h_vv_m" GShift FV2 [Ceq "func2" 16; Ceq "sz" 1; Ceq "m" 1; Ceq "func1" 2; Ceq "form" 0]
    [SVs1; SVs2] [DVd] [] (SmVec (VNarrow false I16 I32) false true);
  (* coralnpu_shift.bin_fmt:138 coralnpu_shift.isa:379 *)
  E "vsrans_h_vx_m" GShift FV2 [Ceq "func2" 16; Ceq "sz" 1; Ceq "m" 1; Ceq "func1" 2; Ceq "form" 2]
    [SVs1; SVs2] [DVd] [] (SmVec (VNarrow false I16 I32) true true);
  (* coralnpu_shift.bin_fmt:139 coralnpu_shift.isa:382 *)
  E "vsrans_b_r_vv" GShift FV2 [Ceq "func2" 18; Ceq "sz" 0; Ceq "m" 0; Ceq "func1" 2; Ceq "form" 0]
    [SVs1; SVs2] [DVd] [] (SmVec (VNarrow true I8 I16) false false);
  (* coralnpu_shift.bin_fmt:140 coralnpu_shift.isa:394 *)
  E "vsrans_b_r_vx" GShift FV2 [Ceq "func2" 18; Ceq "sz" 0; Ceq "m" 0; Ceq "func1" 2; Ceq "form" 2]
    [SVs1; SVs2] [DVd] [] (SmVec (VNarrow true I8 I16) true false);
  (* coralnpu_shift.bin_fmt:141 coralnpu_shift.isa:385 *)
  E "vsrans_b_r_vv_m" GShift FV2 [Ceq "func2" 18; Ceq "sz" 0; Ceq "m" 1; Ceq "func1" 2; Ceq "form" 0]
    [SVs1; SVs2] [DVd] [] (SmVec (VNarrow true I8 I16) false true);
  (* coralnpu_shift.bin_fmt:142 coralnpu_shift.isa:397 *)
  E "vsrans_b_r_vx_m" GShift FV2 [Ceq "func2" 18; Ceq "sz" 0; Ceq "m" 1; Ceq "func1" 2; Ceq "form" 2]
    [SVs1; SVs2] [DVd] [] (SmVec (VNarrow true I8 I16) true true);
  (* coralnpu_shift.bin_fmt:143 coralnpu_shift.isa:388 *)
  E "vsrans_h_r_vv" GShift FV2 [Ceq "func2" 18; Ceq "sz" 1; Ceq "m" 0; Ceq "func1" 2; Ceq "form" 0]
    [SVs1; SVs2] [DVd] [] (SmVec (VNarrow true I16 I32) false false);
  (* coralnpu_shift.bin_fmt:144 coralnpu_shift.isa:400 *)
  E "vsrans_h_r_vx" GShift FV2 [Ceq "func2" 18; Ceq "sz" 1; Ceq "m" 0; Ceq "func1" 2; Ceq "form" 2]
    [SVs1; SVs2] [DVd] [] (SmVec (VNarrow true I16 I32) true false);
  (* coralnpu_shift.bin_fmt:145 coralnpu_shift.isa:391 *)
  E "vsrans_h_r_vv_m" GShift FV2 [Ceq "func2" 18; Ceq "sz" 1; Ceq "m" 1; Ceq "func1" 2; Ceq "form" 0]
    [SVs1; SVs2] [DVd] [] (SmVec (VNarrow true I16 I32) false true);
  (* coralnpu_shift.bin_fmt:146 coralnpu_shift.isa:403 *)
  E "vsrans_h_r_vx_m" GShift FV2 [Ceq "func2" 18; Ceq "sz" 1; Ceq "m" 1; Ceq "func1" 2; Ceq "form" 2]
    [SVs1; SVs2] [DVd] [] (SmVec (VNarrow true I16 I32) true true);
  (* coralnpu_shift.bin_fmt:149 coralnpu_shift.isa:408 *)
  E "vsransu_b_vv" GShift FV2 [Ceq "func2" 17; Ceq "sz" 0; Ceq "m" 0; Ceq "func1" 2; Ceq "form" 0]
    [SVs1; SVs2] [DVd] [] (SmVec (VNarrow false U8 U16) false false);
  (* coralnpu_shift.bin_fmt:150 coralnpu_shift.isa:420 *)
  E "vsransu_b_vx" GShift FV2 [Ceq "func2" 17; Ceq "sz" 0; Ceq "m" 0; Ceq "func1" 2; Ceq "form" 2]
    [SVs1; SVs2] [DVd] [] (SmVec (VNarrow false U8 U16) true false);
  (* coralnpu_shift.bin_fmt:151 coralnpu_shift.isa:411 *)
  E "vsransu_b_vv_m" GShift FV2 [Ceq "func2" 17; Ceq "sz" 0; Ceq "m" 1; Ceq "func1" 2; Ceq "form" 0]
    [SVs1; SVs2] [DVd] [] (SmVec (VNarrow false U8 U16) false true);
  (* coralnpu_shift.bin_fmt:152 coralnpu_shift.isa:423 *)
  E "vsransu_b_vx_m" GShift FV2 [Ceq "func2" 17; Ceq "sz" 0; Ceq "m" 1; Ceq "func1" 2; Ceq "form" 2]
    [SVs1; SVs2] [DVd] [] (SmVec (VNarrow false U8 U16) true true);
  (* coralnpu_shift.bin_fmt:153 coralnpu_shift.isa:414 *)
  E "vsransu_h_vv" GShift FV2 [Ceq "func2" 17; Ceq "sz" 1; Ceq "m" 0; Ceq "func1" 2; Ceq "form" 0]
    [SVs1; SVs2] [DVd] [] (SmVec (VNarrow false U16 U32) false false);
  (* coralnpu_shift.bin_fmt:154 coralnpu_shift.isa:426 *)
  E "vsransu_h_vx" GShift FV2 [Ceq "func2" 17; Ceq "sz" 1; Ceq "m" 0; Ceq "func1" 2; Ceq "form" 2]
    [SVs1; SVs2] [DVd] [] (SmVec (VNarrow false U16 U32) true false);
  (* coralnpu_shift.bin_fmt:155 coralnpu_shift.isa:417 *)
  E "vsransu_h_vv_m" GShift FV2 [Ceq "func2" 17; Ceq "sz" 1; Ceq "m" 1; Ceq "func1" 2; Ceq "form" 0]
    [SVs1; SVs2] [DVd] [] (SmVec (VNarrow false U16 U32) false true);
  (* coralnpu_shift.bin_fmt:156 coralnpu_shift.isa:429 *)
  E "vsransu_h_vx_m" GShift FV2 [Ceq "func2" 17; Ceq "sz" 1; Ceq "m" 1; Ceq "func1" 2; Ceq "form" 2]
    [SVs1; SVs2] [DVd] [] (SmVec (VNarrow false U16 U32) true true);
  (* coralnpu_shift.bin_fmt:157 coralnpu_shift.isa:432 *)
  E "vsransu_b_r_vv" GShift FV2 [Ceq "func2" 19; Ceq "sz" 0; Ceq "m" 0; Ceq "func1" 2; Ceq "form" 0]
    [SVs1; SVs2] [DVd] [] (SmVec (VNarrow true U8 U16) false false);
  (* coralnpu_shift.bin_fmt:158 coralnpu_shift.isa:444 *)
  E "vsransu_b_r_vx" GShift FV2 [Ceq "func2" 19; Ceq "sz" 0; Ceq "m" 0; Ceq "func1" 2; Ceq "form" 2]
    [SVs1; SVs2] [DVd] [] (SmVec (VNarrow true U8 U16) true false);
  (* coralnpu_shift.bin_fmt:159 coralnpu_shift.isa:435 *)
  E "vsransu_b_r_vv_m" GShift FV2 [Ceq "func2" 19; Ceq "sz" 0; Ceq "m" 1; Ceq "func1" 2; Ceq "form" 0]
    [SVs1; SVs2] [DVd] [] (SmVec (VNarrow true U8 U16) false true);
  (* coralnpu_shift.bin_fmt:160 coralnpu_shift.isa:447 *)
  E "vsransu_b_r_vx_m" GShift FV2 [Ceq "func2" 19; Ceq "sz" 0; Ceq "m" 1; Ceq "func1" 2; Ceq "form" 2]
    [SVs1; SVs2] [DVd] [] (SmVec (VNarrow true U8 U16) true true);
  (* coralnpu_shift.bin_fmt:161 coralnpu_shift.isa:438 *)
  E "vsransu_h_r_vv" GShift FV2 [Ceq "func2" 19; Ceq "sz" 1; Ceq "m" 0; Ceq "func1" 2; Ceq "form" 0]
    [SVs1; SVs2] [DVd] [] (SmVec (VNarrow true U16 U32) false false);
  (* coralnpu_shift.bin_fmt:162 coralnpu_shift.isa:450 *)
  E "vsransu_h_r_vx" GShift FV2 [Ceq "func2" 19; Ceq "sz" 1; Ceq "m" 0; Ceq "func1" 2; Ceq "form" 2]
    [SVs1; SVs2] [DVd] [] (SmVec (VNarrow true U16 U32) true false);
  (* coralnpu_shift.bin_fmt:163 coralnpu_shift.isa:441 *)
  E "vsransu_h_r_vv_m" GShift FV2 [Ceq "func2" 19; Ceq "sz" 1; Ceq "m" 1; Ceq "func1" 2; Ceq "form" 0]
    [SVs1; SVs2] [DVd] [] (SmVec (VNarrow true U16 U32) false true);
  (* coralnpu_shift.bin_fmt:164 coralnpu_shift.isa:453 *)
  E "vsransu_h_r_vx_m" GShift FV2 [Ceq "func2" 19; Ceq "sz" 1; Ceq "m" 1; Ceq "func1" 2; Ceq "form" 2]
    [SVs1; SVs2] [DVd] [] (SmVec (VNarrow true U16 U32) true true);
  (* coralnpu_shift.bin_fmt:167 coralnpu_shift.isa:458 *)
  E "vsraqs_b_vv" GShift FV2 [Ceq "func2" 24; Ceq "sz" 0; Ceq "m" 0; Ceq "func1" 2; Ceq "form" 0]
    [SVs1; SVs2] [DVd] [] (SmVec (VNarrow false I8 I32) false false);
  (* coralnpu_shift.bin_fmt:168 coralnpu_shift.isa:464 *)
  E "vsraqs_b_vx" GShift FV2 [Ceq "func2" 24; Ceq "sz" 0; Ceq "m" 0; Ceq "func1" 2; Ceq "form" 2]
    [SVs1; SVs2] [DVd] [] (SmVec (VNarrow false I8 I32) true false);
  (* coralnpu_shift.bin_fmt:169 coralnpu_shift.isa:461 *)
  E "vsraqs_b_vv_m" GShift FV2 [Ceq "func2" 24; Ceq "sz" 0; Ceq "m" 1; Ceq "func1" 2; Ceq "form" 0]
    [SVs1; SVs2] [DVd] [] (SmVec (VNarrow false I8 I32) false true);
  (* coralnpu_shift.bin_fmt:170 coralnpu_shift.isa:467 *)
  E "vsraqs_b_vx_m" GShift FV2 [Ceq "func2" 24; Ceq "sz" 0; Ceq "m" 1; Ceq "func1" 2; Ceq "form" 2]
    [SVs1; SVs2] [DVd] [] (SmVec (VNarrow false I8 I32) true true);
  (* coralnpu_shift.bin_fmt:171 coralnpu_shift.isa:470 *)
  E "vsraqs_b_r_vv" GShift FV2 [Ceq "func2" 26; Ceq "sz" 0; Ceq "m" 0; Ceq "func1" 2; Ceq "form" 0]
    [SVs1; SVs2] [DVd] [] (SmVec (VNarrow true I8 I32) false false);
  (* coralnpu_shift.bin_fmt:172 coralnpu_shift.isa:476 *)
  E "vsraqs_b_r_vx" GShift FV2 [Ceq "func2" 26; Ceq "sz" 0; Ceq "m" 0; Ceq "func1" 2; Ceq "form" 2]
    [SVs1; SVs2] [DVd] [] (SmVec (VNarrow true I8 I32) true false);
  (* coralnpu_shift.bin_fmt:173 coralnpu_shift.isa:473 *)
  E "vsraqs_b_r_vv_m" GShift FV2 [Ceq "func2" 26; Ceq "sz" 0; Ceq "m" 1; Ceq "func1" 2; Ceq "form" 0]
    [SVs1; SVs2] [DVd] [] (SmVec (VNarrow true I8 I32) false true);
  (* coralnpu_shift.bin_fmt:174 coralnpu_shift.isa:479 *)
  E "vsraqs_b_r_vx_m" GShift FV2 [Ceq "func2" 26; Ceq "sz" 0; Ceq "m" 1; Ceq "func1" 2; Ceq "form" 2]
    [SVs1; SVs2] [DVd] [] (SmVec (VNarrow true I8 I32) true true);
  (* coralnpu_shift.bin_fmt:177 coralnpu_shift.isa:484 *)
  E "vsraqsu_b_vv" GShift FV2 [Ceq "func2" 25; Ceq "sz" 0; Ceq "m" 0; Ceq "func1" 2; Ceq "form" 0]
    [SVs1; SVs2] [DVd] [] (SmVec (VNarrow false U8 U32) false false);
  (* coralnpu_shift.bin_fmt:178 coralnpu_shift.isa:490 *)
  E "vsraqsu_b_vx" GShift FV2 [Ceq "func2" 25; Ceq "sz" 0; Ceq "m" 0; Ceq "func1" 2; Ceq "form" 2]
    [SVs1; SVs2] [DVd] [] (SmVec (VNarrow false U8 U32) true false);
  (* coralnpu_shift.bin_fmt:179 coralnpu_shift.isa:487 *)
  E "vsraqsu_b_vv_m" GShift FV2 [Ceq "func2" 25; Ceq "sz" 0; Ceq "m" 1; Ceq "func1" 2; Ceq "form" 0]
    [SVs1; SVs2] [DVd] [] (SmVec (VNarrow false U8 U32) false true);
  (* coralnpu_shift.bin_fmt:180 coralnpu_shift.isa:493 *)
  E "vsraqsu_b_vx_m" GShift FV2 [Ceq "func2" 25; Ceq "sz" 0; Ceq "m" 1; Ceq "func1" 2; Ceq "form" 2]
    [SVs1; SVs2] [DVd] [] (SmVec (VNarrow false U8 U32) true true);
  (* coralnpu_shift.bin_fmt:181 coralnpu_shift.isa:496 *)
  E "vsraqsu_b_r_vv" GShift FV2 [Ceq "func2" 27; Ceq "sz" 0; Ceq "m" 0; Ceq "func1" 2; Ceq "form" 0]
    [SVs1; SVs2] [DVd] [] (SmVec (VNarrow true U8 U32) false false);
  (* coralnpu_shift.bin_fmt:182 coralnpu_shift.isa:502 *)
  E "vsraqsu_b_r_vx" GShift FV2 [Ceq "func2" 27; Ceq "sz" 0; Ceq "m" 0; Ceq "func1" 2; Ceq "form" 2]
    [SVs1; SVs2] [DVd] [] (SmVec (VNarrow true U8 U32) true false);
  (* coralnpu_shift.bin_fmt:183 coralnpu_shift.isa:499 *)
  E "vsraqsu_b_r_vv_m" GShift FV2 [Ceq "func2" 27; Ceq "sz" 0; Ceq "m" 1; Ceq "func1" 2; Ceq "form" 0]
    [SVs1; SVs2] [DVd] [] (SmVec (VNarrow true U8 U32) false true);
  (* coralnpu_shift.bin_fmt:184 coralnpu_shift.isa:505 *)
  E "vsraqsu_b_r_vx_m" GShift FV2 [Ceq "func2" 27; Ceq "sz" 0; Ceq "m" 1; Ceq "func1" 2; Ceq "form" 2]
    [SVs1; SVs2] [DVd] [] (SmVec (VNarrow true U8 U32) true true);
  (* coralnpu_shift.bin_fmt:187 coralnpu_shift.isa:510 *)
  E "vsliden_b_1_vv" GShift FV2 [Ceq "func2" 0; Ceq "sz" 0; Ceq "m" 0; Ceq "func1" 6; Ceq "form" 0]
    [SVs1; SVs2] [DVd] [] (SmVec (VPerm (PSliden false 1) I8) false false);
  (* coralnpu_shift.bin_fmt:188 coralnpu_shift.isa:513 *)
  E "vsliden_b_2_vv" GShift FV2 [Ceq "func2" 1; Ceq "sz" 0; Ceq "m" 0; Ceq "func1" 6; Ceq "form" 0]
    [SVs1; SVs2] [DVd] [] (SmVec (VPerm (PSliden false 2) I8) false false);
  (* coralnpu_shift.bin_fmt:189 coralnpu_shift.isa:516 *)
  E "vsliden_b_3_vv" GShift FV2 [Ceq "func2" 2; Ceq "sz" 0; Ceq "m" 0; Ceq "func1" 6; Ceq "form" 0]
    [SVs1; SVs2] [DVd] [] (SmVec (VPerm (PSliden false 3) I8) false false);
  (* coralnpu_shift.bin_fmt:190 coralnpu_shift.isa:519 *)
  E "vsliden_b_4_vv" GShift FV2 [Ceq "func2" 3; Ceq "sz" 0; Ceq "m" 0; Ceq "func1" 6; Ceq "form" 0]
    [SVs1; SVs2] [DVd] [] (SmVec (VPerm (PSliden false 4) I8) false false);
  (* coralnpu_shift.bin_fmt:191 coralnpu_shift.isa:522 *)
  E "vsliden_h_1_vv" GShift FV2 [Ceq "func2" 0; Ceq "sz" 1; Ceq "m" 0; Ceq "func1" 6; Ceq "form" 0]
    [SVs1; SVs2] [DVd] [] (SmVec (VPerm (PSliden false 1) I16) false false);
  (* coralnpu_shift.bin_fmt:192 coralnpu_shift.isa:525 *)
  E "vsliden_h_2_vv" GShift FV2 [Ceq "func2" 1; Ceq "sz" 1; Ceq "m" 0; Ceq "func1" 6; Ceq "form" 0]
    [SVs1; SVs2] [DVd] [] (SmVec (VPerm (PSliden false 2) I16) false false);
  (* coralnpu_shift.bin_fmt:193 coralnpu_shift.isa:528 *)
  E "vsliden_h_3_vv" GShift FV2 [Ceq "func2" 2; Ceq "sz" 1; Ceq "m" 0; Ceq "func1" 6; Ceq "form" 0]
    [SVs1; SVs2] [DVd] [] (SmVec (VPerm (PSliden false 3) I16) false false);
  (* coralnpu_shift.bin_fmt:194 coralnpu_shift.isa:531 *)
  E "vsliden_h_4_vv" GShift FV2 [Ceq "func2" 3; Ceq "sz" 1; Ceq "m" 0; Ceq "func1" 6; Ceq "form" 0]
    [SVs1; SVs2] [DVd] [] (SmVec (VPerm (PSliden false 4) I16) false false);
  (* coralnpu_shift.bin_fmt:195 coralnpu_shift.isa:534 *)
  E "vsliden_w_1_vv" GShift FV2 [Ceq "func2" 0; Ceq "sz" 2; Ceq "m" 0; Ceq "func1" 6; Ceq "form" 0]
    [SVs1; SVs2] [DVd] [] (SmVec (VPerm (PSliden false 1) I32) false false);
  (* coralnpu_shift.bin_fmt:196 coralnpu_shift.isa:537 *)
  E "vsliden_w_2_vv" GShift FV2 [Ceq "func2" 1; Ceq "sz" 2; Ceq "m" 0; Ceq "func1" 6; Ceq "form" 0]
    [SVs1; SVs2] [DVd] [] (SmVec (VPerm (PSliden false 2) I32) false false);
  (* coralnpu_shift.bin_fmt:197 coralnpu_shift.isa:540 *)
  E "vsliden_w_3_vv" GShift FV2 [Ceq "func2" 2; Ceq "sz" 2; Ceq "m" 0; Ceq "func1" 6; Ceq "form" 0]
    [SVs1; SVs2] [DVd] [] (SmVec (VPerm (PSliden false 3) I32) false false);
  (* coralnpu_shift.bin_fmt:198 coralnpu_shift.isa:543 *)
  E "vsliden_w_4_vv" GShift FV2 [Ceq "func2" 3; Ceq "sz" 2; Ceq "m" 0; Ceq "func1" 6; Ceq "form" 0]
    [SVs1; SVs2] [DVd] [] (SmVec (VPerm (PSliden false 4) I32) false false);
  (* coralnpu_shift.bin_fmt:199 coralnpu_shift.isa:546 *)
  E "vslidevn_b_1_vv_m" GShift FV2 [Ceq "func2" 0; Ceq "sz" 0; Ceq "m" 1; Ceq "func1" 6; Ceq "form" 0]
    [SVs1; SVs2] [DVd] [] (SmVec (VPerm (PSliden false 1) I8) false true);
  (* coralnpu_shift.bin_fmt:200 coralnpu_shift.isa:549 *)
  E "vslidevn_b_2_vv_m" GShift FV2 [Ceq "func2" 1; Ceq "sz" 0; Ceq "m" 1; Ceq "func1" 6; Ceq "form" 0]
    [SVs1; SVs2] [DVd] [] (SmVec (VPerm (PSliden false 2) I8) false true);
  (* coralnpu_shift.bin_fmt:201 coralnpu_shift.isa:552 *)
  E "vslidevn_b_3_vv_m" GShift FV2 [Ceq "func2" 2; Ceq "sz" 0; Ceq "m" 1; Ceq "func1" 6; Ceq "form" 0]
    [SVs1; SVs2] [DVd] [] (SmVec (VPerm (PSliden false 3) I8) false true);
  (* coralnpu_shift.bin_fmt:202 coralnpu_shift.isa:555 *)
  E "vslidevn_b_4_vv_m" GShift FV2 [Ceq "func2" 3; Ceq "sz" 0; Ceq "m" 1; Ceq "func1" 6; Ceq "form" 0]
    [SVs1; SVs2] [DVd] [] (SmVec (VPerm (PSliden false 4) I8) false true);
  (* coralnpu_shift.bin_fmt:203 coralnpu_shift.isa:558 *)
  E "vslidevn_h_1_vv_m" GShift FV2 [Ceq "func2" 0; Ceq "sz" 1; Ceq "m" 1; Ceq "func1" 6; Ceq "form" 0]
    [SVs1; SVs2] [DVd] [] (SmVec (VPerm (PSliden false 1) I16) false true);
  (* coralnpu_shift.bin_fmt:204 coralnpu_shift.isa:561 *)
  E "vslidevn_h_2_vv_m" GShift FV2 [Ceq "func2" 1; Ceq "sz" 1; Ceq "m" 1; Ceq "func1" 6; Ceq "form" 0]
    [SVs1; SVs2] [DVd] [] (SmVec (VPerm (PSliden false 2) I16) false true);
  (* coralnpu_shift.bin_fmt:205 coralnpu_shift.isa:564 *)
  E "vslidevn_h_3_vv_m" GShift FV2 [Ceq "func2" 2; Ceq "sz" 1; Ceq "m" 1; Ceq "func1" 6; Ceq "form" 0]
    [SVs1; SVs2] [DVd] [] (SmVec (VPerm (PSliden false 3) I16) false true);
  (* coralnpu_shift.bin_fmt:206 coralnpu_shift.isa:567 *)
  E "vslidevn_h_4_vv_m" GShift FV2 [Ceq "func2" 3; Ceq "sz" 1; Ceq "m" 1; Ceq "func1" 6; Ceq "form" 0]
    [SVs1; SVs2] [DVd] [] (SmVec (VPerm (PSliden false 4) I16) false true);
  (* coralnpu_shift.bin_fmt:207 coralnpu_shift.isa:570 *)
  E "vslidevn_w_1_vv_m" GShift FV2 [Ceq "func2" 0; Ceq "sz" 2; Ceq "m" 1; Ceq "func1" 6; Ceq "form" 0]
    [SVs1; SVs2] [DVd] [] (SmVec (VPerm (PSliden false 1) I32) false true);
  (* coralnpu_shift.bin_fmt:208 coralnpu_shift.isa:573 *)
  E "vslidevn_w_2_vv_m" GShift FV2 [Ceq "func2" 1; Ceq "sz" 2; Ceq "m" 1; Ceq "func1" 6; Ceq "form" 0]
    [SVs1; SVs2] [DVd] [] (SmVec (VPerm (PSliden false 2) I32) false true);
  (* coralnpu_shift.bin_fmt:209 coralnpu_shift.isa:576 *)
  E "vslidevn_w_3_vv_m" GShift FV2 [Ceq "func2" 2; Ceq "sz" 2; Ceq "m" 1; Ceq "func1" 6; Ceq "form" 0]
    [SVs1; SVs2] [DVd] [] (SmVec (VPerm (PSliden false 3) I32) false true);
  (* coralnpu_shift.bin_fmt:210 coralnpu_shift.isa:579 *)
  E "vslidevn_w_4_vv_m" GShift FV2 [Ceq "func2" 3; Ceq "sz" 2; Ceq "m" 1; Ceq "func1" 6; Ceq "form" 0]
    [SVs1; SVs2] [DVd] [] (SmVec (VPerm (PSliden false 4) I32) false true);
  (* coralnpu_shift.bin_fmt:213 coralnpu_shift.isa:584 *)
  E "vslidehn_b_1_vv_m" GShift FV2 [Ceq "func2" 4; Ceq "sz" 0; Ceq "m" 1; Ceq "func1" 6; Ceq "form" 0]
    [SVs1; SVs2] [DVd] [] (SmVec (VPerm (PSliden true 1) I8) false true);
  (* coralnpu_shift.bin_fmt:214 coralnpu_shift.isa:587 *)
  E "vslidehn_b_2_vv_m" GShift FV2 [Ceq "func2" 5; Ceq "sz" 0; Ceq "m" 1; Ceq "func1" 6; Ceq "form" 0]
    [SVs1; SVs2] [DVd] [] (SmVec (VPerm (PSliden true 2) I8) false true);
  (* coralnpu_shift.bin_fmt:215 coralnpu_shift.isa:590 *)
  E "vslidehn_b_3_vv_m" GShift FV2 [Ceq "func2" 6; Ceq "sz" 0; Ceq "m" 1; Ceq "func1" 6; Ceq "form" 0]
    [SVs1; SVs2] [DVd] [] (SmVec (VPerm (PSliden true 3) I8) false true);
  (* coralnpu_shift.bin_fmt:216 coralnpu_shift.isa:593 *)
  E "vslidehn_b_4_vv_m" GShift FV2 [Ceq "func2" 7; Ceq "sz" 0; Ceq "m" 1; Ceq "func1" 6; Ceq "form" 0]
    [SVs1; SVs2] [DVd] [] (SmVec (VPerm (PSliden true 4) I8) false true);
  (* coralnpu_shift.bin_fmt:217 coralnpu_shift.isa:596 *)
  E "vslidehn_h_1_vv_m" GShift FV2 [Ceq "func2" 4; Ceq "sz" 1; Ceq "m" 1; Ceq "func1" 6; Ceq "form" 0]
    [SVs1; SVs2] [DVd] [] (SmVec (VPerm (PSliden true 1) I16) false true);
  (* coralnpu_shift.bin_fmt:218 coralnpu_shift.isa:599 *)
  E "vslidehn_h_2_vv_m" GShift FV2 [Ceq "func2" 5; Ceq "sz" 1; Ceq "m" 1; Ceq "func1" 6; Ceq "form" 0]
    [SVs1; SVs2] [DVd] [] (SmVec (VPerm (PSliden true 2) I16) false true);
  (* coralnpu_shift.bin_fmt:219 coralnpu_shift.isa:602 *)
  E "vslidehn_h_3_vv_m" GShift FV2 [Ceq "func2" 6; Ceq "sz" 1; Ceq "m" 1; Ceq "func1" 6; Ceq "form" 0]
    [SVs1; SVs2] [DVd] [] (SmVec (VPerm (PSliden true 3) I16) false true);
  (* coralnpu_shift.bin_fmt:220 coralnpu_shift.isa:605 *)
  E "vslidehn_h_4_vv_m" GShift FV2 [Ceq "func2" 7; Ceq "sz" 1; Ceq "m" 1; Ceq "func1" 6; Ceq "form" 0]
    [SVs1; SVs2] [DVd] [] (SmVec (VPerm (PSliden true 4) I16) false true);
  (* coralnpu_shift.bin_fmt:221 coralnpu_shift.isa:608 *)
  E "vslidehn_w_1_vv_m" GShift FV2 [Ceq "func2" 4; Ceq "sz" 2; Ceq "m" 1; Ceq "func1" 6; Ceq "form" 0]
    [SVs1; SVs2] [DVd] [] (SmVec (VPerm (PSliden true 1) I32) false true);
  (* coralnpu_shift.bin_fmt:222 coralnpu_shift.isa:611 *)
  E "vslidehn_w_2_vv_m" GShift FV2 [Ceq "func2" 5; Ceq "sz" 2; Ceq "m" 1; Ceq "func1" 6; Ceq "form" 0]
    [SVs1; SVs2] [DVd] [] (SmVec (VPerm (PSliden true 2) I32) false true);
  (* coralnpu_shift.bin_fmt:223 coralnpu_shift.isa:614 *)
  E "vslidehn_w_3_vv_m" GShift FV2 [Ceq "func2" 6; Ceq "sz" 2; Ceq "m" 1; Ceq "func1" 6; Ceq "form" 0]
    [SVs1; SVs2] [DVd] [] (SmVec (VPerm (PSliden true 3) I32) false true);
  (* coralnpu_shift.bin_fmt:224 coralnpu_shift.isa:617 *)
  E "vslidehn_w_4_vv_m" GShift FV2 [Ceq "func2" 7; Ceq "sz" 2; Ceq "m" 1; Ceq "func1" 6; Ceq "form" 0]
    [SVs1; SVs2] [DVd] [] (SmVec (VPerm (PSliden true 4) I32) false true);
  (* coralnpu_shift.bin_fmt:227 coralnpu_shift.isa:622 *)
  E "vslidep_b_1_vv" GShift FV2 [Ceq "func2" 8; Ceq "sz" 0; Ceq "m" 0; Ceq "func1" 6; Ceq "form" 0]
    [SVs1; SVs2] [DVd] [] (SmVec (VPerm (PSlidep false 1) I8) false false);
  (* coralnpu_shift.bin_fmt:228 coralnpu_shift.isa:625 *)
  E "vslidep_b_2_vv" GShift FV2 [Ceq "func2" 9; Ceq "sz" 0; Ceq "m" 0; Ceq "func1" 6; Ceq "form" 0]
    [SVs1; SVs2] [DVd] [] (SmVec (VPerm (PSlidep false 2) I8) false false);
  (* coralnpu_shift.bin_fmt:229 coralnpu_shift.isa:628 *)
  E "vslidep_b_3_vv" GShift FV2 [Ceq "func2" 10; Ceq "sz" 0; Ceq "m" 0; Ceq "func1" 6; Ceq "form" 0]
    [SVs1; SVs2] [DVd] [] (SmVec (VPerm (PSlidep false 3) I8) false false);
  (* coralnpu_shift.bin_fmt:230 coralnpu_shift.isa:631 *)
  E "vslidep_b_4_vv" GShift FV2 [Ceq "func2" 11; Ceq "sz" 0; Ceq "m" 0; Ceq "func1" 6; Ceq "form" 0]
    [SVs1; SVs2] [DVd] [] (SmVec (VPerm (PSlidep false 4) I8) false false);
  (* coralnpu_shift.bin_fmt:231 coralnpu_shift.isa:634 *)
  E "vslidep_h_1_vv" GShift FV2 [Ceq "func2" 8; Ceq "sz" 1; Ceq "m" 0; Ceq "func1" 6; Ceq "form" 0]
    [SVs1; SVs2] [DVd] [] (SmVec (VPerm (PSlidep false 1) I16) false false);
  (* coralnpu_shift.bin_fmt:232 coralnpu_shift.isa:637 *)
  E "vslidep_h_2_vv" GShift FV2 [Ceq "func2" 9; Ceq "sz" 1; Ceq "m" 0; Ceq "func1" 6; Ceq "form" 0]
    [SVs1; SVs2] [DVd] [] (SmVec (VPerm (PSlidep false 2) I16) false false);
  (* coralnpu_shift.bin_fmt:233 coralnpu_shift.isa:640 *)
  E "vslidep_h_3_vv" GShift FV2 [Ceq "func2" 10; Ceq "sz" 1; Ceq "m" 0; Ceq "func1" 6; Ceq "form" 0]
    [SVs1; SVs2] [DVd] [] (SmVec (VPerm (PSlidep false 3) I16) false false);
  (* coralnpu_shift.bin_fmt:234 coralnpu_shift.isa:643 *)
  E "vslidep_h_4_vv" GShift FV2 [Ceq "func2" 11; Ceq "sz" 1; Ceq "m" 0; Ceq "func1" 6; Ceq "form" 0]
    [SVs1; SVs2] [DVd] [] (SmVec (VPerm (PSlidep false 4) I16) false false);
  (* coralnpu_shift.bin_fmt:235 coralnpu_shift.isa:646 *)
  E "vslidep_w_1_vv" GShift FV2 [Ceq "func2" 8; Ceq "sz" 2; Ceq "m" 0; Ceq "func1" 6; Ceq "form" 0]
    [SVs1; SVs2] [DVd] [] (SmVec (VPerm (PSlidep false 1) I32) false false);
  (* coralnpu_shift.bin_fmt:236 coralnpu_shift.isa:649 *)
  E "vslidep_w_2_vv" GShift FV2 [Ceq "func2" 9; Ceq "sz" 2; Ceq "m" 0; Ceq "func1" 6; Ceq "form" 0]
    [SVs1; SVs2] [DVd] [] (SmVec (VPerm (PSlidep false 2) I32) false false);
  (* coralnpu_shift.bin_fmt:237 coralnpu_shift.isa:652 *)
  E "vslidep_w_3_vv" GShift FV2 [Ceq "func2" 10; Ceq "sz" 2; Ceq "m" 0; Ceq "func1" 6; Ceq "form" 0]
    [SVs1; SVs2] [DVd] [] (SmVec (VPerm (PSlidep false 3) I32) false false);
  (* coralnpu_shift.bin_fmt:238 coralnpu_shift.isa:655 *)
  E "vslidep_w_4_vv" GShift FV2 [Ceq "func2" 11; Ceq "sz" 2; Ceq "m" 0; Ceq "func1" 6; Ceq "form" 0]
    [SVs1; SVs2] [DVd] [] (SmVec (VPerm (PSlidep false 4) I32) false false);
  (* coralnpu_shift.bin_fmt:239 coralnpu_shift.isa:658 *)
  E "vslidevp_b_1_vv_m" GShift FV2 [Ceq "func2" 8; Ceq "sz" 0; Ceq "m" 1; Ceq "func1" 6; Ceq "form" 0]
    [SVs1; SVs2] [DVd] [] (SmVec (VPerm (PSlidep false 1) I8) false true);
  (* coralnpu_shift.bin_fmt:240 coralnpu_shift.isa:661 *)
  E "vslidevp_b_2_vv_m" GShift FV2 [Ceq "func2" 9; Ceq "sz" 0; Ceq "m" 1; Ceq "func1" 6; Ceq "form" 0]
    [SVs1; SVs2] [DVd] [] (SmVec (VPerm (PSlidep false 2) I8) false true);
  (* coralnpu_shift.bin_fmt:241 coralnpu_shift.isa:664 *)
  E "vslidevp_b_3_vv_m" GShift FV2 [Ceq "func2" 10; Ceq "sz" 0; Ceq "m" 1; Ceq "func1" 6; Ceq "form" 0]
    [SVs1; SVs2] [DVd] [] (SmVec (VPerm (PSlidep false 3) I8) false true);
  (* coralnpu_shift.bin_fmt:242 coralnpu_shift.isa:667 *)
  E "vslidevp_b_4_vv_m" GShift FV2 [Ceq "func2" 11; Ceq "sz" 0; Ceq "m" 1; Ceq "func1" 6; Ceq "form" 0]
    [SVs1; SVs2] [DVd] [] (SmVec (VPerm (PSlidep false 4) I8) false true);
  (* coralnpu_shift.bin_fmt:243 coralnpu_shift.isa:670 *)
  E "vslidevp_h_1_vv_m" GShift FV2 [Ceq "func2" 8; Ceq "sz" 1; Ceq "m" 1; Ceq "func1" 6; Ceq "form" 0]
    [SVs1; SVs2] [DVd] [] (SmVec (VPerm (PSlidep false 1) I16) false true);
  (* coralnpu_shift.bin_fmt:244 coralnpu_shift.isa:673 *)
  E "vslidevp_h_2_vv_m" GShift FV2 [Ceq "func2" 9; Ceq "sz" 1; Ceq "m" 1; Ceq "func1" 6; Ceq "form" 0]
    [SVs1; SVs2] [DVd] [] (SmVec (VPerm (PSlidep false 2) I16) false true);
  (* coralnpu_shift.bin_fmt:245 coralnpu_shift.isa:676 *)
  E "vslidevp_h_3_vv_m" GShift FV2 [Ceq "func2" 10; Ceq "sz" 1; Ceq "m" 1; Ceq "func1" 6; Ceq "form" 0]
    [SVs1; SVs2] [DVd] [] (SmVec (VPerm (PSlidep false 3) I16) false true);
  (* coralnpu_shift.bin_fmt:246 coralnpu_shift.isa:679 *)
  E "vslidevp_h_4_vv_m" GShift FV2 [Ceq "func2" 11; Ceq "sz" 1; Ceq "m" 1; Ceq "func1" 6; Ceq "form" 0]
    [SVs1; SVs2] [DVd] [] (SmVec (VPerm (PSlidep false 4) I16) false true);
  (* coralnpu_shift.bin_fmt:247 coralnpu_shift.isa:682 *)
  E "vslidevp_w_1_vv_m" GShift FV2 [Ceq "func2" 8; Ceq "sz" 2; Ceq "m" 1; Ceq "func1" 6; Ceq "form" 0]
    [SVs1; SVs2] [DVd] [] (SmVec (VPerm (PSlidep false 1) I32) false true);
  (* coralnpu_shift.bin_fmt:248 coralnpu_shift.isa:685 *)
  E "vslidevp_w_2_vv_m" GShift FV2 [Ceq "func2" 9; Ceq "sz" 2; Ceq "m" 1; Ceq "func1" 6; Ceq "form" 0]
    [SVs1; SVs2] [DVd] [] (SmVec (VPerm (PSlidep false 2) I32) false true);
  (* coralnpu_shift.bin_fmt:249 coralnpu_shift.isa:688 *)
  E "vslidevp_w_3_vv_m" GShift FV2 [Ceq "func2" 10; Ceq "sz" 2; Ceq "m" 1; Ceq "func1" 6; Ceq "form" 0]
    [SVs1; SVs2] [DVd] [] (SmVec (VPerm (PSlidep false 3) I32) false true);
  (* coralnpu_shift.bin_fmt:250 coralnpu_shift.isa:691 *)
  E "vslidevp_w_4_vv_m" GShift FV2 [Ceq "func2" 11; Ceq "sz" 2; Ceq "m" 1; Ceq "func1" 6; Ceq "form" 0]
    [SVs1; SVs2] [DVd] [] (SmVec (VPerm (PSlidep false 4) I32) false true);
  (* coralnpu_shift.bin_fmt:253 coralnpu_shift.isa:696 *)
  E "vslidehp_b_1_vv_m" GShift FV2 [Ceq "func2" 12; Ceq "sz" 0; Ceq "m" 1; Ceq "func1" 6; Ceq "form" 0]
    [SVs1; SVs2] [DVd] [] (SmVec (VPerm (PSlidep true 1) I8) false true);
  (* coralnpu_shift.bin_fmt:254 coralnpu_shift.isa:699 *)
  E "vslidehp_b_2_vv_m" GShift FV2 [Ceq "func2" 13; Ceq "sz" 0; Ceq "m" 1; Ceq "func1" 6; Ceq "form" 0]
    [SVs1; SVs2] [DVd] [] (SmVec (VPerm (PSlidep true 2) I8) false true);
  (* coralnpu_shift.bin_fmt:255 coralnpu_shift.isa:702 *)
  E "vslidehp_b_3_vv_m" GShift FV2 [Ceq "func2" 14; Ceq "sz" 0; Ceq "m" 1; Ceq "func1" 6; Ceq "form" 0]
    [SVs1; SVs2] [DVd] [] (SmVec (VPerm (PSlidep true 3) I8) false true);
  (* coralnpu_shift.bin_fmt:256 coralnpu_shift.isa:705 *)
  E "vslidehp_b_4_vv_m" GShift FV2 [Ceq "func2" 15; Ceq "sz" 0; Ceq "m" 1; Ceq "func1" 6; Ceq "form" 0]
    [SVs1; SVs2] [DVd] [] (SmVec (VPerm (PSlidep true 4) I8) false true);
  (* coralnpu_shift.bin_fmt:257 coralnpu_shift.isa:708 *)
  E "vslidehp_h_1_vv_m" GShift FV2 [Ceq "func2" 12; Ceq "sz" 1; Ceq "m" 1; Ceq "func1" 6; Ceq "form" 0]
    [SVs1; SVs2] [DVd] [] (SmVec (VPerm (PSlidep true 1) I16) false true);
  (* coralnpu_shift.bin_fmt:258 coralnpu_shift.isa:711 *)
  E "vslidehp_h_2_vv_m" GShift FV2 [Ceq "func2" 13; Ceq "sz" 1; Ceq "m" 1; Ceq "func1" 6; Ceq "form" 0]
    [SVs1; SVs2] [DVd] [] (SmVec (VPerm (PSlidep true 2) I16) false true);
  (* coralnpu_shift.bin_fmt:259 coralnpu_shift.isa:714 *)
  E "vslidehp_h_3_vv_m" GShift FV2 [Ceq "func2" 14; Ceq "sz" 1; Ceq "m" 1; Ceq "func1" 6; Ceq "form" 0]
    [SVs1; SVs2] [DVd] [] (SmVec (VPerm (PSlidep true 3) I16) false true);
  (* coralnpu_shift.bin_fmt:260 coralnpu_shift.isa:717 *)
  E "vslidehp_h_4_vv_m" GShift FV2 [Ceq "func2" 15; Ceq "sz" 1; Ceq "m" 1; Ceq "func1" 6; Ceq "form" 0]
    [SVs1; SVs2] [DVd] [] (SmVec (VPerm (PSlidep true 4) I16) false true);
  (* coralnpu_shift.bin_fmt:261 coralnpu_shift.isa:720 *)
  E "vslidehp_w_1_vv_m" GShift FV2 [Ceq "func2" 12; Ceq "sz" 2; Ceq "m" 1; Ceq "func1" 6; Ceq "form" 0]
    [SVs1; SVs2] [DVd] [] (SmVec (VPerm (PSlidep true 1) I32) false true);
  (* coralnpu_shift.bin_fmt:262 coralnpu_shift.isa:723 *)
  E "vslidehp_w_2_vv_m" GShift FV2 [Ceq "func2" 13; Ceq "sz" 2; Ceq "m" 1; Ceq "func1" 6; Ceq "form" 0]
    [SVs1; SVs2] [DVd] [] (SmVec (VPerm (PSlidep true 2) I32) false true);
  (* coralnpu_shift.bin_fmt:263 coralnpu_shift.isa:726 *)
  E "vslidehp_w_3_vv_m" GShift FV2 [Ceq "func2" 14; Ceq "sz" 2; Ceq "m" 1; Ceq "func1" 6; Ceq "form" 0]
    [SVs1; SVs2] [DVd] [] (SmVec (VPerm (PSlidep true 3) I32) false true);
  (* coralnpu_shift.bin_fmt:264 coralnpu_shift.isa:729 *)
  E "vslidehp_w_4_vv_m" GShift FV2 [Ceq "func2" 15; Ceq "sz" 2; Ceq "m" 1; Ceq "func1" 6; Ceq "form" 0]
    [SVs1; SVs2] [DVd] [] (SmVec (VPerm (PSlidep true 4) I32) false true);
  (* coralnpu_shift.bin_fmt:267 coralnpu_shift.isa:734 *)
  E "vsel_b_vv" GShift FV2 [Ceq "func2" 16; Ceq "sz" 0; Ceq "m" 0; Ceq "func1" 6; Ceq "form" 0]
    [SVs1; SVs2; SVd] [DVd] [] (SmVec (VEl OSel I8) false false);
  (* coralnpu_shift.bin_fmt:268 coralnpu_shift.isa:752 *)
  E "vsel_b_vx" GShift FV2 [Ceq "func2" 16; Ceq "sz" 0; Ceq "m" 0; Ceq "func1" 6; Ceq "form" 2]
    [SVs1; SVs2; SVd] [DVd] [] (SmVec (VEl OSel I8) true false);
  (* coralnpu_shift.bin_fmt:269 coralnpu_shift.isa:737 *)
  E "vsel_b_vv_m" GShift FV2 [Ceq "func2" 16; Ceq "sz" 0; Ceq "m" 1; Ceq "func1" 6; Ceq "form" 0]
    [SVs1; SVs2; SVd] [DVd] [] (SmVec (VEl OSel I8) false true);
  (* coralnpu_shift.bin_fmt:270 coralnpu_shift.isa:755 *)
  E "vsel_b_vx_m" GShift FV2 [Ceq "func2" 16; Ceq "sz" 0; Ceq "m" 1; Ceq "func1" 6; Ceq "form" 2]
    [SVs1; SVs2; SVd] [DVd] [] (SmVec (VEl OSel I8) true true);
  (* coralnpu_shift.bin_fmt:271 coralnpu_shift.isa:740 *)
  E "vsel_h_vv" GShift FV2 [Ceq "func2" 16; Ceq "sz" 1; Ceq "m" 0; Ceq "func1" 6; Ceq "form" 0]
    [SVs1; SVs2; SVd] [DVd] [] (SmVec (VEl OSel I16) false false);
  (* coralnpu_shift.bin_fmt:272 coralnpu_shift.isa:758 *)
  E "vsel_h_vx" GShift FV2 [Ceq "func2" 16; Ceq "sz" 1; Ceq "m" 0; Ceq "func1" 6; Ceq "form" 2]
    [SVs1; SVs2; SVd] [DVd] [] (SmVec (VEl OSel I16) true false);
  (* coralnpu_shift.bin_fmt:273 coralnpu_shift.isa:743 *)
  E "vsel_h_vv_m" GShift FV2 [Ceq "func2" 16; Ceq "sz" 1; Ceq "m" 1; Ceq "func1" 6; Ceq "form" 0]
    [SVs1; SVs2; SVd] [DVd] [] (SmVec (VEl OSel I16) false true);
  (* coralnpu_shift.bin_fmt:274 coralnpu_shift.isa:761 *)
  E "vsel_h_vx_m" GShift FV2 [Ceq "func2" 16; Ceq "sz" 1; Ceq "m" 1; Ceq "func1" 6; Ceq "form" 2]
    [SVs1; SVs2; SVd] [DVd] [] (SmVec (VEl OSel I16) true true);
  (* coralnpu_shift.bin_fmt:275 coralnpu_shift.isa:746 *)
  E "vsel_w_vv" GShift FV2 [Ceq "func2" 16; Ceq "sz" 2; Ceq "m" 0; Ceq "func1" 6; Ceq "form" 0]
    [SVs1; SVs2; SVd] [DVd] [] (SmVec (VEl OSel I32) false false);
  (* coralnpu_shift.bin_fmt:276 coralnpu_shift.isa:764 *)
  E "vsel_w_vx" GShift FV2 [Ceq "func2" 16; Ceq "sz" 2; Ceq "m" 0; Ceq "func1" 6; Ceq "form" 2]
    [SVs1; SVs2; SVd] [DVd] [] (SmVec (VEl OSel I32) true false);
  (* coralnpu_shift.bin_fmt:277 coralnpu_shift.isa:749 *)
  E "vsel_w_vv_m" GShift FV2 [Ceq "func2" 16; Ceq "sz" 2; Ceq "m" 1; Ceq "func1" 6; Ceq "form" 0]
    [SVs1; SVs2; SVd] [DVd] [] (SmVec (VEl OSel I32) false true);
  (* coralnpu_shift.bin_fmt:278 coralnpu_shift.isa:767 *)
  E "vsel_w_vx_m" GShift FV2 [Ceq "func2" 16; Ceq "sz" 2; Ceq "m" 1; Ceq "func1" 6; Ceq "form" 2]
    [SVs1; SVs2; SVd] [DVd] [] (SmVec (VEl OSel I32) true true);
  (* coralnpu_shift.bin_fmt:281 coralnpu_shift.isa:772 *)
  E "vevn_b_vv" GShift FV2 [Ceq "func2" 24; Ceq "sz" 0; Ceq "m" 0; Ceq "func1" 6; Ceq "form" 0]
    [SVs1; SVs2] [DVd] [] (SmVec (VPerm PEvn I8) false false);
  (* coralnpu_shift.bin_fmt:282 coralnpu_shift.isa:790 *)
  E "vevn_b_vx" GShift FV2 [Ceq "func2" 24; Ceq "sz" 0; Ceq "m" 0; Ceq "func1" 6; Ceq "form" 2]
    [SVs1; SVs2] [DVd] [] (SmVec (VPerm PEvn I8) true false);
  (* coralnpu_shift.bin_fmt:283 coralnpu_shift.isa:775 *)
  E "vevn_b_vv_m" GShift FV2 [Ceq "func2" 24; Ceq "sz" 0; Ceq "m" 1; Ceq "func1" 6; Ceq "form" 0]
    [SVs1; SVs2] [DVd] [] (SmVec (VPerm PEvn I8) false true);
  (* coralnpu_shift.bin_fmt:284 coralnpu_shift.isa:793 *)
  E "vevn_b_vx_m" GShift FV2 [Ceq "func2" 24; Ceq "sz" 0; Ceq "m" 1; Ceq "func1" 6; Ceq "form" 2]
    [SVs1; SVs2] [DVd] [] (SmVec (VPerm PEvn I8) true true);
  (* coralnpu_shift.bin_fmt:285 coralnpu_shift.isa:778 *)
  E "vevn_h_vv" GShift FV2 [Ceq "func2" 24; Ceq "sz" 1; Ceq "m" 0; Ceq "func1" 6; Ceq "form" 0]
    [SVs1; SVs2] [DVd] [] (SmVec (VPerm PEvn I16) false false);
  (* coralnpu_shift.bin_fmt:286 coralnpu_shift.isa:796 *)
  E "vevn_h_vx" GShift FV2 [Ceq "func2" 24; Ceq "sz" 1; Ceq "m" 0; Ceq "func1" 6; Ceq "form" 2]
    [SVs1; SVs2] [DVd] [] (SmVec (VPerm PEvn I16) true false);
  (* coralnpu_shift.bin_fmt:287 coralnpu_shift.isa:781 *)
  E "vevn_h_vv_m" GShift FV2 [Ceq "func2" 24; Ceq "sz" 1; Ceq "m" 1; Ceq "func1" 6; Ceq "form" 0]
    [SVs1; SVs2] [DVd] [] (SmVec (VPerm PEvn I16) false true);
  (* coralnpu_shift.bin_fmt:288 coralnpu_shift.isa:799 *)
  E "vevn_h_vx_m" GShift FV2 [Ceq "func2" 24; Ceq "sz" 1; Ceq "m" 1; Ceq "func1" 6; Ceq "form" 2]
    [SVs1; SVs2] [DVd] [] (SmVec (VPerm PEvn I16) true true);
  (* coralnpu_shift.bin_fmt:289 coralnpu_shift.isa:784 *)
  E "vevn_w_vv" GShift FV2 [Ceq "func2" 24; Ceq "sz" 2; Ceq "m" 0; Ceq "func1" 6; Ceq "form" 0]
    [SVs1; SVs2] [DVd] [] (SmVec (VPerm PEvn I32) false false);
  (* coralnpu_shift.bin_fmt:290 coralnpu_shift.isa:802 *)
  E "vevn_w_vx" GShift FV2 [Ceq "func2" 24; Ceq "sz" 2; Ceq "m" 0; Ceq "func1" 6; Ceq "form" 2]
    [SVs1; SVs2] [DVd] [] (SmVec (VPerm PEvn I32) true false);
  (* coralnpu_shift.bin_fmt:291 coralnpu_shift.isa:787 *)
  E "vevn_w_vv_m" GShift FV2 [Ceq "func2" 24; Ceq "sz" 2; Ceq "m" 1; Ceq "func1" 6; Ceq "form" 0]
    [SVs1; SVs2] [DVd] [] (SmVec (VPerm PEvn I32) false true);
  (* coralnpu_shift.bin_fmt:292 coralnpu_shift.isa:805 *)
  E "vevn_w_vx_m" GShift FV2 [Ceq "func2" 24; Ceq "sz" 2; Ceq "m" 1; Ceq "func1" 6; Ceq "form" 2]
    [SVs1; SVs2] [DVd] [] (SmVec (VPerm PEvn I32) true true);
  (* coralnpu_shift.bin_fmt:295 coralnpu_shift.isa:810 *)
  E "vodd_b_vv" GShift FV2 [Ceq "func2" 25; Ceq "sz" 0; Ceq "m" 0; Ceq "func1" 6; Ceq "form" 0]
    [SVs1; SVs2] [DVd] [] (SmVec (VPerm POdd I8) false false);
  (* coralnpu_shift.bin_fmt:296 coralnpu_shift.isa:828 *)
  E "vodd_b_vx" GShift FV2 [Ceq "func2" 25; Ceq "sz" 0; Ceq "m" 0; Ceq "func1" 6; Ceq "form" 2]
    [SVs1; SVs2] [DVd] [] (SmVec (VPerm POdd I8) true false);
  (* coralnpu_shift.bin_fmt:297 coralnpu_shift.isa:813 *)
  E "vodd_b_vv_m" GShift FV2 [Ceq "func2" 25; Ceq "sz" 0; Ceq "m" 1; Ceq "func1" 6; Ceq "form" 0]
    [SVs1; SVs2] [DVd] [] (SmVec (VPerm POdd I8) false true);
  (* coralnpu_shift.bin_fmt:298 coralnpu_shift.isa:831 *)
  E "vodd_b_vx_m" GShift FV2 [Ceq "func2" 25; Ceq "sz" 0; Ceq "m" 1; Ceq "func1" 6; Ceq "form" 2]
    [SVs1; SVs2] [DVd] [] (SmVec (VPerm POdd I8) true true);
  (* coralnpu_shift.bin_fmt:299 coralnpu_shift.isa:816 *)
  E "vodd_h_vv" GShift FV2 [Ceq "func2" 25; Ceq "sz" 1; Ceq "m" 0; Ceq "func1" 6; Ceq "form" 0]
    [SVs1; SVs2] [DVd] [] (SmVec (VPerm POdd I16) false false);
  (* coralnpu_shift.bin_fmt:300 coralnpu_shift.isa:834 *)
  E "vodd_h_vx" GShift FV2 [Ceq "func2" 25; Ceq "sz" 1; Ceq "m" 0; Ceq "func1" 6; Ceq "form" 2]
    [SVs1; SVs2] [DVd] [] (SmVec (VPerm POdd I16) true false);
  (* coralnpu_shift.bin_fmt:301 coralnpu_shift.isa:819 *)
  E "vodd_h_vv_m" GShift FV2 [Ceq "func2" 25; Ceq "sz" 1; Ceq "m" 1; Ceq "func1" 6; Ceq "form" 0]
    [SVs1; SVs2] [DVd] [] (SmVec (VPerm POdd I16) false true);
  (* coralnpu_shift.bin_fmt:302 coralnpu_shift.isa:837 *)
  E "vodd_h_vx_m" GShift FV2 [Ceq "func2" 25; Ceq "sz" 1; Ceq "m" 1; Ceq "func1" 6; Ceq "form" 2]
    [SVs1; SVs2] [DVd] [] (SmVec (VPerm POdd I16) true true);
  (* coralnpu_shift.bin_fmt:303 coralnpu_shift.isa:822 *)
  E "vodd_w_vv" GShift FV2 [Ceq "func2" 25; Ceq "sz" 2; Ceq "m" 0; Ceq "func1" 6; Ceq "form" 0]
    [SVs1; SVs2] [DVd] [] (SmVec (VPerm POdd I32) false false);
  (* coralnpu_shift.bin_fmt:304 coralnpu_shift.isa:840 *)
  E "vodd_w_vx" GShift FV2 [Ceq "func2" 25; Ceq "sz" 2; Ceq "m" 0; Ceq "func1" 6; Ceq "form" 2]
    [SVs1; SVs2] [DVd] [] (SmVec (VPerm POdd I32) true false);
  (* coralnpu_shift.bin_fmt:305 coralnpu_shift.isa:825 *)
  E "vodd_w_vv_m" GShift FV2 [Ceq "func2" 25; Ceq "sz" 2; Ceq "m" 1; Ceq "func1" 6; Ceq "form" 0]
    [SVs1; SVs2] [DVd] [] (SmVec (VPerm POdd I32) false true);
  (* coralnpu_shift.bin_fmt:306 coralnpu_shift.isa:843 *)
  E "vodd_w_vx_m" GShift FV2 [Ceq "func2" 25; Ceq "sz" 2; Ceq "m" 1; Ceq "func1" 6; Ceq "form" 2]
    [SVs1; SVs2] [DVd] [] (SmVec (VPerm POdd I32) true true);
  (* coralnpu_shift.bin_fmt:309 coralnpu_shift.isa:848 *)
  E "vevnodd_b_vv" GShift FV2 [Ceq "func2" 26; Ceq "sz" 0; Ceq "m" 0; Ceq "func1" 6; Ceq "form" 0]
    [SVs1; SVs2] [DVd] [] (SmVec (VPerm PEvnodd I8) false false);
  (* coralnpu_shift.bin_fmt:310 coralnpu_shift.isa:866 *)
  E "vevnodd_b_vx" GShift FV2 [Ceq "func2" 26; Ceq "sz" 0; Ceq "m" 0; Ceq "func1" 6; Ceq "form" 2]
    [SVs1; SVs2] [DVd] [] (SmVec (VPerm PEvnodd I8) true false);
  (* coralnpu_shift.bin_fmt:311 coralnpu_shift.isa:851 *)
  E "vevnodd_b_vv_m" GShift FV2 [Ceq "func2" 26; Ceq "sz" 0; Ceq "m" 1; Ceq "func1" 6; Ceq "form" 0]
    [SVs1; SVs2] [DVd] [] (SmVec (VPerm PEvnodd I8) false true);
  (* coralnpu_shift.bin_fmt:312 coralnpu_shift.isa:869 *)
  E "vevnodd_b_vx_m" GShift FV2 [Ceq "func2" 26; Ceq "sz" 0; Ceq "m" 1; Ceq "func1" 6; Ceq "form" 2]
    [SVs1; SVs2] [DVd] [] (SmVec (VPerm PEvnodd I8) true true);
  (* coralnpu_shift.bin_fmt:313 coralnpu_shift.isa:854 *)
  E "vevnodd_h_vv" GShift FV2 [Ceq "func2" 26; Ceq "sz" 1; Ceq "m" 0; Ceq "func1" 6; Ceq "form" 0]
    [SVs1; SVs2] [DVd] [] (SmVec (VPerm PEvnodd I16) false false);
  (* coralnpu_shift.bin_fmt:314 coralnpu_shift.isa:872 *)
  E "vevnodd_h_vx" GShift FV2 [Ceq "func2" 26; Ceq "sz" 1; Ceq "m" 0; Ceq "func1" 6; Ceq "form" 2]
    [SVs1; SVs2] [DVd] [] (SmVec (VPerm PEvnodd I16) true false);
  (* coralnpu_shift.bin_fmt:315 coralnpu_shift.isa:857 *)
  E "vevnodd_h_vv_m" GShift FV2 [Ceq "func2" 26; Ceq "sz" 1; Ceq "m" 1; Ceq "func1" 6; Ceq "form" 0]
    [SVs1; SVs2] [DVd] [] (SmVec (VPerm PEvnodd I16) false true);
  (* coralnpu_shift.bin_fmt:316 coralnpu_shift.isa:875 *)
  E "vevnodd_h_vx_m" GShift FV2 [Ceq "func2" 26; Ceq "sz" 1; Ceq "m" 1; Ceq "func1" 6; Ceq "form" 2]
    [SVs1; SVs2] [DVd] [] (SmVec (VPerm PEvnodd I16) true true);
  (* coralnpu_shift.bin_fmt:317 coralnpu_shift.isa:860 *)
  E "vevnodd_w_vv" GShift FV2 [Ceq "func2" 26; Ceq "sz" 2; Ceq "m" 0; Ceq "func1" 6; Ceq "form" 0]
    [SVs1; SVs2] [DVd] [] (SmVec (VPerm PEvnodd I32) false false);
  (* coralnpu_shift.bin_fmt:318 coralnpu_shift.isa:878 *)
  E "vevnodd_w_vx" GShift FV2 [Ceq "func2" 26; Ceq "sz" 2; Ceq "m" 0; Ceq "func1" 6; Ceq "form" 2]
    [SVs1; SVs2] [DVd] [] (SmVec (VPerm PEvnodd I32) true false);
  (* coralnpu_shift.bin_fmt:319 coralnpu_shift.isa:863 *)
  E "vevnodd_w_vv_m" GShift FV2 [Ceq "func2" 26; Ceq "sz" 2; Ceq "m" 1; Ceq "func1" 6; Ceq "form" 0]
    [SVs1; SVs2] [DVd] [] (SmVec (VPerm PEvnodd I32) false true);
  (* coralnpu_shift.bin_fmt:320 coralnpu_shift.isa:881 *)
  E "vevnodd_w_vx_m" GShift FV2 [Ceq "func2" 26; Ceq "sz" 2; Ceq "m" 1; Ceq "func1" 6; Ceq "form" 2]
    [SVs1; SVs2] [DVd] [] (SmVec (VPerm PEvnodd I32) true true);
  (* coralnpu_shift.bin_fmt:323 coralnpu_shift.isa:886 *)
  E "vzip_b_vv" GShift FV2 [Ceq "func2" 28; Ceq "sz" 0; Ceq "m" 0; Ceq "func1" 6; Ceq "form" 0]
    [SVs1; SVs2] [DVd] [] (SmVec (VPerm PZip I8) false false);
  (* coralnpu_shift.bin_fmt:324 coralnpu_shift.isa:904 *)
  E "vzip_b_vx" GShift FV2 [Ceq "func2" 28; Ceq "sz" 0; Ceq "m" 0; Ceq "func1" 6; Ceq "form" 2]
    [SVs1; SVs2] [DVd] [] (SmVec (VPerm PZip I8) true false);
  (* coralnpu_shift.bin_fmt:325 coralnpu_shift.isa:889 *)
  E "vzip_b_vv_m" GShift FV2 [Ceq "func2" 28; Ceq "sz" 0; Ceq "m" 1; Ceq "func1" 6; Ceq "form" 0]
    [SVs1; SVs2] [DVd] [] (SmVec (VPerm PZip I8) false true);
  (* coralnpu_shift.bin_fmt:326 coralnpu_shift.isa:907 *)
  E "vzip_b_vx_m" GShift FV2 [Ceq "func2" 28; Ceq "sz" 0; Ceq "m" 1; Ceq "func1" 6; Ceq "form" 2]
    [SVs1; SVs2] [DVd] [] (SmVec (VPerm PZip I8) true true);
  (* coralnpu_shift.bin_fmt:327 coralnpu_shift.isa:892 *)
  E "vzip_h_vv" GShift FV2 [Ceq "func2" 28; Ceq "sz" 1; Ceq "m" 0; Ceq "func1" 6; Ceq "form" 0]
    [SVs1; SVs2] [DVd] [] (SmVec (VPerm PZip I16) false false);
  (* coralnpu_shift.bin_fmt:328 coralnpu_shift.isa:910 *)
  E "vzip_h_vx" GShift FV2 [Ceq "func2" 28; Ceq "sz" 1; Ceq "m" 0; Ceq "func1" 6; Ceq "form" 2]
    [SVs1; SVs2] [DVd] [] (SmVec (VPerm PZip I16) true false);
  (* coralnpu_shift.bin_fmt:329 coralnpu_shift.isa:895 *)
  E "vzip_h_vv_m" GShift FV2 [Ceq "func2" 28; Ceq "sz" 1; Ceq "m" 1; Ceq "func1" 6; Ceq "form" 0]
    [SVs1; SVs2] [DVd] [] (SmVec (VPerm PZip I16) false true);
  (* coralnpu_shift.bin_fmt:330 coralnpu_shift.isa:913 *)
  E "vzip_h_vx_m" GShift FV2 [Ceq "func2" 28; Ceq "sz" 1; Ceq "m" 1; Ceq "func1" 6; Ceq "form" 2]
    [SVs1; SVs2] [DVd] [] (SmVec (VPerm PZip I16) true true);
  (* coralnpu_shift.bin_fmt:331 coralnpu_shift.isa:898 *)
  E "vzip_w_vv" GShift FV2 [Ceq "func2" 28; Ceq "sz" 2; Ceq "m" 0; Ceq "func1" 6; Ceq "form" 0]
    [SVs1; SVs2] [DVd] [] (SmVec (VPerm PZip I32) false false);
  (* coralnpu_shift.bin_fmt:332 coralnpu_shift.isa:916 *)
  E "vzip_w_vx" GShift FV2 [Ceq "func2" 28; Ceq "sz" 2; Ceq "m" 0; Ceq "func1" 6; Ceq "form" 2]
    [SVs1; SVs2] [DVd] [] (SmVec (VPerm PZip I32) true false);
  (* coralnpu_shift.bin_fmt:333 coralnpu_shift.isa:901 *)
  E "vzip_w_vv_m" GShift FV2 [Ceq "func2" 28; Ceq "sz" 2; Ceq "m" 1; Ceq "func1" 6; Ceq "form" 0]
    [SVs1; SVs2] [DVd] [] (SmVec (VPerm PZip I32) false true);
  (* coralnpu_shift.bin_fmt:334 coralnpu_shift.isa:919 *)
  E "vzip_w_vx_m" GShift FV2 [Ceq "func2" 28; Ceq "sz" 2; Ceq "m" 1; Ceq "func1" 6; Ceq "form" 2]
    [SVs1; SVs2] [DVd] [] (SmVec (VPerm PZip I32) true true)
].
