(** * The V2 instruction tables

    Generated by /verif/tools/gen_v2.py; do not edit.  Formats and one row per
    encoding, with the lines of /repo/sim/coralnpu_v2.bin_fmt and
    /repo/sim/coralnpu_v2.isa they come from. *)
From Verif Require Import V2DecTypes.
From Coq Require Import String List ZArith.
Import ListNotations.
Open Scope string_scope.
Open Scope Z_scope.

(** Fields, most significant first: signed, name, width. *)
Definition vfields (f : fmt2) : list (bool * string * Z) :=
  match f with
  (* coralnpu_v2.bin_fmt:44 *)
  | GInst32 => [(false, "bits", 25); (false, "opcode", 7)]
  (* coralnpu_v2.bin_fmt:50 *)
  | GR => [(false, "func7", 7); (false, "rs2", 5); (false, "rs1", 5); (false, "func3", 3); (false, "rd", 5); (false, "opcode", 7)]
  (* coralnpu_v2.bin_fmt:63 *)
  | GRS => [(false, "func6", 6); (false, "r_uimm6", 6); (false, "rs1", 5); (false, "func3", 3); (false, "rd", 5); (false, "opcode", 7)]
  (* coralnpu_v2.bin_fmt:73 *)
  | GR4 => [(false, "rs3", 5); (false, "func2", 2); (false, "rs2", 5); (false, "rs1", 5); (false, "func3", 3); (false, "rd", 5); (false, "opcode", 7)]
  (* coralnpu_v2.bin_fmt:84 *)
  | GI => [(true, "imm12", 12); (false, "rs1", 5); (false, "func3", 3); (false, "rd", 5); (false, "opcode", 7)]
  (* coralnpu_v2.bin_fmt:96 *)
  | GS => [(false, "imm7", 7); (false, "rs2", 5); (false, "rs1", 5); (false, "func3", 3); (false, "imm5", 5); (false, "opcode", 7)]
  (* coralnpu_v2.bin_fmt:108 *)
  | GB => [(false, "imm7", 7); (false, "rs2", 5); (false, "rs1", 5); (false, "func3", 3); (false, "imm5", 5); (false, "opcode", 7)]
  (* coralnpu_v2.bin_fmt:120 *)
  | GU => [(false, "imm20", 20); (false, "rd", 5); (false, "opcode", 7)]
  (* coralnpu_v2.bin_fmt:129 *)
  | GJ => [(false, "imm20", 20); (false, "rd", 5); (false, "opcode", 7)]
  (* coralnpu_v2.bin_fmt:138 *)
  | GFence => [(false, "fm", 4); (false, "pred", 4); (false, "succ", 4); (false, "rs1", 5); (false, "func3", 3); (false, "rd", 5); (false, "opcode", 7)]
  (* coralnpu_v2.bin_fmt:149 *)
  | GA => [(false, "func5", 5); (false, "aq", 1); (false, "rl", 1); (false, "rs2", 5); (false, "rs1", 5); (false, "func3", 3); (false, "rd", 5); (false, "opcode", 7)]
  (* coralnpu_v2.bin_fmt:161 *)
  | GF12 => [(false, "func12", 12); (false, "rs1", 5); (false, "func3", 3); (false, "rd", 5); (false, "opcode", 7)]
  (* coralnpu_v2.bin_fmt:170 *)
  | GZicbop => [(false, "offset", 7); (false, "func5", 5); (false, "rs1", 5); (false, "func3", 3); (false, "imm5", 5); (false, "op", 7)]
  (* coralnpu_v2.bin_fmt:182 *)
  | GMopR => [(false, "func1", 1); (false, "n_hi", 1); (false, "func2", 2); (false, "n_mid", 2); (false, "func4", 4); (false, "n_lo", 2); (false, "rs1", 5); (false, "func3", 3); (false, "rd", 5); (false, "opcode", 7)]
  (* coralnpu_v2.bin_fmt:198 *)
  | GMopRR => [(false, "func1h", 1); (false, "n_hi", 1); (false, "func2", 2); (false, "n_lo", 2); (false, "func1l", 1); (false, "rs2", 5); (false, "rs1", 5); (false, "func3", 3); (false, "rd", 5); (false, "opcode", 7)]
  (* coralnpu_v2.bin_fmt:216 *)
  | GVMem => [(false, "nf", 3); (false, "mew", 1); (false, "mop", 2); (false, "vm", 1); (false, "rs2", 5); (false, "rs1", 5); (false, "width", 3); (false, "vd", 5); (false, "opcode", 7)]
  (* coralnpu_v2.bin_fmt:234 *)
  | GVArith => [(false, "func6", 6); (false, "vm", 1); (false, "vs2", 5); (false, "vs1", 5); (false, "func3", 3); (false, "vd", 5); (false, "opcode", 7)]
  (* coralnpu_v2.bin_fmt:253 *)
  | GVConfig => [(false, "top12", 12); (false, "rs1", 5); (false, "func3", 3); (false, "rd", 5); (false, "opcode", 7)]
  end.
(** Overlays: signed, name, width, pieces from the most significant. *)
Definition voverlays (f : fmt2) : list (bool * string * Z * list piece) :=
  match f with
  | GInst32 => []
  | GR => [(false, "r_uimm5", 5, [PFld "rs2"])]
  | GRS => []
  | GR4 => []
  | GI => [(false, "u_imm12", 12, [PFld "imm12"]); (false, "i_uimm5", 5, [PFld "rs1"])]
  | GS => [(true, "s_imm", 12, [PFld "imm7"; PFld "imm5"])]
  | GB => [(true, "b_imm", 13, [PSl "imm7" 6 6; PSl "imm5" 0 0; PSl "imm7" 5 0; PSl "imm5" 4 1; PLit 1 0])]
  | GU => [(false, "u_imm", 32, [PFld "imm20"; PLit 12 0])]
  | GJ => [(true, "j_imm", 21, [PSl "imm20" 19 19; PSl "imm20" 7 0; PSl "imm20" 8 8; PSl "imm20" 18 9; PLit 1 0])]
  | GFence => []
  | GA => []
  | GF12 => []
  | GZicbop => [(false, "bop_uimm12", 12, [PFld "offset"; PLit 5 0])]
  | GMopR => [(false, "mop_no", 5, [PFld "n_hi"; PFld "n_mid"; PFld "n_lo"])]
  | GMopRR => [(false, "mop_no", 3, [PFld "n_hi"; PFld "n_lo"])]
  | GVMem => [(false, "lumop", 5, [PFld "rs2"]); (false, "sumop", 5, [PFld "rs2"]); (false, "vs2", 5, [PFld "rs2"]); (false, "vs3", 5, [PFld "vd"])]
  | GVArith => [(false, "uimm5", 5, [PFld "vs1"]); (false, "uimm6", 6, [PSl "func6" 0 0; PFld "vs1"]); (false, "func5", 5, [PSl "func6" 5 1]); (true, "simm5", 5, [PFld "vs1"]); (false, "rd", 5, [PFld "vd"]); (false, "rs1", 5, [PFld "vs1"]); (false, "vd_mask", 5, [PFld "vd"])]
  | GVConfig => [(true, "zimm11", 11, [PSl "top12" 10 0]); (false, "func1", 1, [PSl "top12" 11 11]); (false, "func2", 2, [PSl "top12" 11 10]); (false, "func7", 7, [PSl "top12" 11 5]); (true, "zimm10", 10, [PSl "top12" 9 0]); (false, "uimm5", 5, [PFld "rs1"]); (false, "rs2", 5, [PSl "top12" 4 0])]
  end.

Definition tab2_RiscVIInstBase32 : list entry2 := [
  (* coralnpu_v2.bin_fmt:272 coralnpu_v2.isa:81 *)
  E2 "lui" GU [Ceq "opcode" 55; Cne "rd" 0]
    ["U_imm20"] ["rd"] None [Fn "RV32::RiscVILui" []] "lui";
  (* coralnpu_v2.bin_fmt:273 coralnpu_v2.isa:85 *)
  E2 "auipc" GU [Ceq "opcode" 23; Cne "rd" 0]
    ["U_imm20"] ["rd"] None [Fn "RV32::RiscVIAuipc" []] "auipc";
  (* coralnpu_v2.bin_fmt:274 coralnpu_v2.isa:132 *)
  E2 "jal" GJ [Cne "rd" 0; Ceq "opcode" 111]
    ["J_imm20"] ["next_pc"; "rd"] None [Fn "RV32::RiscVIJal" []] "jal";
  (* coralnpu_v2.bin_fmt:275 coralnpu_v2.isa:140 *)
  E2 "j" GJ [Ceq "rd" 0; Ceq "opcode" 111]
    ["J_imm20"] ["next_pc"; "rd"] None [Fn "RV32::RiscVIJal" []] "j";
  (* coralnpu_v2.bin_fmt:276 coralnpu_v2.isa:136 *)
  E2 "jalr" GI [Cne "rd" 0; Ceq "func3" 0; Ceq "opcode" 103]
    ["rs1"; "J_imm12"] ["next_pc"; "rd"] None [Fn "RV32::RiscVIJalr" []] "jalr";
  (* coralnpu_v2.bin_fmt:277 coralnpu_v2.isa:144 *)
  E2 "jr" GI [Ceq "rd" 0; Ceq "func3" 0; Ceq "opcode" 103]
    ["rs1"; "J_imm12"] ["next_pc"; "rd"] None [Fn "RV32::RiscVIJalr" []] "jr";
  (* coralnpu_v2.bin_fmt:278 coralnpu_v2.isa:148 *)
  E2 "beq" GB [Ceq "func3" 0; Ceq "opcode" 99]
    ["rs1"; "rs2"; "B_imm12"] ["next_pc"] None [Fn "RV32::RiscVIBeq" []] "beq";
  (* coralnpu_v2.bin_fmt:279 coralnpu_v2.isa:152 *)
  E2 "bne" GB [Ceq "func3" 1; Ceq "opcode" 99]
    ["rs1"; "rs2"; "B_imm12"] ["next_pc"] None [Fn "RV32::RiscVIBne" []] "bne";
  (* coralnpu_v2.bin_fmt:280 coralnpu_v2.isa:156 *)
  E2 "blt" GB [Ceq "func3" 4; Ceq "opcode" 99]
    ["rs1"; "rs2"; "B_imm12"] ["next_pc"] None [Fn "RV32::RiscVIBlt" []] "blt";
  (* coralnpu_v2.bin_fmt:281 coralnpu_v2.isa:164 *)
  E2 "bge" GB [Ceq "func3" 5; Ceq "opcode" 99]
    ["rs1"; "rs2"; "B_imm12"] ["next_pc"] None [Fn "RV32::RiscVIBge" []] "bge";
  (* coralnpu_v2.bin_fmt:282 coralnpu_v2.isa:160 *)
  E2 "bltu" GB [Ceq "func3" 6; Ceq "opcode" 99]
    ["rs1"; "rs2"; "B_imm12"] ["next_pc"] None [Fn "RV32::RiscVIBltu" []] "bltu";
  (* coralnpu_v2.bin_fmt:283 coralnpu_v2.isa:168 *)
  E2 "bgeu" GB [Ceq "func3" 7; Ceq "opcode" 99]
    ["rs1"; "rs2"; "B_imm12"] ["next_pc"] None [Fn "RV32::RiscVIBgeu" []] "bgeu";
  (* coralnpu_v2.bin_fmt:284 coralnpu_v2.isa:187 *)
  E2 "lb" GB [Ceq "func3" 0; Ceq "opcode" 3]
    ["rs1"; "I_imm12"] [] (Some ([], ["rd"])) [Fn "coralnpu::CoralNPUV2Lb" []; Fn "RV32::RiscVILbChild" []] "lb";
  (* coralnpu_v2.bin_fmt:285 coralnpu_v2.isa:177 *)
  E2 "lh" GB [Ceq "func3" 1; Ceq "opcode" 3]
    ["rs1"; "I_imm12"] [] (Some ([], ["rd"])) [Fn "coralnpu::CoralNPUV2Lh" []; Fn "RV32::RiscVILhChild" []] "lh";
  (* coralnpu_v2.bin_fmt:286 coralnpu_v2.isa:172 *)
  E2 "lw" GB [Ceq "func3" 2; Ceq "opcode" 3]
    ["rs1"; "I_imm12"] [] (Some ([], ["rd"])) [Fn "coralnpu::CoralNPUV2Lw" []; Fn "RV32::RiscVILwChild" []] "lw";
  (* coralnpu_v2.bin_fmt:287 coralnpu_v2.isa:192 *)
  E2 "lbu" GB [Ceq "func3" 4; Ceq "opcode" 3]
    ["rs1"; "I_imm12"] [] (Some ([], ["rd"])) [Fn "coralnpu::CoralNPUV2Lbu" []; Fn "RV32::RiscVILbuChild" []] "lbu";
  (* coralnpu_v2.bin_fmt:288 coralnpu_v2.isa:182 *)
  E2 "lhu" GB [Ceq "func3" 5; Ceq "opcode" 3]
    ["rs1"; "I_imm12"] [] (Some ([], ["rd"])) [Fn "coralnpu::CoralNPUV2Lhu" []; Fn "RV32::RiscVILhuChild" []] "lhu";
  (* coralnpu_v2.bin_fmt:289 coralnpu_v2.isa:205 *)
  E2 "sb" GS [Ceq "func3" 0; Ceq "opcode" 35]
    ["rs1"; "S_imm12"; "rs2"] [] None [Fn "coralnpu::CoralNPUV2Sb" []] "sb";
  (* coralnpu_v2.bin_fmt:290 coralnpu_v2.isa:201 *)
  E2 "sh" GS [Ceq "func3" 1; Ceq "opcode" 35]
    ["rs1"; "S_imm12"; "rs2"] [] None [Fn "coralnpu::CoralNPUV2Sh" []] "sh";
  (* coralnpu_v2.bin_fmt:291 coralnpu_v2.isa:197 *)
  E2 "sw" GS [Ceq "func3" 2; Ceq "opcode" 35]
    ["rs1"; "S_imm12"; "rs2"] [] None [Fn "coralnpu::CoralNPUV2Sw" []] "sw";
  (* coralnpu_v2.bin_fmt:292 coralnpu_v2.isa:41 *)
  E2 "addi" GI [Ceq "func3" 0; Ceq "opcode" 19; Cne "rd" 0]
    ["rs1"; "I_imm12"] ["rd"] None [Fn "RV32::RiscVIAdd" []] "addi";
  (* coralnpu_v2.bin_fmt:293 coralnpu_v2.isa:45 *)
  E2 "nop" GI [Ceq "func3" 0; Ceq "opcode" 19; Ceq "rd" 0; Ceq "imm12" 0; Ceq "rs1" 0]
    [] [] None [Fn "RiscVINop" []] "nop";
  (* coralnpu_v2.bin_fmt:294 coralnpu_v2.isa:49 *)
  E2 "slti" GI [Ceq "func3" 2; Ceq "opcode" 19; Cne "rd" 0]
    ["rs1"; "I_imm12"] ["rd"] None [Fn "RV32::RiscVISlt" []] "slti";
  (* coralnpu_v2.bin_fmt:295 coralnpu_v2.isa:53 *)
  E2 "sltiu" GI [Ceq "func3" 3; Ceq "opcode" 19; Cne "rd" 0]
    ["rs1"; "I_imm12"] ["rd"] None [Fn "RV32::RiscVISltu" []] "sltiu";
  (* coralnpu_v2.bin_fmt:296 coralnpu_v2.isa:65 *)
  E2 "xori" GI [Ceq "func3" 4; Cne "rd" 0; Ceq "opcode" 19]
    ["rs1"; "I_imm12"] ["rd"] None [Fn "RV32::RiscVIXor" []] "xori";
  (* coralnpu_v2.bin_fmt:297 coralnpu_v2.isa:61 *)
  E2 "ori" GI [Ceq "func3" 6; Cne "rd" 0; Ceq "opcode" 19]
    ["rs1"; "I_imm12"] ["rd"] None [Fn "RV32::RiscVIOr" []] "ori";
  (* coralnpu_v2.bin_fmt:298 coralnpu_v2.isa:57 *)
  E2 "andi" GI [Ceq "func3" 7; Ceq "opcode" 19; Cne "rd" 0]
    ["rs1"; "I_imm12"] ["rd"] None [Fn "RV32::RiscVIAnd" []] "andi";
  (* coralnpu_v2.bin_fmt:299 coralnpu_v2.isa:69 *)
  E2 "slli" GR [Ceq "func7" 0; Ceq "func3" 1; Ceq "opcode" 19]
    ["rs1"; "r_uimm5"] ["rd"] None [Fn "RV32::RiscVISll" []] "slli";
  (* coralnpu_v2.bin_fmt:300 coralnpu_v2.isa:73 *)
  E2 "srli" GR [Ceq "func7" 0; Ceq "func3" 5; Cne "rd" 0; Ceq "opcode" 19]
    ["rs1"; "r_uimm5"] ["rd"] None [Fn "RV32::RiscVISrl" []] "srli";
  (* coralnpu_v2.bin_fmt:301 coralnpu_v2.isa:77 *)
  E2 "srai" GR [Ceq "func7" 32; Ceq "func3" 5; Ceq "opcode" 19]
    ["rs1"; "r_uimm5"] ["rd"] None [Fn "RV32::RiscVISra" []] "srai";
  (* coralnpu_v2.bin_fmt:302 coralnpu_v2.isa:89 *)
  E2 "add" GR [Ceq "func7" 0; Ceq "func3" 0; Cne "rd" 0; Ceq "opcode" 51]
    ["rs1"; "rs2"] ["rd"] None [Fn "RV32::RiscVIAdd" []] "add";
  (* coralnpu_v2.bin_fmt:303 coralnpu_v2.isa:121 *)
  E2 "sub" GR [Ceq "func7" 32; Ceq "func3" 0; Cne "rd" 0; Ceq "opcode" 51]
    ["rs1"; "rs2"] ["rd"] None [Fn "RV32::RiscVISub" []] "sub";
  (* coralnpu_v2.bin_fmt:304 coralnpu_v2.isa:113 *)
  E2 "sll" GR [Ceq "func7" 0; Ceq "func3" 1; Cne "rd" 0; Ceq "opcode" 51]
    ["rs1"; "rs2"] ["rd"] None [Fn "RV32::RiscVISll" []] "sll";
  (* coralnpu_v2.bin_fmt:305 coralnpu_v2.isa:93 *)
  E2 "slt" GR [Ceq "func7" 0; Ceq "func3" 2; Cne "rd" 0; Ceq "opcode" 51]
    ["rs1"; "rs2"] ["rd"] None [Fn "RV32::RiscVISlt" []] "slt";
  (* coralnpu_v2.bin_fmt:306 coralnpu_v2.isa:97 *)
  E2 "sltu" GR [Ceq "func7" 0; Ceq "func3" 3; Cne "rd" 0; Ceq "opcode" 51]
    ["rs1"; "rs2"] ["rd"] None [Fn "RV32::RiscVISltu" []] "sltu";
  (* coralnpu_v2.bin_fmt:307 coralnpu_v2.isa:109 *)
  E2 "xor" GR [Ceq "func7" 0; Ceq "func3" 4; Cne "rd" 0; Ceq "opcode" 51]
    ["rs1"; "rs2"] ["rd"] None [Fn "RV32::RiscVIXor" []] "xor";
  (* coralnpu_v2.bin_fmt:308 coralnpu_v2.isa:117 *)
  E2 "srl" GR [Ceq "func7" 0; Ceq "func3" 5; Cne "rd" 0; Ceq "opcode" 51]
    ["rs1"; "rs2"] ["rd"] None [Fn "RV32::RiscVISrl" []] "srl";
  (* coralnpu_v2.bin_fmt:309 coralnpu_v2.isa:125 *)
  E2 "sra" GR [Ceq "func7" 32; Ceq "func3" 5; Cne "rd" 0; Ceq "opcode" 51]
    ["rs1"; "rs2"] ["rd"] None [Fn "RV32::RiscVISra" []] "sra";
  (* coralnpu_v2.bin_fmt:310 coralnpu_v2.isa:105 *)
  E2 "or" GR [Ceq "func7" 0; Ceq "func3" 6; Cne "rd" 0; Ceq "opcode" 51]
    ["rs1"; "rs2"] ["rd"] None [Fn "RV32::RiscVIOr" []] "or";
  (* coralnpu_v2.bin_fmt:311 coralnpu_v2.isa:101 *)
  E2 "and" GR [Ceq "func7" 0; Ceq "func3" 7; Cne "rd" 0; Ceq "opcode" 51]
    ["rs1"; "rs2"] ["rd"] None [Fn "RV32::RiscVIAnd" []] "and";
  (* coralnpu_v2.bin_fmt:312 coralnpu_v2.isa:209 *)
  E2 "fence" GFence [Ceq "fm" 0; Cne "succ" 0; Ceq "func3" 0; Ceq "opcode" 15]
    ["pred"; "succ"] [] None [Fn "RiscVIFence" []] "fence";
  (* coralnpu_v2.bin_fmt:313 coralnpu_v2.isa:212 *)
  E2 "fence_tso" GFence [Ceq "fm" 8; Ceq "pred" 3; Ceq "succ" 3; Ceq "func3" 0; Ceq "opcode" 15]
    [] [] None [Fn "RiscVIFenceTso" []] "fence.tso";
  (* coralnpu_v2.bin_fmt:314 coralnpu_v2.isa:215 *)
  E2 "ecall" GInst32 [Ceq "bits" 0; Ceq "opcode" 115]
    [] [] None [Fn "RiscVIEcall" []] "ecall";
  (* coralnpu_v2.bin_fmt:315 coralnpu_v2.isa:218 *)
  E2 "ebreak" GInst32 [Ceq "bits" 8192; Ceq "opcode" 115]
    [] [] None [Fn "RiscVIEbreak" []] "ebreak"
].

Definition tab2_RiscVZifenceiInst32 : list entry2 := [
  (* coralnpu_v2.bin_fmt:320 coralnpu_v2.isa:380 *)
  E2 "fencei" GI [Ceq "func3" 1; Ceq "opcode" 15]
    ["I_imm12"] [] None [Fn "RiscVZFencei" []] "fence.i"
].

Definition tab2_RiscVZicsrInst32 : list entry2 := [
  (* coralnpu_v2.bin_fmt:325 coralnpu_v2.isa:439 *)
  E2 "csrrw" GI [Ceq "func3" 1; Cne "u_imm12" 3072; Cne "rd" 0; Ceq "opcode" 115]
    ["rs1"; "csr"] ["rd"; "csr"] None [Fn "RV32::RiscVZiCsrrw" []] "csrw";
  (* coralnpu_v2.bin_fmt:326 coralnpu_v2.isa:443 *)
  E2 "csrrs" GI [Ceq "func3" 2; Cne "rs1" 0; Cne "rd" 0; Ceq "opcode" 115]
    ["rs1"; "csr"] ["rd"; "csr"] None [Fn "RV32::RiscVZiCsrrs" []] "csrs";
  (* coralnpu_v2.bin_fmt:327 coralnpu_v2.isa:447 *)
  E2 "csrrc" GI [Ceq "func3" 3; Cne "rs1" 0; Cne "rd" 0; Ceq "opcode" 115]
    ["rs1"; "csr"] ["rd"; "csr"] None [Fn "RV32::RiscVZiCsrrc" []] "csrc";
  (* coralnpu_v2.bin_fmt:328 coralnpu_v2.isa:451 *)
  E2 "csrrs_nr" GI [Ceq "func3" 2; Cne "rs1" 0; Ceq "rd" 0; Ceq "opcode" 115]
    ["rs1"; "csr"] ["rd"; "csr"] None [Fn "RV32::RiscVZiCsrrs" []] "csrs";
  (* coralnpu_v2.bin_fmt:329 coralnpu_v2.isa:455 *)
  E2 "csrrc_nr" GI [Ceq "func3" 3; Cne "rs1" 0; Ceq "rd" 0; Ceq "opcode" 115]
    ["rs1"; "csr"] ["rd"; "csr"] None [Fn "RV32::RiscVZiCsrrc" []] "csrc";
  (* coralnpu_v2.bin_fmt:330 coralnpu_v2.isa:459 *)
  E2 "csrrw_nr" GI [Ceq "func3" 1; Cne "u_imm12" 3072; Ceq "rd" 0; Ceq "opcode" 115]
    ["rs1"; "csr"] ["csr"] None [Fn "RV32::RiscVZiCsrrwNr" []] "csrw";
  (* coralnpu_v2.bin_fmt:331 coralnpu_v2.isa:463 *)
  E2 "csrrs_nw" GI [Ceq "func3" 2; Ceq "rs1" 0; Ceq "opcode" 115]
    ["csr"] ["rd"] None [Fn "RV32::RiscVZiCsrrNw" []] "csrs";
  (* coralnpu_v2.bin_fmt:332 coralnpu_v2.isa:467 *)
  E2 "csrrc_nw" GI [Ceq "func3" 3; Ceq "rs1" 0; Ceq "opcode" 115]
    ["csr"] ["rd"] None [Fn "RV32::RiscVZiCsrrNw" []] "csrc";
  (* coralnpu_v2.bin_fmt:333 coralnpu_v2.isa:471 *)
  E2 "csrrwi" GI [Ceq "func3" 5; Cne "rd" 0; Ceq "opcode" 115]
    ["CSR_uimm5"; "csr"] ["rd"; "csr"] None [Fn "RV32::RiscVZiCsrrw" []] "csrwi";
  (* coralnpu_v2.bin_fmt:334 coralnpu_v2.isa:475 *)
  E2 "csrrsi" GI [Ceq "func3" 6; Cne "rs1" 0; Cne "rd" 0; Ceq "opcode" 115]
    ["CSR_uimm5"; "csr"] ["rd"; "csr"] None [Fn "RV32::RiscVZiCsrrs" []] "csrsi";
  (* coralnpu_v2.bin_fmt:335 coralnpu_v2.isa:479 *)
  E2 "csrrci" GI [Ceq "func3" 7; Cne "rs1" 0; Cne "rd" 0; Ceq "opcode" 115]
    ["CSR_uimm5"; "csr"] ["rd"; "csr"] None [Fn "RV32::RiscVZiCsrrc" []] "csrci";
  (* coralnpu_v2.bin_fmt:336 coralnpu_v2.isa:483 *)
  E2 "csrrsi_nr" GI [Ceq "func3" 6; Cne "rs1" 0; Ceq "rd" 0; Ceq "opcode" 115]
    ["CSR_uimm5"; "csr"] ["rd"; "csr"] None [Fn "RV32::RiscVZiCsrrs" []] "csrsi";
  (* coralnpu_v2.bin_fmt:337 coralnpu_v2.isa:487 *)
  E2 "csrrci_nr" GI [Ceq "func3" 7; Cne "rs1" 0; Ceq "rd" 0; Ceq "opcode" 115]
    ["CSR_uimm5"; "csr"] ["rd"; "csr"] None [Fn "RV32::RiscVZiCsrrc" []] "csrci";
  (* coralnpu_v2.bin_fmt:338 coralnpu_v2.isa:491 *)
  E2 "csrrwi_nr" GI [Ceq "func3" 5; Ceq "rd" 0; Ceq "opcode" 115]
    ["CSR_uimm5"; "csr"] ["csr"] None [Fn "RV32::RiscVZiCsrrwNr" []] "csrrwi";
  (* coralnpu_v2.bin_fmt:339 coralnpu_v2.isa:495 *)
  E2 "csrrsi_nw" GI [Ceq "func3" 6; Ceq "rs1" 0; Ceq "opcode" 115]
    ["csr"] ["rd"] None [Fn "RV32::RiscVZiCsrrNw" []] "csrsi";
  (* coralnpu_v2.bin_fmt:340 coralnpu_v2.isa:499 *)
  E2 "csrrci_nw" GI [Ceq "func3" 7; Ceq "rs1" 0; Ceq "opcode" 115]
    ["csr"] ["rd"] None [Fn "RV32::RiscVZiCsrrNw" []] "csrwi";
  (* coralnpu_v2.bin_fmt:341 coralnpu_v2.isa:503 *)
  E2 "unimp" GI [Ceq "func3" 1; Ceq "u_imm12" 3072; Ceq "rs1" 0; Ceq "rd" 0; Ceq "opcode" 115]
    [] [] None [Fn "RiscVIUnimplemented" []] "unimp"
].

Definition tab2_RiscVMInst32 : list entry2 := [
  (* coralnpu_v2.bin_fmt:346 coralnpu_v2.isa:395 *)
  E2 "mul" GR [Ceq "func7" 1; Ceq "func3" 0; Ceq "opcode" 51]
    ["rs1"; "rs2"] ["rd"] None [Fn "RV32::MMul" []] "mul";
  (* coralnpu_v2.bin_fmt:347 coralnpu_v2.isa:399 *)
  E2 "mulh" GR [Ceq "func7" 1; Ceq "func3" 1; Ceq "opcode" 51]
    ["rs1"; "rs2"] ["rd"] None [Fn "RV32::MMulh" []] "mulh";
  (* coralnpu_v2.bin_fmt:348 coralnpu_v2.isa:407 *)
  E2 "mulhsu" GR [Ceq "func7" 1; Ceq "func3" 2; Ceq "opcode" 51]
    ["rs1"; "rs2"] ["rd"] None [Fn "RV32::MMulhsu" []] "mulhsu";
  (* coralnpu_v2.bin_fmt:349 coralnpu_v2.isa:403 *)
  E2 "mulhu" GR [Ceq "func7" 1; Ceq "func3" 3; Ceq "opcode" 51]
    ["rs1"; "rs2"] ["rd"] None [Fn "RV32::MMulhu" []] "mulhu";
  (* coralnpu_v2.bin_fmt:350 coralnpu_v2.isa:411 *)
  E2 "div" GR [Ceq "func7" 1; Ceq "func3" 4; Ceq "opcode" 51]
    ["rs1"; "rs2"] ["rd"] None [Fn "RV32::MDiv" []] "div";
  (* coralnpu_v2.bin_fmt:351 coralnpu_v2.isa:415 *)
  E2 "divu" GR [Ceq "func7" 1; Ceq "func3" 5; Ceq "opcode" 51]
    ["rs1"; "rs2"] ["rd"] None [Fn "RV32::MDivu" []] "divu";
  (* coralnpu_v2.bin_fmt:352 coralnpu_v2.isa:419 *)
  E2 "rem" GR [Ceq "func7" 1; Ceq "func3" 6; Ceq "opcode" 51]
    ["rs1"; "rs2"] ["rd"] None [Fn "RV32::MRem" []] "rem";
  (* coralnpu_v2.bin_fmt:353 coralnpu_v2.isa:423 *)
  E2 "remu" GR [Ceq "func7" 1; Ceq "func3" 7; Ceq "opcode" 51]
    ["rs1"; "rs2"] ["rd"] None [Fn "RV32::MRemu" []] "remu"
].

Definition tab2_RiscVFInst32 : list entry2 := [
  (* coralnpu_v2.bin_fmt:358 coralnpu_v2.isa:520 *)
  E2 "flw" GI [Ceq "func3" 2; Ceq "opcode" 7]
    ["rs1"; "I_imm12"] [] (Some ([], ["frd"])) [Fn "coralnpu::CoralNPUV2Lw" []; Fn "RiscVIFlwChild" []] "flw";
  (* coralnpu_v2.bin_fmt:359 coralnpu_v2.isa:525 *)
  E2 "fsw" GS [Ceq "func3" 2; Ceq "opcode" 39]
    ["rs1"; "S_imm12"; "frs2"] [] None [Fn "coralnpu::CoralNPUV2Fsw" []] "fsw";
  (* coralnpu_v2.bin_fmt:360 coralnpu_v2.isa:557 *)
  E2 "fmadd_s" GR4 [Ceq "func2" 0; Ceq "opcode" 67]
    ["frs1"; "frs2"; "frs3"; "rm"] ["frd"; "fflags"] None [Fn "RiscVFMadd" []] "fmadd";
  (* coralnpu_v2.bin_fmt:361 coralnpu_v2.isa:561 *)
  E2 "fmsub_s" GR4 [Ceq "func2" 0; Ceq "opcode" 71]
    ["frs1"; "frs2"; "frs3"; "rm"] ["frd"; "fflags"] None [Fn "RiscVFMsub" []] "fmsub";
  (* coralnpu_v2.bin_fmt:362 coralnpu_v2.isa:569 *)
  E2 "fnmsub_s" GR4 [Ceq "func2" 0; Ceq "opcode" 75]
    ["frs1"; "frs2"; "frs3"; "rm"] ["frd"; "fflags"] None [Fn "RiscVFNmsub" []] "fnmsub";
  (* coralnpu_v2.bin_fmt:363 coralnpu_v2.isa:565 *)
  E2 "fnmadd_s" GR4 [Ceq "func2" 0; Ceq "opcode" 79]
    ["frs1"; "frs2"; "frs3"; "rm"] ["frd"; "fflags"] None [Fn "RiscVFNmadd" []] "fnmadd";
  (* coralnpu_v2.bin_fmt:364 coralnpu_v2.isa:529 *)
  E2 "fadd_s" GR [Ceq "func7" 0; Ceq "opcode" 83]
    ["frs1"; "frs2"; "rm"] ["frd"] None [Fn "RiscVFAdd" []] "fadd";
  (* coralnpu_v2.bin_fmt:365 coralnpu_v2.isa:533 *)
  E2 "fsub_s" GR [Ceq "func7" 4; Ceq "opcode" 83]
    ["frs1"; "frs2"; "rm"] ["frd"] None [Fn "RiscVFSub" []] "fsub";
  (* coralnpu_v2.bin_fmt:366 coralnpu_v2.isa:537 *)
  E2 "fmul_s" GR [Ceq "func7" 8; Ceq "opcode" 83]
    ["frs1"; "frs2"; "rm"] ["frd"] None [Fn "RiscVFMul" []] "fmul";
  (* coralnpu_v2.bin_fmt:367 coralnpu_v2.isa:541 *)
  E2 "fdiv_s" GR [Ceq "func7" 12; Ceq "opcode" 83]
    ["frs1"; "frs2"; "rm"] ["frd"] None [Fn "RiscVFDiv" []] "fdiv";
  (* coralnpu_v2.bin_fmt:368 coralnpu_v2.isa:545 *)
  E2 "fsqrt_s" GR [Ceq "func7" 44; Ceq "rs2" 0; Ceq "opcode" 83]
    ["frs1"; "rm"] ["frd"; "fflags"] None [Fn "RiscVFSqrt" []] "fsqrt";
  (* coralnpu_v2.bin_fmt:369 coralnpu_v2.isa:589 *)
  E2 "fsgnj_s" GR [Ceq "func7" 16; Ceq "func3" 0; Ceq "opcode" 83]
    ["frs1"; "frs2"] ["frd"] None [Fn "RiscVFSgnj" []] "fsgn.s";
  (* coralnpu_v2.bin_fmt:370 coralnpu_v2.isa:593 *)
  E2 "fsgnjn_s" GR [Ceq "func7" 16; Ceq "func3" 1; Ceq "opcode" 83]
    ["frs1"; "frs2"] ["frd"] None [Fn "RiscVFSgnjn" []] "fsgnjx.s";
  (* coralnpu_v2.bin_fmt:371 coralnpu_v2.isa:597 *)
  E2 "fsgnjx_s" GR [Ceq "func7" 16; Ceq "func3" 2; Ceq "opcode" 83]
    ["frs1"; "frs2"] ["frd"] None [Fn "RiscVFSgnjx" []] "fsgnjx.s";
  (* coralnpu_v2.bin_fmt:372 coralnpu_v2.isa:549 *)
  E2 "fmin_s" GR [Ceq "func7" 20; Ceq "func3" 0; Ceq "opcode" 83]
    ["frs1"; "frs2"] ["frd"; "fflags"] None [Fn "RiscVFMin" []] "fmin";
  (* coralnpu_v2.bin_fmt:373 coralnpu_v2.isa:553 *)
  E2 "fmax_s" GR [Ceq "func7" 20; Ceq "func3" 1; Ceq "opcode" 83]
    ["frs1"; "frs2"] ["frd"; "fflags"] None [Fn "RiscVFMax" []] "fmax";
  (* coralnpu_v2.bin_fmt:374 coralnpu_v2.isa:573 *)
  E2 "fcvt_ws" GR [Ceq "func7" 96; Ceq "rs2" 0; Ceq "opcode" 83]
    ["frs1"; "rm"] ["rd"; "fflags"] None [Fn "RV32::RiscVFCvtWs" []] "fcvt.w.s";
  (* coralnpu_v2.bin_fmt:375 coralnpu_v2.isa:581 *)
  E2 "fcvt_wus" GR [Ceq "func7" 96; Ceq "rs2" 1; Ceq "opcode" 83]
    ["frs1"; "rm"] ["rd"; "fflags"] None [Fn "RV32::RiscVFCvtWus" []] "fcvt.wu.s";
  (* coralnpu_v2.bin_fmt:376 coralnpu_v2.isa:601 *)
  E2 "fmv_xw" GR [Ceq "func7" 112; Ceq "rs2" 0; Ceq "func3" 0; Ceq "opcode" 83]
    ["frs1"] ["rd"] None [Fn "RV32::RiscVFMvxw" []] "mv.x.w";
  (* coralnpu_v2.bin_fmt:377 coralnpu_v2.isa:609 *)
  E2 "fcmpeq_s" GR [Ceq "func7" 80; Ceq "func3" 2; Ceq "opcode" 83]
    ["frs1"; "frs2"] ["rd"; "fflags"] None [Fn "RV32::RiscVFCmpeq" []] "fcmpeq";
  (* coralnpu_v2.bin_fmt:378 coralnpu_v2.isa:613 *)
  E2 "fcmplt_s" GR [Ceq "func7" 80; Ceq "func3" 1; Ceq "opcode" 83]
    ["frs1"; "frs2"] ["rd"; "fflags"] None [Fn "RV32::RiscVFCmplt" []] "fcmplt";
  (* coralnpu_v2.bin_fmt:379 coralnpu_v2.isa:617 *)
  E2 "fcmple_s" GR [Ceq "func7" 80; Ceq "func3" 0; Ceq "opcode" 83]
    ["frs1"; "frs2"] ["rd"; "fflags"] None [Fn "RV32::RiscVFCmple" []] "fcmple";
  (* coralnpu_v2.bin_fmt:380 coralnpu_v2.isa:621 *)
  E2 "fclass_s" GR [Ceq "func7" 112; Ceq "rs2" 0; Ceq "func3" 1; Ceq "opcode" 83]
    ["frs1"] ["rd"] None [Fn "RV32::RiscVFClass" []] "fclass";
  (* coralnpu_v2.bin_fmt:381 coralnpu_v2.isa:577 *)
  E2 "fcvt_sw" GR [Ceq "func7" 104; Ceq "rs2" 0; Ceq "opcode" 83]
    ["rs1"; "rm"] ["frd"] None [Fn "RiscVFCvtSw" []] "fcvt.s.w";
  (* coralnpu_v2.bin_fmt:382 coralnpu_v2.isa:585 *)
  E2 "fcvt_swu" GR [Ceq "func7" 104; Ceq "rs2" 1; Ceq "opcode" 83]
    ["rs1"; "rm"] ["frd"] None [Fn "RiscVFCvtSwu" []] "fcvt.s.wu";
  (* coralnpu_v2.bin_fmt:383 coralnpu_v2.isa:605 *)
  E2 "fmv_wx" GR [Ceq "func7" 120; Ceq "rs2" 0; Ceq "func3" 0; Ceq "opcode" 83]
    ["rs1"] ["frd"] None [Fn "RiscVFMvwx" []] "mv.w.x"
].

Definition tab2_RiscVIHints32 : list entry2 := [
  (* coralnpu_v2.bin_fmt:388 coralnpu_v2.isa:291 *)
  E2 "lui_hint" GU [Ceq "opcode" 55; Ceq "rd" 0]
    ["U_imm20"] ["rd"] None [Fn "RiscVINop" []] "lui";
  (* coralnpu_v2.bin_fmt:389 coralnpu_v2.isa:295 *)
  E2 "auipc_hint" GU [Ceq "opcode" 23; Ceq "rd" 0]
    ["U_imm20"] ["rd"] None [Fn "RiscVINop" []] "auipc";
  (* coralnpu_v2.bin_fmt:390 coralnpu_v2.isa:235 *)
  E2 "addi_hint1" GI [Ceq "func3" 0; Ceq "opcode" 19; Ceq "rd" 0; Cne "rs1" 0]
    ["rs1"; "I_imm12"] ["rd"] None [Fn "RiscVINop" []] "addi";
  (* coralnpu_v2.bin_fmt:391 coralnpu_v2.isa:239 *)
  E2 "addi_hint2" GI [Ceq "func3" 0; Ceq "opcode" 19; Ceq "rd" 0; Cne "imm12" 0]
    ["rs1"; "I_imm12"] ["rd"] None [Fn "RiscVINop" []] "addi";
  (* coralnpu_v2.bin_fmt:392 coralnpu_v2.isa:243 *)
  E2 "slti_hint" GI [Ceq "func3" 2; Ceq "opcode" 19; Ceq "rd" 0]
    ["rs1"; "I_imm12"] ["rd"] None [Fn "RiscVINop" []] "slti";
  (* coralnpu_v2.bin_fmt:393 coralnpu_v2.isa:247 *)
  E2 "sltiu_hint" GI [Ceq "func3" 3; Ceq "opcode" 19; Ceq "rd" 0]
    ["rs1"; "I_imm12"] ["rd"] None [Fn "RiscVINop" []] "sltiu";
  (* coralnpu_v2.bin_fmt:394 coralnpu_v2.isa:259 *)
  E2 "xori_hint" GI [Ceq "func3" 4; Ceq "rd" 0; Ceq "opcode" 19]
    ["rs1"; "I_imm12"] ["rd"] None [Fn "RiscVINop" []] "xori";
  (* coralnpu_v2.bin_fmt:395 coralnpu_v2.isa:255 *)
  E2 "ori_hint" GI [Ceq "func3" 6; Ceq "rd" 0; Ceq "opcode" 19]
    ["rs1"; "I_imm12"] ["rd"] None [Fn "RiscVINop" []] "ori";
  (* coralnpu_v2.bin_fmt:396 coralnpu_v2.isa:251 *)
  E2 "andi_hint" GI [Ceq "func3" 7; Ceq "opcode" 19; Ceq "rd" 0]
    ["rs1"; "I_imm12"] ["rd"] None [Fn "RiscVINop" []] "andi";
  (* coralnpu_v2.bin_fmt:397 coralnpu_v2.isa:275 *)
  E2 "srli_hint" GR [Ceq "func7" 0; Ceq "func3" 5; Ceq "rd" 0; Ceq "opcode" 19]
    ["rs1"; "I_uimm5"] ["rd"] None [Fn "RiscVINop" []] "srli";
  (* coralnpu_v2.bin_fmt:398 coralnpu_v2.isa:339 *)
  E2 "slt_hint" GR [Ceq "func7" 0; Ceq "func3" 2; Ceq "rd" 0; Ceq "opcode" 51]
    ["rs1"; "rs2"] ["rd"] None [Fn "RiscVINop" []] "slt";
  (* coralnpu_v2.bin_fmt:399 coralnpu_v2.isa:263 *)
  E2 "slli_semihost" GR [Ceq "func7" 0; Ceq "func3" 1; Ceq "rd" 0; Ceq "rs1" 0; Ceq "r_uimm5" 31; Ceq "opcode" 19]
    ["rs1"; "I_uimm5"] ["rd"] None [Fn "RiscVINop" []] "slli";
  (* coralnpu_v2.bin_fmt:400 coralnpu_v2.isa:267 *)
  E2 "slli_hint1" GR [Ceq "func7" 0; Ceq "func3" 1; Ceq "rd" 0; Cne "rs1" 0; Ceq "opcode" 19]
    ["rs1"; "I_uimm5"] ["rd"] None [Fn "RiscVINop" []] "slli";
  (* coralnpu_v2.bin_fmt:401 coralnpu_v2.isa:271 *)
  E2 "slli_hint2" GR [Ceq "func7" 0; Ceq "func3" 1; Ceq "rd" 0; Cne "r_uimm5" 31; Ceq "opcode" 19]
    ["rs1"; "I_uimm5"] ["rd"] None [Fn "RiscVINop" []] "slli";
  (* coralnpu_v2.bin_fmt:402 coralnpu_v2.isa:279 *)
  E2 "srai_semihost" GR [Ceq "func7" 32; Ceq "func3" 5; Ceq "rd" 0; Ceq "rs1" 0; Ceq "r_uimm5" 7; Ceq "opcode" 19]
    ["rs1"; "I_uimm5"] ["rd"] None [Fn "RiscVINop" []] "srai";
  (* coralnpu_v2.bin_fmt:403 coralnpu_v2.isa:283 *)
  E2 "srai_hint1" GR [Ceq "func7" 32; Ceq "func3" 5; Ceq "rd" 0; Cne "rs1" 0; Ceq "opcode" 19]
    ["rs1"; "I_uimm5"] ["rd"] None [Fn "RiscVINop" []] "srai";
  (* coralnpu_v2.bin_fmt:404 coralnpu_v2.isa:287 *)
  E2 "srai_hint2" GR [Ceq "func7" 32; Ceq "func3" 5; Ceq "rd" 0; Cne "r_uimm5" 7; Ceq "opcode" 19]
    ["rs1"; "I_uimm5"] ["rd"] None [Fn "RiscVINop" []] "srai";
  (* coralnpu_v2.bin_fmt:405 coralnpu_v2.isa:299 *)
  E2 "add_hint1" GR [Ceq "func7" 0; Ceq "func3" 0; Ceq "rd" 0; Cne "rs1" 0; Ceq "opcode" 51]
    ["rs1"; "rs2"] ["rd"] None [Fn "RiscVINop" []] "add";
  (* coralnpu_v2.bin_fmt:406 coralnpu_v2.isa:303 *)
  E2 "add_hint2" GR [Ceq "func7" 0; Ceq "func3" 0; Ceq "rd" 0; Ceq "rs1" 0; Cgt "rs2" 5; Ceq "opcode" 51]
    ["rs1"; "rs2"] ["rd"] None [Fn "RiscVINop" []] "add";
  (* coralnpu_v2.bin_fmt:407 coralnpu_v2.isa:307 *)
  E2 "add_hint3" GR [Ceq "func7" 0; Ceq "func3" 0; Ceq "rd" 0; Ceq "rs1" 0; Clt "rs2" 2; Ceq "opcode" 51]
    ["rs1"; "rs2"] ["rd"] None [Fn "RiscVINop" []] "add";
  (* coralnpu_v2.bin_fmt:408 coralnpu_v2.isa:331 *)
  E2 "sub_hint" GR [Ceq "func7" 32; Ceq "func3" 0; Ceq "rd" 0; Ceq "opcode" 51]
    ["rs1"; "rs2"] ["rd"] None [Fn "RiscVINop" []] "sub";
  (* coralnpu_v2.bin_fmt:409 coralnpu_v2.isa:323 *)
  E2 "sll_hint" GR [Ceq "func7" 0; Ceq "func3" 1; Ceq "rd" 0; Ceq "opcode" 51]
    ["rs1"; "rs2"] ["rd"] None [Fn "RiscVINop" []] "sll";
  (* coralnpu_v2.bin_fmt:410 coralnpu_v2.isa:343 *)
  E2 "sltu_hint" GR [Ceq "func7" 0; Ceq "func3" 3; Ceq "rd" 0; Ceq "opcode" 51]
    ["rs1"; "rs2"] ["rd"] None [Fn "RiscVINop" []] "sltu";
  (* coralnpu_v2.bin_fmt:411 coralnpu_v2.isa:319 *)
  E2 "xor_hint" GR [Ceq "func7" 0; Ceq "func3" 4; Ceq "rd" 0; Ceq "opcode" 51]
    ["rs1"; "rs2"] ["rd"] None [Fn "RiscVINop" []] "xor";
  (* coralnpu_v2.bin_fmt:412 coralnpu_v2.isa:327 *)
  E2 "srl_hint" GR [Ceq "func7" 0; Ceq "func3" 5; Ceq "rd" 0; Ceq "opcode" 51]
    ["rs1"; "rs2"] ["rd"] None [Fn "RiscVINop" []] "srl";
  (* coralnpu_v2.bin_fmt:413 coralnpu_v2.isa:335 *)
  E2 "sra_hint" GR [Ceq "func7" 32; Ceq "func3" 5; Ceq "rd" 0; Ceq "opcode" 51]
    ["rs1"; "rs2"] ["rd"] None [Fn "RiscVINop" []] "sra";
  (* coralnpu_v2.bin_fmt:414 coralnpu_v2.isa:315 *)
  E2 "or_hint" GR [Ceq "func7" 0; Ceq "func3" 6; Ceq "rd" 0; Ceq "opcode" 51]
    ["rs1"; "rs2"] ["rd"] None [Fn "RiscVINop" []] "or";
  (* coralnpu_v2.bin_fmt:415 coralnpu_v2.isa:311 *)
  E2 "and_hint" GR [Ceq "func7" 0; Ceq "func3" 7; Ceq "rd" 0; Ceq "opcode" 51]
    ["rs1"; "rs2"] ["rd"] None [Fn "RiscVINop" []] "and";
  (* coralnpu_v2.bin_fmt:416 coralnpu_v2.isa:347 *)
  E2 "fence_hint1" GFence [Ceq "func3" 0; Ceq "rd" 0; Cne "rs1" 0; Ceq "fm" 0; Ceq "pred" 0; Ceq "opcode" 15]
    ["pred"; "succ"] [] None [Fn "RiscVINop" []] "fence";
  (* coralnpu_v2.bin_fmt:417 coralnpu_v2.isa:350 *)
  E2 "fence_hint2" GFence [Ceq "func3" 0; Ceq "rd" 0; Cne "rs1" 0; Ceq "fm" 0; Ceq "succ" 0; Ceq "opcode" 15]
    ["pred"; "succ"] [] None [Fn "RiscVINop" []] "fence";
  (* coralnpu_v2.bin_fmt:418 coralnpu_v2.isa:353 *)
  E2 "fence_hint3" GFence [Ceq "func3" 0; Cne "rd" 0; Ceq "rs1" 0; Ceq "fm" 0; Ceq "pred" 0; Ceq "opcode" 15]
    ["pred"; "succ"] [] None [Fn "RiscVINop" []] "fence";
  (* coralnpu_v2.bin_fmt:419 coralnpu_v2.isa:356 *)
  E2 "fence_hint4" GFence [Ceq "func3" 0; Cne "rd" 0; Ceq "rs1" 0; Ceq "fm" 0; Ceq "succ" 0; Ceq "opcode" 15]
    ["pred"; "succ"] [] None [Fn "RiscVINop" []] "fence";
  (* coralnpu_v2.bin_fmt:420 coralnpu_v2.isa:359 *)
  E2 "fence_hint5" GFence [Ceq "func3" 0; Ceq "rd" 0; Ceq "rs1" 0; Ceq "fm" 0; Ceq "pred" 0; Cne "succ" 0; Ceq "opcode" 15]
    ["pred"; "succ"] [] None [Fn "RiscVINop" []] "fence";
  (* coralnpu_v2.bin_fmt:421 coralnpu_v2.isa:362 *)
  E2 "fence_hint6" GFence [Ceq "func3" 0; Ceq "rd" 0; Ceq "rs1" 0; Ceq "fm" 0; Ceq "succ" 0; Ceq "opcode" 15]
    ["pred"; "succ"] [] None [Fn "RiscVINop" []] "fence";
  (* coralnpu_v2.bin_fmt:422 coralnpu_v2.isa:365 *)
  E2 "fence_hint7" GFence [Ceq "func3" 0; Cne "rd" 0; Ceq "rs1" 0; Ceq "fm" 0; Cne "pred" 1; Ceq "succ" 0; Ceq "opcode" 15]
    ["pred"; "succ"] [] None [Fn "RiscVINop" []] "fence"
].

Definition tab2_RiscVZve32xInst32 : list entry2 := [
  (* coralnpu_v2.bin_fmt:427 coralnpu_v2.isa:764 *)
  E2 "vsetvli_xn" GVConfig [Cne "rs1" 0; Ceq "func1" 0; Ceq "func3" 7; Ceq "opcode" 87]
    ["rs1"; "zimm11"] ["rd"] None [Fn "Vsetvl" [0; 0]] "vsetvli";
  (* coralnpu_v2.bin_fmt:428 coralnpu_v2.isa:767 *)
  E2 "vsetvli_nz" GVConfig [Cne "rd" 0; Ceq "rs1" 0; Ceq "func1" 0; Ceq "func3" 7; Ceq "opcode" 87]
    ["rs1"; "zimm11"] ["rd"] None [Fn "Vsetvl" [0; 1]] "vsetvli";
  (* coralnpu_v2.bin_fmt:429 coralnpu_v2.isa:770 *)
  E2 "vsetvli_zz" GVConfig [Ceq "rd" 0; Ceq "rs1" 0; Ceq "func1" 0; Ceq "func3" 7; Ceq "opcode" 87]
    ["rs1"; "zimm11"] ["rd"] None [Fn "Vsetvl" [1; 1]] "vsetvli";
  (* coralnpu_v2.bin_fmt:430 coralnpu_v2.isa:773 *)
  E2 "vsetivli" GVConfig [Ceq "func2" 3; Ceq "func3" 7; Ceq "opcode" 87]
    ["uimm5"; "zimm10"] ["rd"] None [Fn "Vsetvl" [0; 0]] "vsetivli %uimm5, %zimm10";
  (* coralnpu_v2.bin_fmt:431 coralnpu_v2.isa:776 *)
  E2 "vsetvl_xn" GVConfig [Cne "rs1" 0; Ceq "func7" 64; Ceq "func3" 7; Ceq "opcode" 87]
    ["rs1"; "rs2"] ["rd"] None [Fn "Vsetvl" [0; 0]] "vsetvl";
  (* coralnpu_v2.bin_fmt:432 coralnpu_v2.isa:779 *)
  E2 "vsetvl_nz" GVConfig [Cne "rd" 0; Ceq "rs1" 0; Ceq "func7" 64; Ceq "func3" 7; Ceq "opcode" 87]
    ["rs1"; "rs2"] ["rd"] None [Fn "Vsetvl" [0; 1]] "vsetvl";
  (* coralnpu_v2.bin_fmt:433 coralnpu_v2.isa:782 *)
  E2 "vsetvl_zz" GVConfig [Ceq "rd" 0; Ceq "rs1" 0; Ceq "func7" 64; Ceq "func3" 7; Ceq "opcode" 87]
    ["rs1"; "rs2"] ["rd"] None [Fn "Vsetvl" [1; 1]] "vsetvl";
  (* coralnpu_v2.bin_fmt:436 coralnpu_v2.isa:789 *)
  E2 "vle8" GVMem [Ceq "vm" 0; Ceq "nf" 0; Ceq "mew" 0; Ceq "mop" 0; Ceq "lumop" 0; Ceq "width" 0; Ceq "opcode" 7]
    ["rs1"; "const1"; "vmask"] [] (Some ([], ["vd"])) [Fn "VlStrided" [1]; Fn "VlChild" []] "vle8.v";
  (* coralnpu_v2.bin_fmt:437 coralnpu_v2.isa:793 *)
  E2 "vle16" GVMem [Ceq "vm" 0; Ceq "nf" 0; Ceq "mew" 0; Ceq "mop" 0; Ceq "lumop" 0; Ceq "width" 5; Ceq "opcode" 7]
    ["rs1"; "const2"; "vmask"] [] (Some ([], ["vd"])) [Fn "VlStrided" [2]; Fn "VlChild" []] "vle16.v";
  (* coralnpu_v2.bin_fmt:438 coralnpu_v2.isa:797 *)
  E2 "vle32" GVMem [Ceq "vm" 0; Ceq "nf" 0; Ceq "mew" 0; Ceq "mop" 0; Ceq "lumop" 0; Ceq "width" 6; Ceq "opcode" 7]
    ["rs1"; "const4"; "vmask"] [] (Some ([], ["vd"])) [Fn "VlStrided" [4]; Fn "VlChild" []] "vle32.v";
  (* coralnpu_v2.bin_fmt:440 coralnpu_v2.isa:803 *)
  E2 "vle8_vm1" GVMem [Ceq "vm" 1; Ceq "nf" 0; Ceq "mew" 0; Ceq "mop" 0; Ceq "lumop" 0; Ceq "width" 0; Ceq "opcode" 7]
    ["rs1"; "const1"; "vmask_true"] [] (Some ([], ["vd"])) [Fn "VlStrided" [1]; Fn "VlChild" []] "vle8.v";
  (* coralnpu_v2.bin_fmt:441 coralnpu_v2.isa:807 *)
  E2 "vle16_vm1" GVMem [Ceq "vm" 1; Ceq "nf" 0; Ceq "mew" 0; Ceq "mop" 0; Ceq "lumop" 0; Ceq "width" 5; Ceq "opcode" 7]
    ["rs1"; "const2"; "vmask_true"] [] (Some ([], ["vd"])) [Fn "VlStrided" [2]; Fn "VlChild" []] "vle16.v";
  (* coralnpu_v2.bin_fmt:442 coralnpu_v2.isa:811 *)
  E2 "vle32_vm1" GVMem [Ceq "vm" 1; Ceq "nf" 0; Ceq "mew" 0; Ceq "mop" 0; Ceq "lumop" 0; Ceq "width" 6; Ceq "opcode" 7]
    ["rs1"; "const4"; "vmask_true"] [] (Some ([], ["vd"])) [Fn "VlStrided" [4]; Fn "VlChild" []] "vle32.v";
  (* coralnpu_v2.bin_fmt:444 coralnpu_v2.isa:831 *)
  E2 "vlm" GVMem [Ceq "nf" 0; Ceq "mew" 0; Ceq "mop" 0; Ceq "lumop" 11; Ceq "width" 0; Ceq "opcode" 7]
    ["rs1"; "const1"; "vmask_true"] [] (Some ([], ["vd"])) [Fn "Vlm" []; Fn "VlChild" []] "vlm.v";
  (* coralnpu_v2.bin_fmt:446 coralnpu_v2.isa:836 *)
  E2 "vle8ff" GVMem [Ceq "nf" 0; Ceq "mew" 0; Ceq "mop" 0; Ceq "lumop" 16; Ceq "width" 0; Ceq "opcode" 7]
    ["rs1"; "const1"; "vmask"] [] (Some ([], ["vd"])) [Fn "VlStrided" [1]; Fn "VlChild" []] "vle8ff.v";
  (* coralnpu_v2.bin_fmt:447 coralnpu_v2.isa:840 *)
  E2 "vle16ff" GVMem [Ceq "nf" 0; Ceq "mew" 0; Ceq "mop" 0; Ceq "lumop" 16; Ceq "width" 5; Ceq "opcode" 7]
    ["rs1"; "const2"; "vmask"] [] (Some ([], ["vd"])) [Fn "VlStrided" [2]; Fn "VlChild" []] "vle16ff.v";
  (* coralnpu_v2.bin_fmt:448 coralnpu_v2.isa:844 *)
  E2 "vle32ff" GVMem [Ceq "nf" 0; Ceq "mew" 0; Ceq "mop" 0; Ceq "lumop" 16; Ceq "width" 6; Ceq "opcode" 7]
    ["rs1"; "const4"; "vmask"] [] (Some ([], ["vd"])) [Fn "VlStrided" [4]; Fn "VlChild" []] "vle32ff.v";
  (* coralnpu_v2.bin_fmt:450 coralnpu_v2.isa:850 *)
  E2 "vl1re8" GVMem [Ceq "nf" 0; Ceq "mop" 0; Ceq "vm" 1; Ceq "lumop" 8; Ceq "width" 0; Ceq "opcode" 7]
    ["rs1"] [] (Some ([], ["vd"])) [Fn "VlRegister" [1; 1]; Fn "VlChild" []] "vl1re8.v";
  (* coralnpu_v2.bin_fmt:451 coralnpu_v2.isa:854 *)
  E2 "vl1re16" GVMem [Ceq "nf" 0; Ceq "mop" 0; Ceq "vm" 1; Ceq "lumop" 8; Ceq "width" 5; Ceq "opcode" 7]
    ["rs1"] [] (Some ([], ["vd"])) [Fn "VlRegister" [1; 2]; Fn "VlChild" []] "vl1re16.v";
  (* coralnpu_v2.bin_fmt:452 coralnpu_v2.isa:858 *)
  E2 "vl1re32" GVMem [Ceq "nf" 0; Ceq "mop" 0; Ceq "vm" 1; Ceq "lumop" 8; Ceq "width" 6; Ceq "opcode" 7]
    ["rs1"] [] (Some ([], ["vd"])) [Fn "VlRegister" [1; 4]; Fn "VlChild" []] "vl1re32.v";
  (* coralnpu_v2.bin_fmt:453 coralnpu_v2.isa:862 *)
  E2 "vl2re8" GVMem [Ceq "nf" 1; Ceq "mop" 0; Ceq "vm" 1; Ceq "lumop" 8; Ceq "width" 0; Ceq "opcode" 7]
    ["rs1"] [] (Some ([], ["vd"])) [Fn "VlRegister" [2; 1]; Fn "VlChild" []] "vl2re8.v";
  (* coralnpu_v2.bin_fmt:454 coralnpu_v2.isa:866 *)
  E2 "vl2re16" GVMem [Ceq "nf" 1; Ceq "mop" 0; Ceq "vm" 1; Ceq "lumop" 8; Ceq "width" 5; Ceq "opcode" 7]
    ["rs1"] [] (Some ([], ["vd"])) [Fn "VlRegister" [2; 2]; Fn "VlChild" []] "vl2re16.v";
  (* coralnpu_v2.bin_fmt:455 coralnpu_v2.isa:870 *)
  E2 "vl2re32" GVMem [Ceq "nf" 1; Ceq "mop" 0; Ceq "vm" 1; Ceq "lumop" 8; Ceq "width" 6; Ceq "opcode" 7]
    ["rs1"] [] (Some ([], ["vd"])) [Fn "VlRegister" [2; 4]; Fn "VlChild" []] "vl2re32.v";
  (* coralnpu_v2.bin_fmt:456 coralnpu_v2.isa:874 *)
  E2 "vl4re8" GVMem [Ceq "nf" 3; Ceq "mop" 0; Ceq "vm" 1; Ceq "lumop" 8; Ceq "width" 0; Ceq "opcode" 7]
    ["rs1"] [] (Some ([], ["vd"])) [Fn "VlRegister" [4; 1]; Fn "VlChild" []] "vl4re8.v";
  (* coralnpu_v2.bin_fmt:457 coralnpu_v2.isa:878 *)
  E2 "vl4re16" GVMem [Ceq "nf" 3; Ceq "mop" 0; Ceq "vm" 1; Ceq "lumop" 8; Ceq "width" 5; Ceq "opcode" 7]
    ["rs1"] [] (Some ([], ["vd"])) [Fn "VlRegister" [4; 2]; Fn "VlChild" []] "vl4re16.v";
  (* coralnpu_v2.bin_fmt:458 coralnpu_v2.isa:882 *)
  E2 "vl4re32" GVMem [Ceq "nf" 3; Ceq "mop" 0; Ceq "vm" 1; Ceq "lumop" 8; Ceq "width" 6; Ceq "opcode" 7]
    ["rs1"] [] (Some ([], ["vd"])) [Fn "VlRegister" [4; 4]; Fn "VlChild" []] "vl4re32.v";
  (* coralnpu_v2.bin_fmt:459 coralnpu_v2.isa:886 *)
  E2 "vl8re8" GVMem [Ceq "nf" 7; Ceq "mop" 0; Ceq "vm" 1; Ceq "lumop" 8; Ceq "width" 0; Ceq "opcode" 7]
    ["rs1"] [] (Some ([], ["vd"])) [Fn "VlRegister" [8; 1]; Fn "VlChild" []] "vl8re8.v";
  (* coralnpu_v2.bin_fmt:460 coralnpu_v2.isa:890 *)
  E2 "vl8re16" GVMem [Ceq "nf" 7; Ceq "mop" 0; Ceq "vm" 1; Ceq "lumop" 8; Ceq "width" 5; Ceq "opcode" 7]
    ["rs1"] [] (Some ([], ["vd"])) [Fn "VlRegister" [8; 2]; Fn "VlChild" []] "vl8re16.v";
  (* coralnpu_v2.bin_fmt:461 coralnpu_v2.isa:894 *)
  E2 "vl8re32" GVMem [Ceq "nf" 7; Ceq "mop" 0; Ceq "vm" 1; Ceq "lumop" 8; Ceq "width" 6; Ceq "opcode" 7]
    ["rs1"] [] (Some ([], ["vd"])) [Fn "VlRegister" [8; 4]; Fn "VlChild" []] "vl8re32.v";
  (* coralnpu_v2.bin_fmt:463 coralnpu_v2.isa:817 *)
  E2 "vlse8" GVMem [Ceq "nf" 0; Ceq "mew" 0; Ceq "mop" 2; Ceq "width" 0; Ceq "opcode" 7]
    ["rs1"; "rs2"; "vmask"] [] (Some ([], ["vd"])) [Fn "VlStrided" [1]; Fn "VlChild" []] "vlse8.v";
  (* coralnpu_v2.bin_fmt:464 coralnpu_v2.isa:821 *)
  E2 "vlse16" GVMem [Ceq "nf" 0; Ceq "mew" 0; Ceq "mop" 2; Ceq "width" 5; Ceq "opcode" 7]
    ["rs1"; "rs2"; "vmask"] [] (Some ([], ["vd"])) [Fn "VlStrided" [2]; Fn "VlChild" []] "vlse16.v";
  (* coralnpu_v2.bin_fmt:465 coralnpu_v2.isa:825 *)
  E2 "vlse32" GVMem [Ceq "nf" 0; Ceq "mew" 0; Ceq "mop" 2; Ceq "width" 6; Ceq "opcode" 7]
    ["rs1"; "rs2"; "vmask"] [] (Some ([], ["vd"])) [Fn "VlStrided" [4]; Fn "VlChild" []] "vlse32.v";
  (* coralnpu_v2.bin_fmt:467 coralnpu_v2.isa:900 *)
  E2 "vluxei8" GVMem [Ceq "nf" 0; Ceq "mew" 0; Ceq "mop" 1; Ceq "width" 0; Ceq "opcode" 7]
    ["rs1"; "vs2"; "vmask"] [] (Some ([], ["vd"])) [Fn "VlIndexed" [1]; Fn "VlChild" []] "vluxei8.v";
  (* coralnpu_v2.bin_fmt:468 coralnpu_v2.isa:904 *)
  E2 "vluxei16" GVMem [Ceq "nf" 0; Ceq "mew" 0; Ceq "mop" 1; Ceq "width" 5; Ceq "opcode" 7]
    ["rs1"; "vs2"; "vmask"] [] (Some ([], ["vd"])) [Fn "VlIndexed" [2]; Fn "VlChild" []] "vluxei16.v";
  (* coralnpu_v2.bin_fmt:469 coralnpu_v2.isa:908 *)
  E2 "vluxei32" GVMem [Ceq "nf" 0; Ceq "mew" 0; Ceq "mop" 1; Ceq "width" 6; Ceq "opcode" 7]
    ["rs1"; "vs2"; "vmask"] [] (Some ([], ["vd"])) [Fn "VlIndexed" [4]; Fn "VlChild" []] "vluxei32.v";
  (* coralnpu_v2.bin_fmt:471 coralnpu_v2.isa:914 *)
  E2 "vloxei8" GVMem [Ceq "nf" 0; Ceq "mew" 0; Ceq "mop" 3; Ceq "width" 0; Ceq "opcode" 7]
    ["rs1"; "vs2"; "vmask"] [] (Some ([], ["vd"])) [Fn "VlIndexed" [1]; Fn "VlChild" []] "vloxei8.v";
  (* coralnpu_v2.bin_fmt:472 coralnpu_v2.isa:918 *)
  E2 "vloxei16" GVMem [Ceq "nf" 0; Ceq "mew" 0; Ceq "mop" 3; Ceq "width" 5; Ceq "opcode" 7]
    ["rs1"; "vs2"; "vmask"] [] (Some ([], ["vd"])) [Fn "VlIndexed" [2]; Fn "VlChild" []] "vloxei16.v";
  (* coralnpu_v2.bin_fmt:473 coralnpu_v2.isa:922 *)
  E2 "vloxei32" GVMem [Ceq "nf" 0; Ceq "mew" 0; Ceq "mop" 3; Ceq "width" 6; Ceq "opcode" 7]
    ["rs1"; "vs2"; "vmask"] [] (Some ([], ["vd"])) [Fn "VlIndexed" [4]; Fn "VlChild" []] "vloxei32.v";
  (* coralnpu_v2.bin_fmt:475 coralnpu_v2.isa:928 *)
  E2 "vlsege8" GVMem [Cne "nf" 0; Ceq "mew" 0; Ceq "mop" 0; Ceq "lumop" 0; Ceq "width" 0; Ceq "opcode" 7]
    ["rs1"; "vmask"; "nf"] [] (Some (["nf"], ["vd"])) [Fn "VlSegment" [1]; Fn "VlSegmentChild" [1]] "vlseg%nf\\e.v";
  (* coralnpu_v2.bin_fmt:476 coralnpu_v2.isa:932 *)
  E2 "vlsege16" GVMem [Cne "nf" 0; Ceq "mew" 0; Ceq "mop" 0; Ceq "lumop" 0; Ceq "width" 5; Ceq "opcode" 7]
    ["rs1"; "vmask"; "nf"] [] (Some (["nf"], ["vd"])) [Fn "VlSegment" [2]; Fn "VlSegmentChild" [2]] "vlseg%nf\\e.v";
  (* coralnpu_v2.bin_fmt:477 coralnpu_v2.isa:936 *)
  E2 "vlsege32" GVMem [Cne "nf" 0; Ceq "mew" 0; Ceq "mop" 0; Ceq "lumop" 0; Ceq "width" 6; Ceq "opcode" 7]
    ["rs1"; "vmask"; "nf"] [] (Some (["nf"], ["vd"])) [Fn "VlSegment" [4]; Fn "VlSegmentChild" [4]] "vlseg%nf\\e.v";
  (* coralnpu_v2.bin_fmt:479 coralnpu_v2.isa:942 *)
  E2 "vlssege8" GVMem [Cne "nf" 0; Ceq "mew" 0; Ceq "mop" 2; Ceq "width" 0; Ceq "opcode" 7]
    ["rs1"; "rs2"; "vmask"; "nf"] [] (Some (["nf"], ["vd"])) [Fn "VlSegmentStrided" [1]; Fn "VlSegmentChild" [1]] "vlsseg%nf\\e8.v";
  (* coralnpu_v2.bin_fmt:480 coralnpu_v2.isa:946 *)
  E2 "vlssege16" GVMem [Cne "nf" 0; Ceq "mew" 0; Ceq "mop" 2; Ceq "width" 5; Ceq "opcode" 7]
    ["rs1"; "rs2"; "vmask"; "nf"] [] (Some (["nf"], ["vd"])) [Fn "VlSegmentStrided" [2]; Fn "VlSegmentChild" [2]] "vlsseg%nf\\e16.v";
  (* coralnpu_v2.bin_fmt:481 coralnpu_v2.isa:950 *)
  E2 "vlssege32" GVMem [Cne "nf" 0; Ceq "mew" 0; Ceq "mop" 2; Ceq "width" 6; Ceq "opcode" 7]
    ["rs1"; "rs2"; "vmask"; "nf"] [] (Some (["nf"], ["vd"])) [Fn "VlSegmentStrided" [4]; Fn "VlSegmentChild" [4]] "vlsseg%nf\\e32.v";
  (* coralnpu_v2.bin_fmt:483 coralnpu_v2.isa:956 *)
  E2 "vluxsegei8" GVMem [Cne "nf" 0; Ceq "mew" 0; Ceq "mop" 1; Ceq "width" 0; Ceq "opcode" 7]
    ["rs1"; "vs2"; "vmask"; "nf"] [] (Some (["nf"], ["vd"])) [Fn "VlSegmentIndexed" [1]; Fn "VlSegmentChild" [1]] "vluxseg%nf\\ei1.v";
  (* coralnpu_v2.bin_fmt:484 coralnpu_v2.isa:960 *)
  E2 "vluxsegei16" GVMem [Cne "nf" 0; Ceq "mew" 0; Ceq "mop" 1; Ceq "width" 5; Ceq "opcode" 7]
    ["rs1"; "vs2"; "vmask"; "nf"] [] (Some (["nf"], ["vd"])) [Fn "VlSegmentIndexed" [2]; Fn "VlSegmentChild" [2]] "vluxseg%nf\\ei2.v";
  (* coralnpu_v2.bin_fmt:485 coralnpu_v2.isa:964 *)
  E2 "vluxsegei32" GVMem [Cne "nf" 0; Ceq "mew" 0; Ceq "mop" 1; Ceq "width" 6; Ceq "opcode" 7]
    ["rs1"; "vs2"; "vmask"; "nf"] [] (Some (["nf"], ["vd"])) [Fn "VlSegmentIndexed" [4]; Fn "VlSegmentChild" [4]] "vluxseg%nf\\ei4.v";
  (* coralnpu_v2.bin_fmt:487 coralnpu_v2.isa:971 *)
  E2 "vloxsegei8" GVMem [Cne "nf" 0; Ceq "mew" 0; Ceq "mop" 3; Ceq "width" 0; Ceq "opcode" 7]
    ["rs1"; "vs2"; "vmask"; "nf"] [] (Some (["nf"], ["vd"])) [Fn "VlSegmentIndexed" [1]; Fn "VlSegmentChild" [1]] "vluxseg%nf\\ei1.v";
  (* coralnpu_v2.bin_fmt:488 coralnpu_v2.isa:975 *)
  E2 "vloxsegei16" GVMem [Cne "nf" 0; Ceq "mew" 0; Ceq "mop" 3; Ceq "width" 5; Ceq "opcode" 7]
    ["rs1"; "vs2"; "vmask"; "nf"] [] (Some (["nf"], ["vd"])) [Fn "VlSegmentIndexed" [2]; Fn "VlSegmentChild" [2]] "vluxseg%nf\\ei2.v";
  (* coralnpu_v2.bin_fmt:489 coralnpu_v2.isa:979 *)
  E2 "vloxsegei32" GVMem [Cne "nf" 0; Ceq "mew" 0; Ceq "mop" 3; Ceq "width" 6; Ceq "opcode" 7]
    ["rs1"; "vs2"; "vmask"; "nf"] [] (Some (["nf"], ["vd"])) [Fn "VlSegmentIndexed" [4]; Fn "VlSegmentChild" [4]] "vluxseg%nf\\ei4.v";
  (* coralnpu_v2.bin_fmt:495 coralnpu_v2.isa:987 *)
  E2 "vse8" GVMem [Ceq "nf" 0; Ceq "mew" 0; Ceq "mop" 0; Ceq "sumop" 0; Ceq "width" 0; Ceq "opcode" 39]
    ["vs3"; "rs1"; "const1"; "vmask"] [] None [Fn "VsStrided" [1]] "vse8.v";
  (* coralnpu_v2.bin_fmt:496 coralnpu_v2.isa:990 *)
  E2 "vse16" GVMem [Ceq "nf" 0; Ceq "mew" 0; Ceq "mop" 0; Ceq "sumop" 0; Ceq "width" 5; Ceq "opcode" 39]
    ["vs3"; "rs1"; "const2"; "vmask"] [] None [Fn "VsStrided" [2]] "vse16.v";
  (* coralnpu_v2.bin_fmt:497 coralnpu_v2.isa:993 *)
  E2 "vse32" GVMem [Ceq "nf" 0; Ceq "mew" 0; Ceq "mop" 0; Ceq "sumop" 0; Ceq "width" 6; Ceq "opcode" 39]
    ["vs3"; "rs1"; "const4"; "vmask"] [] None [Fn "VsStrided" [4]] "vse32.v";
  (* coralnpu_v2.bin_fmt:499 coralnpu_v2.isa:998 *)
  E2 "vsm" GVMem [Ceq "nf" 0; Ceq "mew" 0; Ceq "mop" 0; Ceq "sumop" 11; Ceq "width" 0; Ceq "opcode" 39]
    ["vs3"; "rs1"; "const1"; "vmask_true"] [] None [Fn "Vsm" []] "vsm";
  (* coralnpu_v2.bin_fmt:501 coralnpu_v2.isa:1003 *)
  E2 "vse8ff" GVMem [Ceq "nf" 0; Ceq "mew" 0; Ceq "mop" 0; Ceq "sumop" 16; Ceq "width" 0; Ceq "opcode" 39]
    ["vs3"; "rs1"; "const1"; "vmask"] [] None [Fn "VsStrided" [1]] "vse8ff.v";
  (* coralnpu_v2.bin_fmt:502 coralnpu_v2.isa:1006 *)
  E2 "vse16ff" GVMem [Ceq "nf" 0; Ceq "mew" 0; Ceq "mop" 0; Ceq "sumop" 16; Ceq "width" 5; Ceq "opcode" 39]
    ["vs3"; "rs1"; "const2"; "vmask"] [] None [Fn "VsStrided" [2]] "vse16ff.v";
  (* coralnpu_v2.bin_fmt:503 coralnpu_v2.isa:1009 *)
  E2 "vse32ff" GVMem [Ceq "nf" 0; Ceq "mew" 0; Ceq "mop" 0; Ceq "sumop" 16; Ceq "width" 6; Ceq "opcode" 39]
    ["vs3"; "rs1"; "const4"; "vmask"] [] None [Fn "VsStrided" [4]] "vse32ff.v";
  (* coralnpu_v2.bin_fmt:505 coralnpu_v2.isa:1014 *)
  E2 "vs1re8" GVMem [Ceq "nf" 0; Ceq "mop" 0; Ceq "vm" 1; Ceq "sumop" 8; Ceq "width" 0; Ceq "opcode" 39]
    ["vs3"; "rs1"] [] None [Fn "VsRegister" [1]] "vs1re8.v";
  (* coralnpu_v2.bin_fmt:506 coralnpu_v2.isa:1017 *)
  E2 "vs1re16" GVMem [Ceq "nf" 0; Ceq "mop" 0; Ceq "vm" 1; Ceq "sumop" 8; Ceq "width" 5; Ceq "opcode" 39]
    ["vs3"; "rs1"] [] None [Fn "VsRegister" [1]] "vs1re16.v";
  (* coralnpu_v2.bin_fmt:507 coralnpu_v2.isa:1020 *)
  E2 "vs1re32" GVMem [Ceq "nf" 0; Ceq "mop" 0; Ceq "vm" 1; Ceq "sumop" 8; Ceq "width" 6; Ceq "opcode" 39]
    ["vs3"; "rs1"] [] None [Fn "VsRegister" [1]] "vs1re32.v";
  (* coralnpu_v2.bin_fmt:508 coralnpu_v2.isa:1023 *)
  E2 "vs2re8" GVMem [Ceq "nf" 1; Ceq "mop" 0; Ceq "vm" 1; Ceq "sumop" 8; Ceq "width" 0; Ceq "opcode" 39]
    ["vs3"; "rs1"] [] None [Fn "VsRegister" [2]] "vs2re8.v";
  (* coralnpu_v2.bin_fmt:509 coralnpu_v2.isa:1026 *)
  E2 "vs2re16" GVMem [Ceq "nf" 1; Ceq "mop" 0; Ceq "vm" 1; Ceq "sumop" 8; Ceq "width" 5; Ceq "opcode" 39]
    ["vs3"; "rs1"] [] None [Fn "VsRegister" [2]] "vs2re16.v";
  (* coralnpu_v2.bin_fmt:510 coralnpu_v2.isa:1029 *)
  E2 "vs2re32" GVMem [Ceq "nf" 1; Ceq "mop" 0; Ceq "vm" 1; Ceq "sumop" 8; Ceq "width" 6; Ceq "opcode" 39]
    ["vs3"; "rs1"] [] None [Fn "VsRegister" [2]] "vs2re32.v";
  (* coralnpu_v2.bin_fmt:511 coralnpu_v2.isa:1032 *)
  E2 "vs4re8" GVMem [Ceq "nf" 3; Ceq "mop" 0; Ceq "vm" 1; Ceq "sumop" 8; Ceq "width" 0; Ceq "opcode" 39]
    ["vs3"; "rs1"] [] None [Fn "VsRegister" [4]] "vs4re8.v";
  (* coralnpu_v2.bin_fmt:512 coralnpu_v2.isa:1035 *)
  E2 "vs4re16" GVMem [Ceq "nf" 3; Ceq "mop" 0; Ceq "vm" 1; Ceq "sumop" 8; Ceq "width" 5; Ceq "opcode" 39]
    ["vs3"; "rs1"] [] None [Fn "VsRegister" [4]] "vs4re16.v";
  (* coralnpu_v2.bin_fmt:513 coralnpu_v2.isa:1038 *)
  E2 "vs4re32" GVMem [Ceq "nf" 3; Ceq "mop" 0; Ceq "vm" 1; Ceq "sumop" 8; Ceq "width" 6; Ceq "opcode" 39]
    ["vs3"; "rs1"] [] None [Fn "VsRegister" [4]] "vs4re32.v";
  (* coralnpu_v2.bin_fmt:514 coralnpu_v2.isa:1041 *)
  E2 "vs8re8" GVMem [Ceq "nf" 7; Ceq "mop" 0; Ceq "vm" 1; Ceq "sumop" 8; Ceq "width" 0; Ceq "opcode" 39]
    ["vs3"; "rs1"] [] None [Fn "VsRegister" [8]] "vs8re8.v";
  (* coralnpu_v2.bin_fmt:515 coralnpu_v2.isa:1044 *)
  E2 "vs8re16" GVMem [Ceq "nf" 7; Ceq "mop" 0; Ceq "vm" 1; Ceq "sumop" 8; Ceq "width" 5; Ceq "opcode" 39]
    ["vs3"; "rs1"] [] None [Fn "VsRegister" [8]] "vs8re16.v";
  (* coralnpu_v2.bin_fmt:516 coralnpu_v2.isa:1047 *)
  E2 "vs8re32" GVMem [Ceq "nf" 7; Ceq "mop" 0; Ceq "vm" 1; Ceq "sumop" 8; Ceq "width" 6; Ceq "opcode" 39]
    ["vs3"; "rs1"] [] None [Fn "VsRegister" [8]] "vs8re32.v";
  (* coralnpu_v2.bin_fmt:518 coralnpu_v2.isa:1052 *)
  E2 "vsse8" GVMem [Ceq "nf" 0; Ceq "mew" 0; Ceq "mop" 2; Ceq "width" 0; Ceq "opcode" 39]
    ["vs3"; "rs1"; "rs2"; "vmask"] [] None [Fn "VsStrided" [1]] "vsse8.v";
  (* coralnpu_v2.bin_fmt:519 coralnpu_v2.isa:1055 *)
  E2 "vsse16" GVMem [Ceq "nf" 0; Ceq "mew" 0; Ceq "mop" 2; Ceq "width" 5; Ceq "opcode" 39]
    ["vs3"; "rs1"; "rs2"; "vmask"] [] None [Fn "VsStrided" [2]] "vsse16.v";
  (* coralnpu_v2.bin_fmt:520 coralnpu_v2.isa:1058 *)
  E2 "vsse32" GVMem [Ceq "nf" 0; Ceq "mew" 0; Ceq "mop" 2; Ceq "width" 6; Ceq "opcode" 39]
    ["vs3"; "rs1"; "rs2"; "vmask"] [] None [Fn "VsStrided" [4]] "vsse32.v";
  (* coralnpu_v2.bin_fmt:522 coralnpu_v2.isa:1063 *)
  E2 "vsuxei8" GVMem [Ceq "nf" 0; Ceq "mew" 0; Ceq "mop" 1; Ceq "width" 0; Ceq "opcode" 39]
    ["vs3"; "rs1"; "vs2"; "vmask"] [] None [Fn "VsIndexed" [1]] "vsuxei8";
  (* coralnpu_v2.bin_fmt:523 coralnpu_v2.isa:1066 *)
  E2 "vsuxei16" GVMem [Ceq "nf" 0; Ceq "mew" 0; Ceq "mop" 1; Ceq "width" 5; Ceq "opcode" 39]
    ["vs3"; "rs1"; "vs2"; "vmask"] [] None [Fn "VsIndexed" [2]] "vsuxei16";
  (* coralnpu_v2.bin_fmt:524 coralnpu_v2.isa:1069 *)
  E2 "vsuxei32" GVMem [Ceq "nf" 0; Ceq "mew" 0; Ceq "mop" 1; Ceq "width" 6; Ceq "opcode" 39]
    ["vs3"; "rs1"; "vs2"; "vmask"] [] None [Fn "VsIndexed" [4]] "vsuxei32";
  (* coralnpu_v2.bin_fmt:526 coralnpu_v2.isa:1074 *)
  E2 "vsoxei8" GVMem [Ceq "nf" 0; Ceq "mew" 0; Ceq "mop" 3; Ceq "width" 0; Ceq "opcode" 39]
    ["vs3"; "rs1"; "vs2"; "vmask"] [] None [Fn "VsIndexed" [1]] "vsoxei8";
  (* coralnpu_v2.bin_fmt:527 coralnpu_v2.isa:1077 *)
  E2 "vsoxei16" GVMem [Ceq "nf" 0; Ceq "mew" 0; Ceq "mop" 3; Ceq "width" 5; Ceq "opcode" 39]
    ["vs3"; "rs1"; "vs2"; "vmask"] [] None [Fn "VsIndexed" [2]] "vsoxei16";
  (* coralnpu_v2.bin_fmt:528 coralnpu_v2.isa:1080 *)
  E2 "vsoxei32" GVMem [Ceq "nf" 0; Ceq "mew" 0; Ceq "mop" 3; Ceq "width" 6; Ceq "opcode" 39]
    ["vs3"; "rs1"; "vs2"; "vmask"] [] None [Fn "VsIndexed" [4]] "vsoxei32";
  (* coralnpu_v2.bin_fmt:530 coralnpu_v2.isa:1085 *)
  E2 "vssege8" GVMem [Cne "nf" 0; Ceq "mew" 0; Ceq "mop" 0; Ceq "sumop" 0; Ceq "width" 0; Ceq "opcode" 39]
    ["vs3"; "rs1"; "vmask"; "nf"] [] None [Fn "VsSegment" [1]] "vsseg%nf\\e.v";
  (* coralnpu_v2.bin_fmt:531 coralnpu_v2.isa:1088 *)
  E2 "vssege16" GVMem [Cne "nf" 0; Ceq "mew" 0; Ceq "mop" 0; Ceq "sumop" 0; Ceq "width" 5; Ceq "opcode" 39]
    ["vs3"; "rs1"; "vmask"; "nf"] [] None [Fn "VsSegment" [2]] "vsseg%nf\\e.v";
  (* coralnpu_v2.bin_fmt:532 coralnpu_v2.isa:1091 *)
  E2 "vssege32" GVMem [Cne "nf" 0; Ceq "mew" 0; Ceq "mop" 0; Ceq "sumop" 0; Ceq "width" 6; Ceq "opcode" 39]
    ["vs3"; "rs1"; "vmask"; "nf"] [] None [Fn "VsSegment" [4]] "vsseg%nf\\e.v";
  (* coralnpu_v2.bin_fmt:534 coralnpu_v2.isa:1096 *)
  E2 "vsssege8" GVMem [Cne "nf" 0; Ceq "mew" 0; Ceq "mop" 2; Ceq "width" 0; Ceq "opcode" 39]
    ["vs3"; "rs1"; "rs2"; "vmask"; "nf"] [] None [Fn "VsSegmentStrided" [1]] "vssseg%nf\\e8.v";
  (* coralnpu_v2.bin_fmt:535 coralnpu_v2.isa:1099 *)
  E2 "vsssege16" GVMem [Cne "nf" 0; Ceq "mew" 0; Ceq "mop" 2; Ceq "width" 5; Ceq "opcode" 39]
    ["vs3"; "rs1"; "rs2"; "vmask"; "nf"] [] None [Fn "VsSegmentStrided" [2]] "vssseg%nf\\e16.v";
  (* coralnpu_v2.bin_fmt:536 coralnpu_v2.isa:1102 *)
  E2 "vsssege32" GVMem [Cne "nf" 0; Ceq "mew" 0; Ceq "mop" 2; Ceq "width" 6; Ceq "opcode" 39]
    ["vs3"; "rs1"; "rs2"; "vmask"; "nf"] [] None [Fn "VsSegmentStrided" [4]] "vssseg%nf\\e32.v";
  (* coralnpu_v2.bin_fmt:538 coralnpu_v2.isa:1107 *)
  E2 "vsuxsegei8" GVMem [Cne "nf" 0; Ceq "mew" 0; Ceq "mop" 1; Ceq "width" 0; Ceq "opcode" 39]
    ["vs3"; "rs1"; "vs2"; "vmask"; "nf"] [] None [Fn "VsSegmentStrided" [1]] "vsuxseg%nf\\ei1.v";
  (* coralnpu_v2.bin_fmt:539 coralnpu_v2.isa:1110 *)
  E2 "vsuxsegei16" GVMem [Cne "nf" 0; Ceq "mew" 0; Ceq "mop" 1; Ceq "width" 5; Ceq "opcode" 39]
    ["vs3"; "rs1"; "vs2"; "vmask"; "nf"] [] None [Fn "VsSegmentStrided" [2]] "vsuxseg%nf\\ei2.v";
  (* coralnpu_v2.bin_fmt:540 coralnpu_v2.isa:1113 *)
  E2 "vsuxsegei32" GVMem [Cne "nf" 0; Ceq "mew" 0; Ceq "mop" 1; Ceq "width" 6; Ceq "opcode" 39]
    ["vs3"; "rs1"; "vs2"; "vmask"; "nf"] [] None [Fn "VsSegmentStrided" [4]] "vsuxseg%nf\\ei4.v";
  (* coralnpu_v2.bin_fmt:542 coralnpu_v2.isa:1118 *)
  E2 "vsoxsegei8" GVMem [Cne "nf" 0; Ceq "mew" 0; Ceq "mop" 3; Ceq "width" 0; Ceq "opcode" 39]
    ["vs3"; "rs1"; "vs2"; "vmask"; "nf"] [] None [Fn "VsSegmentIndexed" [1]] "vsuxseg%nf\\ei1.v";
  (* coralnpu_v2.bin_fmt:543 coralnpu_v2.isa:1121 *)
  E2 "vsoxsegei16" GVMem [Cne "nf" 0; Ceq "mew" 0; Ceq "mop" 3; Ceq "width" 5; Ceq "opcode" 39]
    ["vs3"; "rs1"; "vs2"; "vmask"; "nf"] [] None [Fn "VsSegmentIndexed" [2]] "vsuxseg%nf\\ei2.v";
  (* coralnpu_v2.bin_fmt:544 coralnpu_v2.isa:1124 *)
  E2 "vsoxsegei32" GVMem [Cne "nf" 0; Ceq "mew" 0; Ceq "mop" 3; Ceq "width" 6; Ceq "opcode" 39]
    ["vs3"; "rs1"; "vs2"; "vmask"; "nf"] [] None [Fn "VsSegmentIndexed" [4]] "vsuxseg%nf\\ei4.v";
  (* coralnpu_v2.bin_fmt:551 coralnpu_v2.isa:1129 *)
  E2 "vadd_vv" GVArith [Ceq "func6" 0; Ceq "func3" 0; Ceq "opcode" 87]
    ["vs2"; "vs1"; "vmask"] ["vd"] None [Fn "Vadd" []] "vadd.vv";
  (* coralnpu_v2.bin_fmt:552 coralnpu_v2.isa:1132 *)
  E2 "vadd_vx" GVArith [Ceq "func6" 0; Ceq "func3" 4; Ceq "opcode" 87]
    ["vs2"; "rs1"; "vmask"] ["vd"] None [Fn "Vadd" []] "vadd.vx";
  (* coralnpu_v2.bin_fmt:553 coralnpu_v2.isa:1135 *)
  E2 "vadd_vi" GVArith [Ceq "func6" 0; Ceq "func3" 3; Ceq "opcode" 87]
    ["vs2"; "simm5"; "vmask"] ["vd"] None [Fn "Vadd" []] "vadd.vi";
  (* coralnpu_v2.bin_fmt:554 coralnpu_v2.isa:1138 *)
  E2 "vsub_vv" GVArith [Ceq "func6" 2; Ceq "func3" 0; Ceq "opcode" 87]
    ["vs2"; "vs1"; "vmask"] ["vd"] None [Fn "Vsub" []] "vsub.vv";
  (* coralnpu_v2.bin_fmt:555 coralnpu_v2.isa:1141 *)
  E2 "vsub_vx" GVArith [Ceq "func6" 2; Ceq "func3" 4; Ceq "opcode" 87]
    ["vs2"; "rs1"; "vmask"] ["vd"] None [Fn "Vsub" []] "vsub.vx";
  (* coralnpu_v2.bin_fmt:556 coralnpu_v2.isa:1144 *)
  E2 "vrsub_vx" GVArith [Ceq "func6" 3; Ceq "func3" 4; Ceq "opcode" 87]
    ["vs2"; "rs1"; "vmask"] ["vd"] None [Fn "Vrsub" []] "vrsub.vx";
  (* coralnpu_v2.bin_fmt:557 coralnpu_v2.isa:1147 *)
  E2 "vrsub_vi" GVArith [Ceq "func6" 3; Ceq "func3" 3; Ceq "opcode" 87]
    ["vs2"; "simm5"; "vmask"; "vd"] [] None [Fn "Vrsub" []] "vrsub.vi";
  (* coralnpu_v2.bin_fmt:558 coralnpu_v2.isa:1150 *)
  E2 "vminu_vv" GVArith [Ceq "func6" 4; Ceq "func3" 0; Ceq "opcode" 87]
    ["vs2"; "vs1"; "vmask"] ["vd"] None [Fn "Vminu" []] "vminu.vv";
  (* coralnpu_v2.bin_fmt:559 coralnpu_v2.isa:1153 *)
  E2 "vminu_vx" GVArith [Ceq "func6" 4; Ceq "func3" 4; Ceq "opcode" 87]
    ["vs2"; "rs1"; "vmask"] ["vd"] None [Fn "Vminu" []] "vminu.vx";
  (* coralnpu_v2.bin_fmt:560 coralnpu_v2.isa:1156 *)
  E2 "vmin_vv" GVArith [Ceq "func6" 5; Ceq "func3" 0; Ceq "opcode" 87]
    ["vs2"; "vs1"; "vmask"] ["vd"] None [Fn "Vmin" []] "vmin.vv";
  (* coralnpu_v2.bin_fmt:561 coralnpu_v2.isa:1159 *)
  E2 "vmin_vx" GVArith [Ceq "func6" 5; Ceq "func3" 4; Ceq "opcode" 87]
    ["vs2"; "rs1"; "vmask"] ["vd"] None [Fn "Vmin" []] "vmin.vx";
  (* coralnpu_v2.bin_fmt:562 coralnpu_v2.isa:1162 *)
  E2 "vmaxu_vv" GVArith [Ceq "func6" 6; Ceq "func3" 0; Ceq "opcode" 87]
    ["vs2"; "vs1"; "vmask"] ["vd"] None [Fn "Vmaxu" []] "vmax.vv";
  (* coralnpu_v2.bin_fmt:563 coralnpu_v2.isa:1165 *)
  E2 "vmaxu_vx" GVArith [Ceq "func6" 6; Ceq "func3" 4; Ceq "opcode" 87]
    ["vs2"; "rs1"; "vmask"] ["vd"] None [Fn "Vmaxu" []] "vmax.vx";
  (* coralnpu_v2.bin_fmt:564 coralnpu_v2.isa:1168 *)
  E2 "vmax_vv" GVArith [Ceq "func6" 7; Ceq "func3" 0; Ceq "opcode" 87]
    ["vs2"; "vs1"; "vmask"] ["vd"] None [Fn "Vmax" []] "vmax.vv";
  (* coralnpu_v2.bin_fmt:565 coralnpu_v2.isa:1171 *)
  E2 "vmax_vx" GVArith [Ceq "func6" 7; Ceq "func3" 4; Ceq "opcode" 87]
    ["vs2"; "rs1"; "vmask"] ["vd"] None [Fn "Vmax" []] "vmax.vx";
  (* coralnpu_v2.bin_fmt:566 coralnpu_v2.isa:1174 *)
  E2 "vand_vv" GVArith [Ceq "func6" 9; Ceq "func3" 0; Ceq "opcode" 87]
    ["vs2"; "vs1"; "vmask"] ["vd"] None [Fn "Vand" []] "vand.vv";
  (* coralnpu_v2.bin_fmt:567 coralnpu_v2.isa:1177 *)
  E2 "vand_vx" GVArith [Ceq "func6" 9; Ceq "func3" 4; Ceq "opcode" 87]
    ["vs2"; "rs1"; "vmask"] ["vd"] None [Fn "Vand" []] "vand.vx";
  (* coralnpu_v2.bin_fmt:568 coralnpu_v2.isa:1180 *)
  E2 "vand_vi" GVArith [Ceq "func6" 9; Ceq "func3" 3; Ceq "opcode" 87]
    ["vs2"; "simm5"; "vmask"] ["vd"] None [Fn "Vand" []] "vand.vi";
  (* coralnpu_v2.bin_fmt:569 coralnpu_v2.isa:1183 *)
  E2 "vor_vv" GVArith [Ceq "func6" 10; Ceq "func3" 0; Ceq "opcode" 87]
    ["vs2"; "vs1"; "vmask"] ["vd"] None [Fn "Vor" []] "vor.vv";
  (* coralnpu_v2.bin_fmt:570 coralnpu_v2.isa:1186 *)
  E2 "vor_vx" GVArith [Ceq "func6" 10; Ceq "func3" 4; Ceq "opcode" 87]
    ["vs2"; "rs1"; "vmask"] ["vd"] None [Fn "Vor" []] "vor.vx";
  (* coralnpu_v2.bin_fmt:571 coralnpu_v2.isa:1189 *)
  E2 "vor_vi" GVArith [Ceq "func6" 10; Ceq "func3" 3; Ceq "opcode" 87]
    ["vs2"; "simm5"; "vmask"] ["vd"] None [Fn "Vor" []] "vor.vi";
  (* coralnpu_v2.bin_fmt:572 coralnpu_v2.isa:1192 *)
  E2 "vxor_vv" GVArith [Ceq "func6" 11; Ceq "func3" 0; Ceq "opcode" 87]
    ["vs2"; "vs1"; "vmask"] ["vd"] None [Fn "Vxor" []] "vxor.vv";
  (* coralnpu_v2.bin_fmt:573 coralnpu_v2.isa:1195 *)
  E2 "vxor_vx" GVArith [Ceq "func6" 11; Ceq "func3" 4; Ceq "opcode" 87]
    ["vs2"; "rs1"; "vmask"] ["vd"] None [Fn "Vxor" []] "vxor.vx";
  (* coralnpu_v2.bin_fmt:574 coralnpu_v2.isa:1198 *)
  E2 "vxor_vi" GVArith [Ceq "func6" 11; Ceq "func3" 3; Ceq "opcode" 87]
    ["vs2"; "simm5"; "vmask"] ["vd"] None [Fn "Vxor" []] "vxor.vi";
  (* coralnpu_v2.bin_fmt:575 coralnpu_v2.isa:1201 *)
  E2 "vrgather_vv" GVArith [Ceq "func6" 12; Ceq "func3" 0; Ceq "opcode" 87]
    ["vs2"; "vs1"; "vmask"] ["vd"] None [Fn "Vrgather" []] "vrgather.vv";
  (* coralnpu_v2.bin_fmt:576 coralnpu_v2.isa:1204 *)
  E2 "vrgather_vx" GVArith [Ceq "func6" 12; Ceq "func3" 4; Ceq "opcode" 87]
    ["vs2"; "rs1"; "vmask"] ["vd"] None [Fn "Vrgather" []] "vrgather.vx";
  (* coralnpu_v2.bin_fmt:577 coralnpu_v2.isa:1207 *)
  E2 "vrgather_vi" GVArith [Ceq "func6" 12; Ceq "func3" 3; Ceq "opcode" 87]
    ["vs2"; "uimm5"; "vmask"] ["vd"] None [Fn "Vrgather" []] "vrgather.vi";
  (* coralnpu_v2.bin_fmt:578 coralnpu_v2.isa:1213 *)
  E2 "vslideup_vx" GVArith [Ceq "func6" 14; Ceq "func3" 4; Ceq "opcode" 87]
    ["vs2"; "rs1"; "vmask"] ["vd"] None [Fn "Vslideup" []] "vslideup.vx";
  (* coralnpu_v2.bin_fmt:579 coralnpu_v2.isa:1216 *)
  E2 "vslideup_vi" GVArith [Ceq "func6" 14; Ceq "func3" 3; Ceq "opcode" 87]
    ["vs2"; "uimm5"; "vmask"] ["vd"] None [Fn "Vslideup" []] "vslideup.vi";
  (* coralnpu_v2.bin_fmt:580 coralnpu_v2.isa:1210 *)
  E2 "vrgatherei16_vv" GVArith [Ceq "func6" 14; Ceq "func3" 0; Ceq "opcode" 87]
    ["vs2"; "vs1"; "vmask"] ["vd"] None [Fn "Vrgatherei16" []] "vrgatherei16.vv";
  (* coralnpu_v2.bin_fmt:581 coralnpu_v2.isa:1219 *)
  E2 "vslidedown_vx" GVArith [Ceq "func6" 15; Ceq "func3" 4; Ceq "opcode" 87]
    ["vs2"; "rs1"; "vmask"] ["vd"] None [Fn "Vslidedown" []] "vslidedown.vx";
  (* coralnpu_v2.bin_fmt:582 coralnpu_v2.isa:1222 *)
  E2 "vslidedown_vi" GVArith [Ceq "func6" 15; Ceq "func3" 3; Ceq "opcode" 87]
    ["vs2"; "uimm5"; "vmask"] ["vd"] None [Fn "Vslidedown" []] "vslidedown.vi";
  (* coralnpu_v2.bin_fmt:583 coralnpu_v2.isa:1225 *)
  E2 "vadc_vv" GVArith [Ceq "func6" 16; Cne "vd" 0; Ceq "vm" 0; Ceq "func3" 0; Ceq "opcode" 87]
    ["vs2"; "vs1"; "vmask"] ["vd"] None [Fn "Vadc" []] "vadc.vv";
  (* coralnpu_v2.bin_fmt:584 coralnpu_v2.isa:1228 *)
  E2 "vadc_vx" GVArith [Ceq "func6" 16; Cne "vd" 0; Ceq "vm" 0; Ceq "func3" 4; Ceq "opcode" 87]
    ["vs2"; "rs1"; "vmask"] ["vd"] None [Fn "Vadc" []] "vadc.vx";
  (* coralnpu_v2.bin_fmt:585 coralnpu_v2.isa:1231 *)
  E2 "vadc_vi" GVArith [Ceq "func6" 16; Cne "vd" 0; Ceq "vm" 0; Ceq "func3" 3; Ceq "opcode" 87]
    ["vs2"; "simm5"; "vmask"] ["vd"] None [Fn "Vadc" []] "vadc.vi";
  (* coralnpu_v2.bin_fmt:586 coralnpu_v2.isa:1234 *)
  E2 "vmadc_vv" GVArith [Ceq "func6" 17; Ceq "func3" 0; Ceq "opcode" 87]
    ["vs2"; "vs1"; "vmask"; "vm"] ["vd"] None [Fn "Vmadc" []] "vmadc.vv";
  (* coralnpu_v2.bin_fmt:587 coralnpu_v2.isa:1237 *)
  E2 "vmadc_vx" GVArith [Ceq "func6" 17; Ceq "func3" 4; Ceq "opcode" 87]
    ["vs2"; "rs1"; "vmask"; "vm"] ["vd"] None [Fn "Vmadc" []] "vmadc.vx";
  (* coralnpu_v2.bin_fmt:588 coralnpu_v2.isa:1240 *)
  E2 "vmadc_vi" GVArith [Ceq "func6" 17; Ceq "func3" 3; Ceq "opcode" 87]
    ["vs2"; "simm5"; "vmask"; "vm"] ["vd"] None [Fn "Vmadc" []] "vmadc.vi";
  (* coralnpu_v2.bin_fmt:589 coralnpu_v2.isa:1243 *)
  E2 "vsbc_vv" GVArith [Ceq "func6" 18; Cne "vd" 0; Ceq "vm" 0; Ceq "func3" 0; Ceq "opcode" 87]
    ["vs2"; "vs1"; "vmask"] ["vd"] None [Fn "Vsbc" []] "vsbc.vv";
  (* coralnpu_v2.bin_fmt:590 coralnpu_v2.isa:1246 *)
  E2 "vsbc_vx" GVArith [Ceq "func6" 18; Cne "vd" 0; Ceq "vm" 0; Ceq "func3" 4; Ceq "opcode" 87]
    ["vs2"; "rs1"; "vmask"] ["vd"] None [Fn "Vsbc" []] "vsbc.vx";
  (* coralnpu_v2.bin_fmt:591 coralnpu_v2.isa:1249 *)
  E2 "vmsbc_vv" GVArith [Ceq "func6" 19; Ceq "func3" 0; Ceq "opcode" 87]
    ["vs2"; "vs1"; "vmask"; "vm"] ["vd"] None [Fn "Vmsbc" []] "vmsbc.vv";
  (* coralnpu_v2.bin_fmt:592 coralnpu_v2.isa:1252 *)
  E2 "vmsbc_vx" GVArith [Ceq "func6" 19; Ceq "func3" 4; Ceq "opcode" 87]
    ["vs2"; "rs1"; "vmask"; "vm"] ["vd"] None [Fn "Vmsbc" []] "vmsbc.vx";
  (* coralnpu_v2.bin_fmt:593 coralnpu_v2.isa:1255 *)
  E2 "vmerge_vv" GVArith [Ceq "func6" 23; Ceq "vm" 0; Ceq "func3" 0; Ceq "opcode" 87]
    ["vs2"; "vs1"; "vmask"] ["vd"] None [Fn "Vmerge" []] "vmerge.vv";
  (* coralnpu_v2.bin_fmt:594 coralnpu_v2.isa:1258 *)
  E2 "vmerge_vx" GVArith [Ceq "func6" 23; Ceq "vm" 0; Ceq "func3" 4; Ceq "opcode" 87]
    ["vs2"; "rs1"; "vmask"] ["vd"] None [Fn "Vmerge" []] "vmerge.vx";
  (* coralnpu_v2.bin_fmt:595 coralnpu_v2.isa:1261 *)
  E2 "vmerge_vi" GVArith [Ceq "func6" 23; Ceq "vm" 0; Ceq "func3" 3; Ceq "opcode" 87]
    ["vs2"; "simm5"; "vmask"] ["vd"] None [Fn "Vmerge" []] "vmerge.vi";
  (* coralnpu_v2.bin_fmt:596 coralnpu_v2.isa:1264 *)
  E2 "vmv_vv" GVArith [Ceq "func6" 23; Ceq "vm" 1; Ceq "vs2" 0; Ceq "func3" 0; Ceq "opcode" 87]
    ["vs2"; "vs1"; "vmask_true"] ["vd"] None [Fn "Vmerge" []] "vmv.vv";
  (* coralnpu_v2.bin_fmt:597 coralnpu_v2.isa:1267 *)
  E2 "vmv_vx" GVArith [Ceq "func6" 23; Ceq "vm" 1; Ceq "vs2" 0; Ceq "func3" 4; Ceq "opcode" 87]
    ["vs2"; "rs1"; "vmask_true"] ["vd"] None [Fn "Vmerge" []] "vmv.vx";
  (* coralnpu_v2.bin_fmt:598 coralnpu_v2.isa:1270 *)
  E2 "vmv_vi" GVArith [Ceq "func6" 23; Ceq "vm" 1; Ceq "vs2" 0; Ceq "func3" 3; Ceq "opcode" 87]
    ["vs2"; "simm5"; "vmask_true"] ["vd"] None [Fn "Vmerge" []] "vmv.vi";
  (* coralnpu_v2.bin_fmt:599 coralnpu_v2.isa:1273 *)
  E2 "vmseq_vv" GVArith [Ceq "func6" 24; Ceq "func3" 0; Ceq "opcode" 87]
    ["vs2"; "vs1"; "vmask"] ["vd"] None [Fn "Vmseq" []] "vmseq.vv";
  (* coralnpu_v2.bin_fmt:600 coralnpu_v2.isa:1276 *)
  E2 "vmseq_vx" GVArith [Ceq "func6" 24; Ceq "func3" 4; Ceq "opcode" 87]
    ["vs2"; "rs1"; "vmask"] ["vd"] None [Fn "Vmseq" []] "vmseq.vx";
  (* coralnpu_v2.bin_fmt:601 coralnpu_v2.isa:1279 *)
  E2 "vmseq_vi" GVArith [Ceq "func6" 24; Ceq "func3" 3; Ceq "opcode" 87]
    ["vs2"; "simm5"; "vmask"] ["vd"] None [Fn "Vmseq" []] "vmseq.vi";
  (* coralnpu_v2.bin_fmt:602 coralnpu_v2.isa:1282 *)
  E2 "vmsne_vv" GVArith [Ceq "func6" 25; Ceq "func3" 0; Ceq "opcode" 87]
    ["vs2"; "vs1"; "vmask"] ["vd"] None [Fn "Vmsne" []] "vmsne.vv";
  (* coralnpu_v2.bin_fmt:603 coralnpu_v2.isa:1285 *)
  E2 "vmsne_vx" GVArith [Ceq "func6" 25; Ceq "func3" 4; Ceq "opcode" 87]
    ["vs2"; "rs1"; "vmask"] ["vd"] None [Fn "Vmsne" []] "vmsne.vx";
  (* coralnpu_v2.bin_fmt:604 coralnpu_v2.isa:1288 *)
  E2 "vmsne_vi" GVArith [Ceq "func6" 25; Ceq "func3" 3; Ceq "opcode" 87]
    ["vs2"; "simm5"; "vmask"] ["vd"] None [Fn "Vmsne" []] "vmsne.vi";
  (* coralnpu_v2.bin_fmt:605 coralnpu_v2.isa:1291 *)
  E2 "vmsltu_vv" GVArith [Ceq "func6" 26; Ceq "func3" 0; Ceq "opcode" 87]
    ["vs2"; "vs1"; "vmask"] ["vd"] None [Fn "Vmsltu" []] "vmsltu.vv";
  (* coralnpu_v2.bin_fmt:606 coralnpu_v2.isa:1294 *)
  E2 "vmsltu_vx" GVArith [Ceq "func6" 26; Ceq "func3" 4; Ceq "opcode" 87]
    ["vs2"; "rs1"; "vmask"] ["vd"] None [Fn "Vmsltu" []] "vmsltu.vx";
  (* coralnpu_v2.bin_fmt:607 coralnpu_v2.isa:1297 *)
  E2 "vmslt_vv" GVArith [Ceq "func6" 27; Ceq "func3" 0; Ceq "opcode" 87]
    ["vs2"; "vs1"; "vmask"] ["vd"] None [Fn "Vmslt" []] "vmslt.vv";
  (* coralnpu_v2.bin_fmt:608 coralnpu_v2.isa:1300 *)
  E2 "vmslt_vx" GVArith [Ceq "func6" 27; Ceq "func3" 4; Ceq "opcode" 87]
    ["vs2"; "rs1"; "vmask"] ["vd"] None [Fn "Vmslt" []] "vmslt.vx";
  (* coralnpu_v2.bin_fmt:609 coralnpu_v2.isa:1303 *)
  E2 "vmsleu_vv" GVArith [Ceq "func6" 28; Ceq "func3" 0; Ceq "opcode" 87]
    ["vs2"; "vs1"; "vmask"] ["vd"] None [Fn "Vmsleu" []] "vmsleu.vv";
  (* coralnpu_v2.bin_fmt:610 coralnpu_v2.isa:1306 *)
  E2 "vmsleu_vx" GVArith [Ceq "func6" 28; Ceq "func3" 4; Ceq "opcode" 87]
    ["vs2"; "rs1"; "vmask"] ["vd"] None [Fn "Vmsleu" []] "vmsleu.vx";
  (* coralnpu_v2.bin_fmt:611 coralnpu_v2.isa:1309 *)
  E2 "vmsleu_vi" GVArith [Ceq "func6" 28; Ceq "func3" 3; Ceq "opcode" 87]
    ["vs2"; "simm5"; "vmask"] ["vd"] None [Fn "Vmsleu" []] "vmsleu.vi";
  (* coralnpu_v2.bin_fmt:612 coralnpu_v2.isa:1312 *)
  E2 "vmsle_vv" GVArith [Ceq "func6" 29; Ceq "func3" 0; Ceq "opcode" 87]
    ["vs2"; "vs1"; "vmask"] ["vd"] None [Fn "Vmsle" []] "vmsle.vv";
  (* coralnpu_v2.bin_fmt:613 coralnpu_v2.isa:1315 *)
  E2 "vmsle_vx" GVArith [Ceq "func6" 29; Ceq "func3" 4; Ceq "opcode" 87]
    ["vs2"; "rs1"; "vmask"] ["vd"] None [Fn "Vmsle" []] "vmsle.vx";
  (* coralnpu_v2.bin_fmt:614 coralnpu_v2.isa:1318 *)
  E2 "vmsle_vi" GVArith [Ceq "func6" 29; Ceq "func3" 3; Ceq "opcode" 87]
    ["vs2"; "simm5"; "vmask"] ["vd"] None [Fn "Vmsle" []] "vmsle.vi";
  (* coralnpu_v2.bin_fmt:615 coralnpu_v2.isa:1321 *)
  E2 "vmsgtu_vx" GVArith [Ceq "func6" 30; Ceq "func3" 4; Ceq "opcode" 87]
    ["vs2"; "rs1"; "vmask"] ["vd"] None [Fn "Vmsgtu" []] "vmsgtu.vx";
  (* coralnpu_v2.bin_fmt:616 coralnpu_v2.isa:1324 *)
  E2 "vmsgtu_vi" GVArith [Ceq "func6" 30; Ceq "func3" 3; Ceq "opcode" 87]
    ["vs2"; "simm5"; "vmask"] ["vd"] None [Fn "Vmsgtu" []] "vmsgtu.vi";
  (* coralnpu_v2.bin_fmt:617 coralnpu_v2.isa:1327 *)
  E2 "vmsgt_vx" GVArith [Ceq "func6" 31; Ceq "func3" 4; Ceq "opcode" 87]
    ["vs2"; "rs1"; "vmask"] ["vd"] None [Fn "Vmsgt" []] "vmsgt.vx";
  (* coralnpu_v2.bin_fmt:618 coralnpu_v2.isa:1330 *)
  E2 "vmsgt_vi" GVArith [Ceq "func6" 31; Ceq "func3" 3; Ceq "opcode" 87]
    ["vs2"; "simm5"; "vmask"] ["vd"] None [Fn "Vmsgt" []] "vmsgt.vi";
  (* coralnpu_v2.bin_fmt:619 coralnpu_v2.isa:1333 *)
  E2 "vsaddu_vv" GVArith [Ceq "func6" 32; Ceq "func3" 0; Ceq "opcode" 87]
    ["vs2"; "vs1"; "vmask"] ["vd"] None [Fn "Vsaddu" []] "vsaddu.vv";
  (* coralnpu_v2.bin_fmt:620 coralnpu_v2.isa:1336 *)
  E2 "vsaddu_vx" GVArith [Ceq "func6" 32; Ceq "func3" 4; Ceq "opcode" 87]
    ["vs2"; "rs1"; "vmask"] ["vd"] None [Fn "Vsaddu" []] "vsaddu.vx";
  (* coralnpu_v2.bin_fmt:621 coralnpu_v2.isa:1339 *)
  E2 "vsaddu_vi" GVArith [Ceq "func6" 32; Ceq "func3" 3; Ceq "opcode" 87]
    ["vs2"; "simm5"; "vmask"] ["vd"] None [Fn "Vsaddu" []] "vsaddu.vi";
  (* coralnpu_v2.bin_fmt:622 coralnpu_v2.isa:1342 *)
  E2 "vsadd_vv" GVArith [Ceq "func6" 33; Ceq "func3" 0; Ceq "opcode" 87]
    ["vs2"; "vs1"; "vmask"] ["vd"] None [Fn "Vsadd" []] "vsadd.vv";
  (* coralnpu_v2.bin_fmt:623 coralnpu_v2.isa:1345 *)
  E2 "vsadd_vx" GVArith [Ceq "func6" 33; Ceq "func3" 4; Ceq "opcode" 87]
    ["vs2"; "rs1"; "vmask"] ["vd"] None [Fn "Vsadd" []] "vsadd.vx";
  (* coralnpu_v2.bin_fmt:624 coralnpu_v2.isa:1348 *)
  E2 "vsadd_vi" GVArith [Ceq "func6" 33; Ceq "func3" 3; Ceq "opcode" 87]
    ["vs2"; "simm5"; "vmask"] ["vd"] None [Fn "Vsadd" []] "vsadd.vi";
  (* coralnpu_v2.bin_fmt:625 coralnpu_v2.isa:1351 *)
  E2 "vssubu_vv" GVArith [Ceq "func6" 34; Ceq "func3" 0; Ceq "opcode" 87]
    ["vs2"; "vs1"; "vmask"] ["vd"] None [Fn "Vssubu" []] "vssubu.vv";
  (* coralnpu_v2.bin_fmt:626 coralnpu_v2.isa:1354 *)
  E2 "vssubu_vx" GVArith [Ceq "func6" 34; Ceq "func3" 4; Ceq "opcode" 87]
    ["vs2"; "rs1"; "vmask"] ["vd"] None [Fn "Vssubu" []] "vssubu.vx";
  (* coralnpu_v2.bin_fmt:627 coralnpu_v2.isa:1357 *)
  E2 "vssub_vv" GVArith [Ceq "func6" 35; Ceq "func3" 0; Ceq "opcode" 87]
    ["vs2"; "vs1"; "vmask"] ["vd"] None [Fn "Vssub" []] "vssub.vv";
  (* coralnpu_v2.bin_fmt:628 coralnpu_v2.isa:1360 *)
  E2 "vssub_vx" GVArith [Ceq "func6" 35; Ceq "func3" 4; Ceq "opcode" 87]
    ["vs2"; "rs1"; "vmask"] ["vd"] None [Fn "Vssub" []] "vssub.vx";
  (* coralnpu_v2.bin_fmt:629 coralnpu_v2.isa:1363 *)
  E2 "vsll_vv" GVArith [Ceq "func6" 37; Ceq "func3" 0; Ceq "opcode" 87]
    ["vs2"; "vs1"; "vmask"] ["vd"] None [Fn "Vsll" []] "vsll.vv";
  (* coralnpu_v2.bin_fmt:630 coralnpu_v2.isa:1366 *)
  E2 "vsll_vx" GVArith [Ceq "func6" 37; Ceq "func3" 4; Ceq "opcode" 87]
    ["vs2"; "rs1"; "vmask"] ["vd"] None [Fn "Vsll" []] "vsll.vx";
  (* coralnpu_v2.bin_fmt:631 coralnpu_v2.isa:1369 *)
  E2 "vsll_vi" GVArith [Ceq "func6" 37; Ceq "func3" 3; Ceq "opcode" 87]
    ["vs2"; "simm5"; "vmask"] ["vd"] None [Fn "Vsll" []] "vsll.vi";
  (* coralnpu_v2.bin_fmt:632 coralnpu_v2.isa:1372 *)
  E2 "vsmul_vv" GVArith [Ceq "func6" 39; Ceq "func3" 0; Ceq "opcode" 87]
    ["vs2"; "vs1"; "vmask"] ["vd"] None [Fn "Vsmul" []] "vsmul.vv";
  (* coralnpu_v2.bin_fmt:633 coralnpu_v2.isa:1375 *)
  E2 "vsmul_vx" GVArith [Ceq "func6" 39; Ceq "func3" 4; Ceq "opcode" 87]
    ["vs2"; "rs1"; "vmask"] ["vd"] None [Fn "Vsmul" []] "vsmul.vx";
  (* coralnpu_v2.bin_fmt:634 coralnpu_v2.isa:1378 *)
  E2 "vmv1r_vi" GVArith [Ceq "func6" 39; Ceq "uimm5" 0; Ceq "func3" 3; Ceq "opcode" 87]
    ["vs2"] ["vd"] None [Fn "Vmvr" [1]] "vmv1r.vi";
  (* coralnpu_v2.bin_fmt:635 coralnpu_v2.isa:1381 *)
  E2 "vmv2r_vi" GVArith [Ceq "func6" 39; Ceq "uimm5" 1; Ceq "func3" 3; Ceq "opcode" 87]
    ["vs2"] ["vd"] None [Fn "Vmvr" [2]] "vmv2r.vi";
  (* coralnpu_v2.bin_fmt:636 coralnpu_v2.isa:1384 *)
  E2 "vmv4r_vi" GVArith [Ceq "func6" 39; Ceq "uimm5" 3; Ceq "func3" 3; Ceq "opcode" 87]
    ["vs2"] ["vd"] None [Fn "Vmvr" [4]] "vmv4r.vi";
  (* coralnpu_v2.bin_fmt:637 coralnpu_v2.isa:1387 *)
  E2 "vmv8r_vi" GVArith [Ceq "func6" 39; Ceq "uimm5" 7; Ceq "func3" 3; Ceq "opcode" 87]
    ["vs2"] ["vd"] None [Fn "Vmvr" [8]] "vmv8r.vi";
  (* coralnpu_v2.bin_fmt:638 coralnpu_v2.isa:1390 *)
  E2 "vsrl_vv" GVArith [Ceq "func6" 40; Ceq "func3" 0; Ceq "opcode" 87]
    ["vs2"; "vs1"; "vmask"] ["vd"] None [Fn "Vsrl" []] "vsrl.vv";
  (* coralnpu_v2.bin_fmt:639 coralnpu_v2.isa:1393 *)
  E2 "vsrl_vx" GVArith [Ceq "func6" 40; Ceq "func3" 4; Ceq "opcode" 87]
    ["vs2"; "rs1"; "vmask"] ["vd"] None [Fn "Vsrl" []] "vsrl.vx";
  (* coralnpu_v2.bin_fmt:640 coralnpu_v2.isa:1396 *)
  E2 "vsrl_vi" GVArith [Ceq "func6" 40; Ceq "func3" 3; Ceq "opcode" 87]
    ["vs2"; "simm5"; "vmask"] ["vd"] None [Fn "Vsrl" []] "vsrl.vi";
  (* coralnpu_v2.bin_fmt:641 coralnpu_v2.isa:1399 *)
  E2 "vsra_vv" GVArith [Ceq "func6" 41; Ceq "func3" 0; Ceq "opcode" 87]
    ["vs2"; "vs1"; "vmask"] ["vd"] None [Fn "Vsra" []] "vsra.vv";
  (* coralnpu_v2.bin_fmt:642 coralnpu_v2.isa:1402 *)
  E2 "vsra_vx" GVArith [Ceq "func6" 41; Ceq "func3" 4; Ceq "opcode" 87]
    ["vs2"; "rs1"; "vmask"] ["vd"] None [Fn "Vsra" []] "vsra.vx";
  (* coralnpu_v2.bin_fmt:643 coralnpu_v2.isa:1405 *)
  E2 "vsra_vi" GVArith [Ceq "func6" 41; Ceq "func3" 3; Ceq "opcode" 87]
    ["vs2"; "simm5"; "vmask"] ["vd"] None [Fn "Vsra" []] "vsra.vi";
  (* coralnpu_v2.bin_fmt:644 coralnpu_v2.isa:1408 *)
  E2 "vssrl_vv" GVArith [Ceq "func6" 42; Ceq "func3" 0; Ceq "opcode" 87]
    ["vs2"; "vs1"; "vmask"] ["vd"] None [Fn "Vssrl" []] "vssrl.vv";
  (* coralnpu_v2.bin_fmt:645 coralnpu_v2.isa:1411 *)
  E2 "vssrl_vx" GVArith [Ceq "func6" 42; Ceq "func3" 4; Ceq "opcode" 87]
    ["vs2"; "rs1"; "vmask"] ["vd"] None [Fn "Vssrl" []] "vssrl.vx";
  (* coralnpu_v2.bin_fmt:646 coralnpu_v2.isa:1414 *)
  E2 "vssrl_vi" GVArith [Ceq "func6" 42; Ceq "func3" 3; Ceq "opcode" 87]
    ["vs2"; "uimm5"; "vmask"] ["vd"] None [Fn "Vssrl" []] "vssrl.vi";
  (* coralnpu_v2.bin_fmt:647 coralnpu_v2.isa:1417 *)
  E2 "vssra_vv" GVArith [Ceq "func6" 43; Ceq "func3" 0; Ceq "opcode" 87]
    ["vs2"; "vs1"; "vmask"] ["vd"] None [Fn "Vssra" []] "vssra.vv";
  (* coralnpu_v2.bin_fmt:648 coralnpu_v2.isa:1420 *)
  E2 "vssra_vx" GVArith [Ceq "func6" 43; Ceq "func3" 4; Ceq "opcode" 87]
    ["vs2"; "rs1"; "vmask"] ["vd"] None [Fn "Vssra" []] "vssra.vx";
  (* coralnpu_v2.bin_fmt:649 coralnpu_v2.isa:1423 *)
  E2 "vssra_vi" GVArith [Ceq "func6" 43; Ceq "func3" 3; Ceq "opcode" 87]
    ["vs2"; "uimm5"; "vmask"] ["vd"] None [Fn "Vssra" []] "vssra.vi";
  (* coralnpu_v2.bin_fmt:650 coralnpu_v2.isa:1426 *)
  E2 "vnsrl_vv" GVArith [Ceq "func6" 44; Ceq "func3" 0; Ceq "opcode" 87]
    ["vs2"; "vs1"; "vmask"] ["vd"] None [Fn "Vnsrl" []] "vnsrl.vv";
  (* coralnpu_v2.bin_fmt:651 coralnpu_v2.isa:1429 *)
  E2 "vnsrl_vx" GVArith [Ceq "func6" 44; Ceq "func3" 4; Ceq "opcode" 87]
    ["vs2"; "rs1"; "vmask"] ["vd"] None [Fn "Vnsrl" []] "vnsrl.vx";
  (* coralnpu_v2.bin_fmt:652 coralnpu_v2.isa:1432 *)
  E2 "vnsrl_vi" GVArith [Ceq "func6" 44; Ceq "func3" 3; Ceq "opcode" 87]
    ["vs2"; "uimm5"; "vmask"] ["vd"] None [Fn "Vnsrl" []] "vnsrl.vi";
  (* coralnpu_v2.bin_fmt:653 coralnpu_v2.isa:1435 *)
  E2 "vnsra_vv" GVArith [Ceq "func6" 45; Ceq "func3" 0; Ceq "opcode" 87]
    ["vs2"; "vs1"; "vmask"] ["vd"] None [Fn "Vnsra" []] "vnsra.vv";
  (* coralnpu_v2.bin_fmt:654 coralnpu_v2.isa:1438 *)
  E2 "vnsra_vx" GVArith [Ceq "func6" 45; Ceq "func3" 4; Ceq "opcode" 87]
    ["vs2"; "rs1"; "vmask"] ["vd"] None [Fn "Vnsra" []] "vnsra.vx";
  (* coralnpu_v2.bin_fmt:655 coralnpu_v2.isa:1441 *)
  E2 "vnsra_vi" GVArith [Ceq "func6" 45; Ceq "func3" 3; Ceq "opcode" 87]
    ["vs2"; "uimm5"; "vmask"] ["vd"] None [Fn "Vnsra" []] "vnsra.vi";
  (* coralnpu_v2.bin_fmt:656 coralnpu_v2.isa:1444 *)
  E2 "vnclipu_vv" GVArith [Ceq "func6" 46; Ceq "func3" 0; Ceq "opcode" 87]
    ["vs2"; "vs1"; "vmask"] ["vd"] None [Fn "Vnclipu" []] "vnclipu_vv";
  (* coralnpu_v2.bin_fmt:657 coralnpu_v2.isa:1447 *)
  E2 "vnclipu_vx" GVArith [Ceq "func6" 46; Ceq "func3" 4; Ceq "opcode" 87]
    ["vs2"; "rs1"; "vmask"] ["vd"] None [Fn "Vnclipu" []] "vnclipu_vx";
  (* coralnpu_v2.bin_fmt:658 coralnpu_v2.isa:1450 *)
  E2 "vnclipu_vi" GVArith [Ceq "func6" 46; Ceq "func3" 3; Ceq "opcode" 87]
    ["vs2"; "uimm5"; "vmask"] ["vd"] None [Fn "Vnclipu" []] "vnclipu_vi";
  (* coralnpu_v2.bin_fmt:659 coralnpu_v2.isa:1453 *)
  E2 "vnclip_vv" GVArith [Ceq "func6" 47; Ceq "func3" 0; Ceq "opcode" 87]
    ["vs2"; "vs1"; "vmask"] ["vd"] None [Fn "Vnclip" []] "vnclip_vv";
  (* coralnpu_v2.bin_fmt:660 coralnpu_v2.isa:1456 *)
  E2 "vnclip_vx" GVArith [Ceq "func6" 47; Ceq "func3" 4; Ceq "opcode" 87]
    ["vs2"; "rs1"; "vmask"] ["vd"] None [Fn "Vnclip" []] "vnclip_vx";
  (* coralnpu_v2.bin_fmt:661 coralnpu_v2.isa:1459 *)
  E2 "vnclip_vi" GVArith [Ceq "func6" 47; Ceq "func3" 3; Ceq "opcode" 87]
    ["vs2"; "uimm5"; "vmask"] ["vd"] None [Fn "Vnclip" []] "vnclip_vi";
  (* coralnpu_v2.bin_fmt:662 coralnpu_v2.isa:1462 *)
  E2 "vwredsumu_vv" GVArith [Ceq "func6" 48; Ceq "func3" 0; Ceq "opcode" 87]
    ["vs2"; "vs1"; "vmask"] ["vd"] None [Fn "Vwredsumu" []] "vwredsumu.vv";
  (* coralnpu_v2.bin_fmt:663 coralnpu_v2.isa:1465 *)
  E2 "vwredsum_vv" GVArith [Ceq "func6" 49; Ceq "func3" 0; Ceq "opcode" 87]
    ["vs2"; "vs1"; "vmask"] ["vd"] None [Fn "Vwredsum" []] "vwredsum.vv";
  (* coralnpu_v2.bin_fmt:669 coralnpu_v2.isa:1470 *)
  E2 "vredsum_vv" GVArith [Ceq "func6" 0; Ceq "func3" 2; Ceq "opcode" 87]
    ["vs2"; "vs1"; "vmask"] ["vd"] None [Fn "Vredsum" []] "vredsum.vv";
  (* coralnpu_v2.bin_fmt:670 coralnpu_v2.isa:1473 *)
  E2 "vredand_vv" GVArith [Ceq "func6" 1; Ceq "func3" 2; Ceq "opcode" 87]
    ["vs2"; "vs1"; "vmask"] ["vd"] None [Fn "Vredand" []] "vredand.vv";
  (* coralnpu_v2.bin_fmt:671 coralnpu_v2.isa:1476 *)
  E2 "vredor_vv" GVArith [Ceq "func6" 2; Ceq "func3" 2; Ceq "opcode" 87]
    ["vs2"; "vs1"; "vmask"] ["vd"] None [Fn "Vredor" []] "vredor.vv";
  (* coralnpu_v2.bin_fmt:672 coralnpu_v2.isa:1479 *)
  E2 "vredxor_vv" GVArith [Ceq "func6" 3; Ceq "func3" 2; Ceq "opcode" 87]
    ["vs2"; "vs1"; "vmask"] ["vd"] None [Fn "Vredxor" []] "vredxor.vv";
  (* coralnpu_v2.bin_fmt:673 coralnpu_v2.isa:1482 *)
  E2 "vredminu_vv" GVArith [Ceq "func6" 4; Ceq "func3" 2; Ceq "opcode" 87]
    ["vs2"; "vs1"; "vmask"] ["vd"] None [Fn "Vredminu" []] "vredminu.vv";
  (* coralnpu_v2.bin_fmt:674 coralnpu_v2.isa:1485 *)
  E2 "vredmin_vv" GVArith [Ceq "func6" 5; Ceq "func3" 2; Ceq "opcode" 87]
    ["vs2"; "vs1"; "vmask"] ["vd"] None [Fn "Vredmin" []] "vredmin.vv";
  (* coralnpu_v2.bin_fmt:675 coralnpu_v2.isa:1488 *)
  E2 "vredmaxu_vv" GVArith [Ceq "func6" 6; Ceq "func3" 2; Ceq "opcode" 87]
    ["vs2"; "vs1"; "vmask"] ["vd"] None [Fn "Vredmaxu" []] "vredmaxu.vv";
  (* coralnpu_v2.bin_fmt:676 coralnpu_v2.isa:1491 *)
  E2 "vredmax_vv" GVArith [Ceq "func6" 7; Ceq "func3" 2; Ceq "opcode" 87]
    ["vs2"; "vs1"; "vmask"] ["vd"] None [Fn "Vredmax" []] "vredmax.vv";
  (* coralnpu_v2.bin_fmt:677 coralnpu_v2.isa:1494 *)
  E2 "vaaddu_vv" GVArith [Ceq "func6" 8; Ceq "func3" 2; Ceq "opcode" 87]
    ["vs2"; "vs1"; "vmask"] ["vd"] None [Fn "Vaaddu" []] "vaaddu.vv";
  (* coralnpu_v2.bin_fmt:678 coralnpu_v2.isa:1497 *)
  E2 "vaaddu_vx" GVArith [Ceq "func6" 8; Ceq "func3" 6; Ceq "opcode" 87]
    ["vs2"; "rs1"; "vmask"] ["vd"] None [Fn "Vaaddu" []] "vaaddu.vx";
  (* coralnpu_v2.bin_fmt:679 coralnpu_v2.isa:1500 *)
  E2 "vaadd_vv" GVArith [Ceq "func6" 9; Ceq "func3" 2; Ceq "opcode" 87]
    ["vs2"; "vs1"; "vmask"] ["vd"] None [Fn "Vaadd" []] "vaadd.vv";
  (* coralnpu_v2.bin_fmt:680 coralnpu_v2.isa:1503 *)
  E2 "vaadd_vx" GVArith [Ceq "func6" 9; Ceq "func3" 6; Ceq "opcode" 87]
    ["vs2"; "rs1"; "vmask"] ["vd"] None [Fn "Vaadd" []] "vaadd.vx";
  (* coralnpu_v2.bin_fmt:681 coralnpu_v2.isa:1506 *)
  E2 "vasubu_vv" GVArith [Ceq "func6" 10; Ceq "func3" 2; Ceq "opcode" 87]
    ["vs2"; "vs1"; "vmask"] ["vd"] None [Fn "Vasubu" []] "vasubu.vv";
  (* coralnpu_v2.bin_fmt:682 coralnpu_v2.isa:1509 *)
  E2 "vasubu_vx" GVArith [Ceq "func6" 10; Ceq "func3" 6; Ceq "opcode" 87]
    ["vs2"; "rs1"; "vmask"] ["vd"] None [Fn "Vasubu" []] "vasubu.vx";
  (* coralnpu_v2.bin_fmt:683 coralnpu_v2.isa:1512 *)
  E2 "vasub_vv" GVArith [Ceq "func6" 11; Ceq "func3" 2; Ceq "opcode" 87]
    ["vs2"; "vs1"; "vmask"] ["vd"] None [Fn "Vasub" []] "vasub.vv";
  (* coralnpu_v2.bin_fmt:684 coralnpu_v2.isa:1515 *)
  E2 "vasub_vx" GVArith [Ceq "func6" 11; Ceq "func3" 6; Ceq "opcode" 87]
    ["vs2"; "rs1"; "vmask"] ["vd"] None [Fn "Vasub" []] "vasub.vx";
  (* coralnpu_v2.bin_fmt:685 coralnpu_v2.isa:1518 *)
  E2 "vslide1up_vx" GVArith [Ceq "func6" 14; Ceq "func3" 6; Ceq "opcode" 87]
    ["vs2"; "rs1"; "vmask"] ["vd"] None [Fn "Vslide1up" []] "vslide1up.vx";
  (* coralnpu_v2.bin_fmt:686 coralnpu_v2.isa:1521 *)
  E2 "vslide1down_vx" GVArith [Ceq "func6" 15; Ceq "func3" 6; Ceq "opcode" 87]
    ["vs2"; "rs1"; "vmask"] ["vd"] None [Fn "Vslide1down" []] "vslide1down.vx";
  (* coralnpu_v2.bin_fmt:687 coralnpu_v2.isa:1524 *)
  E2 "vcompress_vv" GVArith [Ceq "func6" 23; Ceq "func3" 2; Ceq "opcode" 87]
    ["vs2"; "vs1"] ["vd"] None [Fn "Vcompress" []] "vcompress.vv";
  (* coralnpu_v2.bin_fmt:688 coralnpu_v2.isa:1527 *)
  E2 "vmandnot_vv" GVArith [Ceq "func6" 24; Ceq "func3" 2; Ceq "opcode" 87]
    ["vs2"; "vs1"] ["vd"] None [Fn "Vmandnot" []] "vwmandnot.vv";
  (* coralnpu_v2.bin_fmt:689 coralnpu_v2.isa:1530 *)
  E2 "vmand_vv" GVArith [Ceq "func6" 25; Ceq "func3" 2; Ceq "opcode" 87]
    ["vs2"; "vs1"] ["vd"] None [Fn "Vmand" []] "vmand.vv";
  (* coralnpu_v2.bin_fmt:690 coralnpu_v2.isa:1533 *)
  E2 "vmor_vv" GVArith [Ceq "func6" 26; Ceq "func3" 2; Ceq "opcode" 87]
    ["vs2"; "vs1"] ["vd"] None [Fn "Vmor" []] "vmor.vv";
  (* coralnpu_v2.bin_fmt:691 coralnpu_v2.isa:1536 *)
  E2 "vmxor_vv" GVArith [Ceq "func6" 27; Ceq "func3" 2; Ceq "opcode" 87]
    ["vs2"; "vs1"] ["vd"] None [Fn "Vmxor" []] "vmxor.vv";
  (* coralnpu_v2.bin_fmt:692 coralnpu_v2.isa:1539 *)
  E2 "vmornot_vv" GVArith [Ceq "func6" 28; Ceq "func3" 2; Ceq "opcode" 87]
    ["vs2"; "vs1"] ["vd"] None [Fn "Vmornot" []] "vmornot.vv";
  (* coralnpu_v2.bin_fmt:693 coralnpu_v2.isa:1542 *)
  E2 "vmnand_vv" GVArith [Ceq "func6" 29; Ceq "func3" 2; Ceq "opcode" 87]
    ["vs2"; "vs1"] ["vd"] None [Fn "Vmnand" []] "vmnand.vv";
  (* coralnpu_v2.bin_fmt:694 coralnpu_v2.isa:1545 *)
  E2 "vmnor_vv" GVArith [Ceq "func6" 30; Ceq "func3" 2; Ceq "opcode" 87]
    ["vs2"; "vs1"] ["vd"] None [Fn "Vmnor" []] "vmnor.vv";
  (* coralnpu_v2.bin_fmt:695 coralnpu_v2.isa:1548 *)
  E2 "vmxnor_vv" GVArith [Ceq "func6" 31; Ceq "func3" 2; Ceq "opcode" 87]
    ["vs2"; "vs1"] ["vd"] None [Fn "Vmxnor" []] "vmxnor.vv";
  (* coralnpu_v2.bin_fmt:697 coralnpu_v2.isa:1551 *)
  E2 "vdivu_vv" GVArith [Ceq "func6" 32; Ceq "func3" 2; Ceq "opcode" 87]
    ["vs2"; "vs1"; "vmask"] ["vd"] None [Fn "Vdivu" []] "vdivu.vv";
  (* coralnpu_v2.bin_fmt:698 coralnpu_v2.isa:1554 *)
  E2 "vdivu_vx" GVArith [Ceq "func6" 32; Ceq "func3" 6; Ceq "opcode" 87]
    ["vs2"; "rs1"; "vmask"] ["vd"] None [Fn "Vdivu" []] "vdivu.vx";
  (* coralnpu_v2.bin_fmt:699 coralnpu_v2.isa:1557 *)
  E2 "vdiv_vv" GVArith [Ceq "func6" 33; Ceq "func3" 2; Ceq "opcode" 87]
    ["vs2"; "vs1"; "vmask"] ["vd"] None [Fn "Vdiv" []] "vdiv.vv";
  (* coralnpu_v2.bin_fmt:700 coralnpu_v2.isa:1560 *)
  E2 "vdiv_vx" GVArith [Ceq "func6" 33; Ceq "func3" 6; Ceq "opcode" 87]
    ["vs2"; "rs1"; "vmask"] ["vd"] None [Fn "Vdiv" []] "vdiv.vx";
  (* coralnpu_v2.bin_fmt:701 coralnpu_v2.isa:1563 *)
  E2 "vremu_vv" GVArith [Ceq "func6" 34; Ceq "func3" 2; Ceq "opcode" 87]
    ["vs2"; "vs1"; "vmask"] ["vd"] None [Fn "Vremu" []] "vremu.vv";
  (* coralnpu_v2.bin_fmt:702 coralnpu_v2.isa:1566 *)
  E2 "vremu_vx" GVArith [Ceq "func6" 34; Ceq "func3" 6; Ceq "opcode" 87]
    ["vs2"; "rs1"; "vmask"] ["vd"] None [Fn "Vremu" []] "vremu.vx";
  (* coralnpu_v2.bin_fmt:703 coralnpu_v2.isa:1569 *)
  E2 "vrem_vv" GVArith [Ceq "func6" 35; Ceq "func3" 2; Ceq "opcode" 87]
    ["vs2"; "vs1"; "vmask"] ["vd"] None [Fn "Vrem" []] "vrem.vv";
  (* coralnpu_v2.bin_fmt:704 coralnpu_v2.isa:1572 *)
  E2 "vrem_vx" GVArith [Ceq "func6" 35; Ceq "func3" 6; Ceq "opcode" 87]
    ["vs2"; "rs1"; "vmask"] ["vd"] None [Fn "Vrem" []] "vrem.vx";
  (* coralnpu_v2.bin_fmt:705 coralnpu_v2.isa:1575 *)
  E2 "vmulhu_vv" GVArith [Ceq "func6" 36; Ceq "func3" 2; Ceq "opcode" 87]
    ["vs2"; "vs1"; "vmask"] ["vd"] None [Fn "Vmulhu" []] "vmulhu.vv";
  (* coralnpu_v2.bin_fmt:706 coralnpu_v2.isa:1578 *)
  E2 "vmulhu_vx" GVArith [Ceq "func6" 36; Ceq "func3" 6; Ceq "opcode" 87]
    ["vs2"; "rs1"; "vmask"] ["vd"] None [Fn "Vmulhu" []] "vmulhu.vx";
  (* coralnpu_v2.bin_fmt:707 coralnpu_v2.isa:1581 *)
  E2 "vmul_vv" GVArith [Ceq "func6" 37; Ceq "func3" 2; Ceq "opcode" 87]
    ["vs2"; "vs1"; "vmask"] ["vd"] None [Fn "Vmul" []] "vmul.vv";
  (* coralnpu_v2.bin_fmt:708 coralnpu_v2.isa:1584 *)
  E2 "vmul_vx" GVArith [Ceq "func6" 37; Ceq "func3" 6; Ceq "opcode" 87]
    ["vs2"; "rs1"; "vmask"] ["vd"] None [Fn "Vmul" []] "vmul.vx";
  (* coralnpu_v2.bin_fmt:709 coralnpu_v2.isa:1587 *)
  E2 "vmulhsu_vv" GVArith [Ceq "func6" 38; Ceq "func3" 2; Ceq "opcode" 87]
    ["vs2"; "vs1"; "vmask"] ["vd"] None [Fn "Vmulhsu" []] "vmulhsu.vv";
  (* coralnpu_v2.bin_fmt:710 coralnpu_v2.isa:1590 *)
  E2 "vmulhsu_vx" GVArith [Ceq "func6" 38; Ceq "func3" 6; Ceq "opcode" 87]
    ["vs2"; "rs1"; "vmask"] ["vd"] None [Fn "Vmulhsu" []] "vmulhsu.vx";
  (* coralnpu_v2.bin_fmt:711 coralnpu_v2.isa:1593 *)
  E2 "vmulh_vv" GVArith [Ceq "func6" 39; Ceq "func3" 2; Ceq "opcode" 87]
    ["vs2"; "vs1"; "vmask"] ["vd"] None [Fn "Vmulh" []] "vmulh.vv";
  (* coralnpu_v2.bin_fmt:712 coralnpu_v2.isa:1596 *)
  E2 "vmulh_vx" GVArith [Ceq "func6" 39; Ceq "func3" 6; Ceq "opcode" 87]
    ["vs2"; "rs1"; "vmask"] ["vd"] None [Fn "Vmulh" []] "vmulh.vx";
  (* coralnpu_v2.bin_fmt:713 coralnpu_v2.isa:1599 *)
  E2 "vmadd_vv" GVArith [Ceq "func6" 41; Ceq "func3" 2; Ceq "opcode" 87]
    ["vs2"; "vs1"; "vd"; "vmask"] ["vd"] None [Fn "Vmadd" []] "vmadd.vv";
  (* coralnpu_v2.bin_fmt:714 coralnpu_v2.isa:1602 *)
  E2 "vmadd_vx" GVArith [Ceq "func6" 41; Ceq "func3" 6; Ceq "opcode" 87]
    ["vs2"; "rs1"; "vd"; "vmask"] ["vd"] None [Fn "Vmadd" []] "vmadd.vx";
  (* coralnpu_v2.bin_fmt:715 coralnpu_v2.isa:1605 *)
  E2 "vnmsub_vv" GVArith [Ceq "func6" 43; Ceq "func3" 2; Ceq "opcode" 87]
    ["vs2"; "vs1"; "vd"; "vmask"] ["vd"] None [Fn "Vnmsub" []] "vnmsub.vv";
  (* coralnpu_v2.bin_fmt:716 coralnpu_v2.isa:1608 *)
  E2 "vnmsub_vx" GVArith [Ceq "func6" 43; Ceq "func3" 6; Ceq "opcode" 87]
    ["vs2"; "rs1"; "vd"; "vmask"] ["vd"] None [Fn "Vnmsub" []] "vnmsub.vx";
  (* coralnpu_v2.bin_fmt:717 coralnpu_v2.isa:1611 *)
  E2 "vmacc_vv" GVArith [Ceq "func6" 45; Ceq "func3" 2; Ceq "opcode" 87]
    ["vs2"; "vs1"; "vd"; "vmask"] ["vd"] None [Fn "Vmacc" []] "vmacc.vv";
  (* coralnpu_v2.bin_fmt:718 coralnpu_v2.isa:1614 *)
  E2 "vmacc_vx" GVArith [Ceq "func6" 45; Ceq "func3" 6; Ceq "opcode" 87]
    ["vs2"; "rs1"; "vd"; "vmask"] ["vd"] None [Fn "Vmacc" []] "vmacc.vx";
  (* coralnpu_v2.bin_fmt:719 coralnpu_v2.isa:1617 *)
  E2 "vnmsac_vv" GVArith [Ceq "func6" 47; Ceq "func3" 2; Ceq "opcode" 87]
    ["vs2"; "vs1"; "vd"; "vmask"] ["vd"] None [Fn "Vnmsac" []] "vnmsac.vv";
  (* coralnpu_v2.bin_fmt:720 coralnpu_v2.isa:1620 *)
  E2 "vnmsac_vx" GVArith [Ceq "func6" 47; Ceq "func3" 6; Ceq "opcode" 87]
    ["vs2"; "rs1"; "vd"; "vmask"] ["vd"] None [Fn "Vnmsac" []] "vnmsac.vx";
  (* coralnpu_v2.bin_fmt:721 coralnpu_v2.isa:1623 *)
  E2 "vwaddu_vv" GVArith [Ceq "func6" 48; Ceq "func3" 2; Ceq "opcode" 87]
    ["vs2"; "vs1"; "vmask"] ["vd"] None [Fn "Vwaddu" []] "vwaddu.vv";
  (* coralnpu_v2.bin_fmt:722 coralnpu_v2.isa:1626 *)
  E2 "vwaddu_vx" GVArith [Ceq "func6" 48; Ceq "func3" 6; Ceq "opcode" 87]
    ["vs2"; "rs1"; "vmask"] ["vd"] None [Fn "Vwaddu" []] "vwaddu.vx";
  (* coralnpu_v2.bin_fmt:723 coralnpu_v2.isa:1629 *)
  E2 "vwadd_vv" GVArith [Ceq "func6" 49; Ceq "func3" 2; Ceq "opcode" 87]
    ["vs2"; "vs1"; "vmask"] ["vd"] None [Fn "Vwadd" []] "vwadd_vv";
  (* coralnpu_v2.bin_fmt:724 coralnpu_v2.isa:1632 *)
  E2 "vwadd_vx" GVArith [Ceq "func6" 49; Ceq "func3" 6; Ceq "opcode" 87]
    ["vs2"; "rs1"; "vmask"] ["vd"] None [Fn "Vwadd" []] "vwadd.vx";
  (* coralnpu_v2.bin_fmt:725 coralnpu_v2.isa:1635 *)
  E2 "vwsubu_vv" GVArith [Ceq "func6" 50; Ceq "func3" 2; Ceq "opcode" 87]
    ["vs2"; "vs1"; "vmask"] ["vd"] None [Fn "Vwsubu" []] "vwsubu.vv";
  (* coralnpu_v2.bin_fmt:726 coralnpu_v2.isa:1638 *)
  E2 "vwsubu_vx" GVArith [Ceq "func6" 50; Ceq "func3" 6; Ceq "opcode" 87]
    ["vs2"; "rs1"; "vmask"] ["vd"] None [Fn "Vwsubu" []] "vwsubu.vx";
  (* coralnpu_v2.bin_fmt:727 coralnpu_v2.isa:1641 *)
  E2 "vwsub_vv" GVArith [Ceq "func6" 51; Ceq "func3" 2; Ceq "opcode" 87]
    ["vs2"; "vs1"; "vmask"] ["vd"] None [Fn "Vwsub" []] "vwsub.vv";
  (* coralnpu_v2.bin_fmt:728 coralnpu_v2.isa:1644 *)
  E2 "vwsub_vx" GVArith [Ceq "func6" 51; Ceq "func3" 6; Ceq "opcode" 87]
    ["vs2"; "rs1"; "vmask"] ["vd"] None [Fn "Vwsub" []] "vwsub.vx";
  (* coralnpu_v2.bin_fmt:729 coralnpu_v2.isa:1647 *)
  E2 "vwaddu_w_vv" GVArith [Ceq "func6" 52; Ceq "func3" 2; Ceq "opcode" 87]
    ["vs2"; "vs1"; "vmask"] ["vd"] None [Fn "Vwadduw" []] "vwaddu.wv";
  (* coralnpu_v2.bin_fmt:730 coralnpu_v2.isa:1650 *)
  E2 "vwaddu_w_vx" GVArith [Ceq "func6" 52; Ceq "func3" 6; Ceq "opcode" 87]
    ["vs2"; "rs1"; "vmask"] ["vd"] None [Fn "Vwadduw" []] "vwaddu.wx";
  (* coralnpu_v2.bin_fmt:731 coralnpu_v2.isa:1653 *)
  E2 "vwadd_w_vv" GVArith [Ceq "func6" 53; Ceq "func3" 2; Ceq "opcode" 87]
    ["vs2"; "vs1"; "vmask"] ["vd"] None [Fn "Vwaddw" []] "vwadd.wv";
  (* coralnpu_v2.bin_fmt:732 coralnpu_v2.isa:1656 *)
  E2 "vwadd_w_vx" GVArith [Ceq "func6" 53; Ceq "func3" 6; Ceq "opcode" 87]
    ["vs2"; "rs1"; "vmask"] ["vd"] None [Fn "Vwaddw" []] "vwadd.wx";
  (* coralnpu_v2.bin_fmt:733 coralnpu_v2.isa:1659 *)
  E2 "vwsubu_w_vv" GVArith [Ceq "func6" 54; Ceq "func3" 2; Ceq "opcode" 87]
    ["vs2"; "vs1"; "vmask"] ["vd"] None [Fn "Vwsubuw" []] "vwsubu.wv";
  (* coralnpu_v2.bin_fmt:734 coralnpu_v2.isa:1662 *)
  E2 "vwsubu_w_vx" GVArith [Ceq "func6" 54; Ceq "func3" 6; Ceq "opcode" 87]
    ["vs2"; "rs1"; "vmask"] ["vd"] None [Fn "Vwsubuw" []] "vwsubu.wx";
  (* coralnpu_v2.bin_fmt:735 coralnpu_v2.isa:1665 *)
  E2 "vwsub_w_vv" GVArith [Ceq "func6" 55; Ceq "func3" 2; Ceq "opcode" 87]
    ["vs2"; "vs1"; "vmask"] ["vd"] None [Fn "Vwsubw" []] "vwsub.wv";
  (* coralnpu_v2.bin_fmt:736 coralnpu_v2.isa:1668 *)
  E2 "vwsub_w_vx" GVArith [Ceq "func6" 55; Ceq "func3" 6; Ceq "opcode" 87]
    ["vs2"; "rs1"; "vmask"] ["vd"] None [Fn "Vwsubw" []] "vwsub.wx";
  (* coralnpu_v2.bin_fmt:737 coralnpu_v2.isa:1671 *)
  E2 "vwmulu_vv" GVArith [Ceq "func6" 56; Ceq "func3" 2; Ceq "opcode" 87]
    ["vs2"; "vs1"; "vmask"] ["vd"] None [Fn "Vwmulu" []] "vwmulu.vv";
  (* coralnpu_v2.bin_fmt:738 coralnpu_v2.isa:1674 *)
  E2 "vwmulu_vx" GVArith [Ceq "func6" 56; Ceq "func3" 6; Ceq "opcode" 87]
    ["vs2"; "rs1"; "vmask"] ["vd"] None [Fn "Vwmulu" []] "vwmulu.vx";
  (* coralnpu_v2.bin_fmt:739 coralnpu_v2.isa:1677 *)
  E2 "vwmulsu_vv" GVArith [Ceq "func6" 58; Ceq "func3" 2; Ceq "opcode" 87]
    ["vs2"; "vs1"; "vmask"] ["vd"] None [Fn "Vwmulsu" []] "vwmulsu.vv";
  (* coralnpu_v2.bin_fmt:740 coralnpu_v2.isa:1680 *)
  E2 "vwmulsu_vx" GVArith [Ceq "func6" 58; Ceq "func3" 6; Ceq "opcode" 87]
    ["vs2"; "rs1"; "vmask"] ["vd"] None [Fn "Vwmulsu" []] "vwmulsu.vx";
  (* coralnpu_v2.bin_fmt:741 coralnpu_v2.isa:1683 *)
  E2 "vwmul_vv" GVArith [Ceq "func6" 59; Ceq "func3" 2; Ceq "opcode" 87]
    ["vs2"; "vs1"; "vmask"] ["vd"] None [Fn "Vwmul" []] "vwmul.vv";
  (* coralnpu_v2.bin_fmt:742 coralnpu_v2.isa:1686 *)
  E2 "vwmul_vx" GVArith [Ceq "func6" 59; Ceq "func3" 6; Ceq "opcode" 87]
    ["vs2"; "rs1"; "vmask"] ["vd"] None [Fn "Vwmul" []] "vwmul.vx";
  (* coralnpu_v2.bin_fmt:743 coralnpu_v2.isa:1689 *)
  E2 "vwmaccu_vv" GVArith [Ceq "func6" 60; Ceq "func3" 2; Ceq "opcode" 87]
    ["vs2"; "vs1"; "vd"; "vmask"] ["vd"] None [Fn "Vwmaccu" []] "vwmaccu.vv";
  (* coralnpu_v2.bin_fmt:744 coralnpu_v2.isa:1692 *)
  E2 "vwmaccu_vx" GVArith [Ceq "func6" 60; Ceq "func3" 6; Ceq "opcode" 87]
    ["vs2"; "rs1"; "vd"; "vmask"] ["vd"] None [Fn "Vwmaccu" []] "vwmaccu.vx";
  (* coralnpu_v2.bin_fmt:745 coralnpu_v2.isa:1695 *)
  E2 "vwmacc_vv" GVArith [Ceq "func6" 61; Ceq "func3" 2; Ceq "opcode" 87]
    ["vs2"; "vs1"; "vd"; "vmask"] ["vd"] None [Fn "Vwmacc" []] "vwmacc.vv";
  (* coralnpu_v2.bin_fmt:746 coralnpu_v2.isa:1698 *)
  E2 "vwmacc_vx" GVArith [Ceq "func6" 61; Ceq "func3" 6; Ceq "opcode" 87]
    ["vs2"; "rs1"; "vd"; "vmask"] ["vd"] None [Fn "Vwmacc" []] "vwmacc.vx";
  (* coralnpu_v2.bin_fmt:747 coralnpu_v2.isa:1701 *)
  E2 "vwmaccus_vv" GVArith [Ceq "func6" 62; Ceq "func3" 2; Ceq "opcode" 87]
    ["vs2"; "vs1"; "vd"; "vmask"] ["vd"] None [Fn "Vwmaccus" []] "vwmaccus.vv";
  (* coralnpu_v2.bin_fmt:748 coralnpu_v2.isa:1704 *)
  E2 "vwmaccus_vx" GVArith [Ceq "func6" 62; Ceq "func3" 6; Ceq "opcode" 87]
    ["vs2"; "rs1"; "vd"; "vmask"] ["vd"] None [Fn "Vwmaccus" []] "vwmaccus.vx";
  (* coralnpu_v2.bin_fmt:749 coralnpu_v2.isa:1707 *)
  E2 "vwmaccsu_vv" GVArith [Ceq "func6" 63; Ceq "func3" 2; Ceq "opcode" 87]
    ["vs2"; "vs1"; "vd"; "vmask"] ["vd"] None [Fn "Vwmaccsu" []] "vwmaccsu.vv";
  (* coralnpu_v2.bin_fmt:750 coralnpu_v2.isa:1710 *)
  E2 "vwmaccsu_vx" GVArith [Ceq "func6" 63; Ceq "func3" 6; Ceq "opcode" 87]
    ["vs2"; "rs1"; "vd"; "vmask"] ["vd"] None [Fn "Vwmaccsu" []] "vwmaccsu.vx";
  (* coralnpu_v2.bin_fmt:753 coralnpu_v2.isa:1715 *)
  E2 "vmv_x_s" GVArith [Ceq "func6" 16; Ceq "vs1" 0; Ceq "func3" 2; Ceq "opcode" 87]
    ["vs2"] ["rd"] None [Fn "VmvToScalar" []] "vmv.x.s";
  (* coralnpu_v2.bin_fmt:754 coralnpu_v2.isa:1718 *)
  E2 "vcpop" GVArith [Ceq "func6" 16; Ceq "vs1" 16; Ceq "func3" 2; Ceq "opcode" 87]
    ["vs2"; "vmask"] ["rd"] None [Fn "Vcpop" []] "vcpop";
  (* coralnpu_v2.bin_fmt:755 coralnpu_v2.isa:1721 *)
  E2 "vfirst" GVArith [Ceq "func6" 16; Ceq "vs1" 17; Ceq "func3" 2; Ceq "opcode" 87]
    ["vs2"; "vmask"] ["rd"] None [Fn "Vfirst" []] "vfirst";
  (* coralnpu_v2.bin_fmt:758 coralnpu_v2.isa:1725 *)
  E2 "vmv_s_x" GVArith [Ceq "func6" 16; Ceq "vs2" 0; Ceq "func3" 6; Ceq "opcode" 87]
    ["rs1"] ["vd"] None [Fn "VmvFromScalar" []] "vmv.s.x";
  (* coralnpu_v2.bin_fmt:761 coralnpu_v2.isa:1729 *)
  E2 "vzext_vf8" GVArith [Ceq "func6" 18; Ceq "vs1" 2; Ceq "func3" 2; Ceq "opcode" 87]
    ["vs2"; "vmask"] ["vd"] None [Fn "Vzext8" []] "vzext.vf8";
  (* coralnpu_v2.bin_fmt:762 coralnpu_v2.isa:1732 *)
  E2 "vsext_vf8" GVArith [Ceq "func6" 18; Ceq "vs1" 3; Ceq "func3" 2; Ceq "opcode" 87]
    ["vs2"; "vmask"] ["vd"] None [Fn "Vsext8" []] "vsext.vf8";
  (* coralnpu_v2.bin_fmt:763 coralnpu_v2.isa:1735 *)
  E2 "vzext_vf4" GVArith [Ceq "func6" 18; Ceq "vs1" 4; Ceq "func3" 2; Ceq "opcode" 87]
    ["vs2"; "vmask"] ["vd"] None [Fn "Vzext4" []] "vzext.vf4";
  (* coralnpu_v2.bin_fmt:764 coralnpu_v2.isa:1738 *)
  E2 "vsext_vf4" GVArith [Ceq "func6" 18; Ceq "vs1" 5; Ceq "func3" 2; Ceq "opcode" 87]
    ["vs2"; "vmask"] ["vd"] None [Fn "Vsext4" []] "vsext.vf4";
  (* coralnpu_v2.bin_fmt:765 coralnpu_v2.isa:1741 *)
  E2 "vzext_vf2" GVArith [Ceq "func6" 18; Ceq "vs1" 6; Ceq "func3" 2; Ceq "opcode" 87]
    ["vs2"; "vmask"] ["vd"] None [Fn "Vzext2" []] "vzext.vf2";
  (* coralnpu_v2.bin_fmt:766 coralnpu_v2.isa:1744 *)
  E2 "vsext_vf2" GVArith [Ceq "func6" 18; Ceq "vs1" 7; Ceq "func3" 2; Ceq "opcode" 87]
    ["vs2"; "vmask"] ["vd"] None [Fn "Vsext2" []] "vsext.vf2";
  (* coralnpu_v2.bin_fmt:769 coralnpu_v2.isa:1748 *)
  E2 "vmsbf" GVArith [Ceq "func6" 20; Ceq "vs1" 1; Ceq "func3" 2; Ceq "opcode" 87]
    ["vs2"; "vmask"] ["vd"] None [Fn "Vmsbf" []] "vmsbf.m";
  (* coralnpu_v2.bin_fmt:770 coralnpu_v2.isa:1751 *)
  E2 "vmsof" GVArith [Ceq "func6" 20; Ceq "vs1" 2; Ceq "func3" 2; Ceq "opcode" 87]
    ["vs2"; "vmask"] ["vd"] None [Fn "Vmsof" []] "vmsof.m";
  (* coralnpu_v2.bin_fmt:771 coralnpu_v2.isa:1754 *)
  E2 "vmsif" GVArith [Ceq "func6" 20; Ceq "vs1" 3; Ceq "func3" 2; Ceq "opcode" 87]
    ["vs2"; "vmask"] ["vd"] None [Fn "Vmsif" []] "vmsif.m";
  (* coralnpu_v2.bin_fmt:772 coralnpu_v2.isa:1757 *)
  E2 "viota" GVArith [Ceq "func6" 20; Ceq "vs1" 16; Ceq "func3" 2; Ceq "opcode" 87]
    ["vs2"; "vmask"] ["vd"] None [Fn "Viota" []] "viota.m";
  (* coralnpu_v2.bin_fmt:773 coralnpu_v2.isa:1760 *)
  E2 "vid" GVArith [Ceq "func6" 20; Ceq "vs1" 17; Ceq "func3" 2; Ceq "opcode" 87]
    ["vmask"] ["vd"] None [Fn "Vid" []] "vid.v"
].

Definition tab2_RiscVZbbInst32 : list entry2 := [
  (* coralnpu_v2.bin_fmt:777 coralnpu_v2.isa:657 *)
  E2 "andn" GR [Ceq "func7" 32; Ceq "func3" 7; Ceq "opcode" 51]
    ["rs1"; "rs2"] ["rd"] None [Fn "RV32::RiscVAndn" []] "andn";
  (* coralnpu_v2.bin_fmt:778 coralnpu_v2.isa:661 *)
  E2 "orn" GR [Ceq "func7" 32; Ceq "func3" 6; Ceq "opcode" 51]
    ["rs1"; "rs2"] ["rd"] None [Fn "RV32::RiscVOrn" []] "orn";
  (* coralnpu_v2.bin_fmt:779 coralnpu_v2.isa:665 *)
  E2 "xnor" GR [Ceq "func7" 32; Ceq "func3" 4; Ceq "opcode" 51]
    ["rs1"; "rs2"] ["rd"] None [Fn "RV32::RiscVXnor" []] "xor";
  (* coralnpu_v2.bin_fmt:780 coralnpu_v2.isa:670 *)
  E2 "clz" GR [Ceq "func7" 48; Ceq "rs2" 0; Ceq "func3" 1; Ceq "opcode" 19]
    ["rs1"] ["rd"] None [Fn "RV32::RiscVClz" []] "clz";
  (* coralnpu_v2.bin_fmt:781 coralnpu_v2.isa:674 *)
  E2 "ctz" GR [Ceq "func7" 48; Ceq "rs2" 1; Ceq "func3" 1; Ceq "opcode" 19]
    ["rs1"] ["rd"] None [Fn "RV32::RiscVCtz" []] "ctz";
  (* coralnpu_v2.bin_fmt:782 coralnpu_v2.isa:679 *)
  E2 "cpop" GR [Ceq "func7" 48; Ceq "rs2" 2; Ceq "func3" 1; Ceq "opcode" 19]
    ["rs1"] ["rd"] None [Fn "RV32::RiscVCpop" []] "cpop";
  (* coralnpu_v2.bin_fmt:783 coralnpu_v2.isa:684 *)
  E2 "max" GR [Ceq "func7" 5; Ceq "func3" 6; Ceq "opcode" 51]
    ["rs1"; "rs2"] ["rd"] None [Fn "RV32::RiscVMax" []] "max";
  (* coralnpu_v2.bin_fmt:784 coralnpu_v2.isa:688 *)
  E2 "maxu" GR [Ceq "func7" 5; Ceq "func3" 7; Ceq "opcode" 51]
    ["rs1"; "rs2"] ["rd"] None [Fn "RV32::RiscVMaxu" []] "max";
  (* coralnpu_v2.bin_fmt:785 coralnpu_v2.isa:692 *)
  E2 "min" GR [Ceq "func7" 5; Ceq "func3" 4; Ceq "opcode" 51]
    ["rs1"; "rs2"] ["rd"] None [Fn "RV32::RiscVMin" []] "min";
  (* coralnpu_v2.bin_fmt:786 coralnpu_v2.isa:696 *)
  E2 "minu" GR [Ceq "func7" 5; Ceq "func3" 5; Ceq "opcode" 51]
    ["rs1"; "rs2"] ["rd"] None [Fn "RV32::RiscVMinu" []] "min";
  (* coralnpu_v2.bin_fmt:787 coralnpu_v2.isa:701 *)
  E2 "sext_b" GR [Ceq "func7" 48; Ceq "rs2" 4; Ceq "func3" 1; Ceq "opcode" 19]
    ["rs1"] ["rd"] None [Fn "RV32::RiscVSextB" []] "sext.b";
  (* coralnpu_v2.bin_fmt:788 coralnpu_v2.isa:705 *)
  E2 "sext_h" GR [Ceq "func7" 48; Ceq "rs2" 5; Ceq "func3" 1; Ceq "opcode" 19]
    ["rs1"] ["rd"] None [Fn "RV32::RiscVSextH" []] "sext.h";
  (* coralnpu_v2.bin_fmt:789 coralnpu_v2.isa:714 *)
  E2 "rol" GR [Ceq "func7" 48; Ceq "func3" 1; Ceq "opcode" 51]
    ["rs1"; "rs2"] ["rd"] None [Fn "RV32::RiscVRol" []] "rol";
  (* coralnpu_v2.bin_fmt:790 coralnpu_v2.isa:718 *)
  E2 "ror" GR [Ceq "func7" 48; Ceq "func3" 5; Ceq "opcode" 51]
    ["rs1"; "rs2"] ["rd"] None [Fn "RV32::RiscVRor" []] "ror";
  (* coralnpu_v2.bin_fmt:791 coralnpu_v2.isa:723 *)
  E2 "orcb" GR [Ceq "func7" 20; Ceq "rs2" 7; Ceq "func3" 5; Ceq "opcode" 19]
    ["rs1"] ["rd"] None [Fn "RV32::RiscVOrcb" []] "orc";
  (* coralnpu_v2.bin_fmt:792 coralnpu_v2.isa:728 *)
  E2 "rev8" GR [Ceq "func7" 52; Ceq "rs2" 24; Ceq "func3" 5; Ceq "opcode" 19]
    ["rs1"] ["rd"] None [Fn "RV32::RiscVRev8" []] "rev8"
].

Definition tab2_RiscVZbbInst32Only : list entry2 := [
  (* coralnpu_v2.bin_fmt:796 coralnpu_v2.isa:709 *)
  E2 "zext_h" GR [Ceq "func7" 4; Ceq "rs2" 0; Ceq "func3" 4; Ceq "opcode" 51]
    ["rs1"] ["rd"] None [Fn "RV32::RiscVZextH" []] "zext.h"
].

Definition tab2_RiscVZbbImmInst32 : list entry2 := [
  (* coralnpu_v2.bin_fmt:800 coralnpu_v2.isa:740 *)
  E2 "rori" GR [Ceq "func7" 48; Ceq "func3" 5; Ceq "opcode" 19]
    ["rs1"; "r_uimm5"] ["rd"] None [Fn "RV32::RiscVRor" []] "rori"
].

Definition tab2_RiscVPrivInst32 : list entry2 := [
  (* coralnpu_v2.bin_fmt:805 coralnpu_v2.isa:638 *)
  E2 "mret" GInst32 [Ceq "bits" 6307840; Ceq "opcode" 115]
    [] ["next_pc"] None [Fn "RV32::RiscVPrivMRet" []] "mret";
  (* coralnpu_v2.bin_fmt:806 coralnpu_v2.isa:641 *)
  E2 "wfi" GInst32 [Ceq "bits" 2138112; Ceq "opcode" 115]
    [] [] None [Fn "RiscVPrivWfi" []] "wfi"
].

Definition tab2_CoralNPUV2CustomInst32 : list entry2 := [
  (* coralnpu_v2.bin_fmt:811 coralnpu_v2.isa:1779 *)
  E2 "mpause" GInst32 [Ceq "bits" 1048576; Ceq "opcode" 115]
    [] [] None [Fn "coralnpu::CoralNPUV2Mpause" []] "mpause"
].

(** The order of the decoder declaration, coralnpu_v2.bin_fmt:22-34, 39. *)
Definition all2 : list entry2 :=
  tab2_RiscVIInstBase32
  ++ tab2_RiscVIHints32
  ++ tab2_RiscVZicsrInst32
  ++ tab2_RiscVZifenceiInst32
  ++ tab2_RiscVMInst32
  ++ tab2_RiscVFInst32
  ++ tab2_RiscVZve32xInst32
  ++ tab2_RiscVZbbInst32
  ++ tab2_RiscVZbbInst32Only
  ++ tab2_RiscVZbbImmInst32
  ++ tab2_RiscVPrivInst32
  ++ tab2_CoralNPUV2CustomInst32.
