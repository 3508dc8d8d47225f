(** * What V2 words mean, by the RISC-V manuals

    An independent table: the encodings of RV32I, M, F, Zicsr, Zifencei, Zbb and
    Zve32x as the RISC-V unprivileged manual lists them, with mret and wfi of the
    privileged manual and CoralNPU's mpause.  Fields are given by bit position.
    Nothing here refers to coralnpu_v2.bin_fmt, its formats or its rows; only the
    names of the semantic functions are shared with the model. *)
From Verif Require Import CInt V2DecTypes V2DecModel.
Import ListNotations.
Open Scope string_scope.
Open Scope list_scope.
Open Scope Z_scope.

Definition word (w : Z) : Prop := 0 <= w < 2 ^ 32.
(** Bits [lo, lo+n) of a number, and patterns: fields with required values, fields
    with forbidden values. *)
Definition at_ (w lo n : Z) : Z := (w / 2 ^ lo) mod 2 ^ n.
Record pat := P { p_eq : list (Z * Z * Z); p_ne : list (Z * Z * Z) }.
Definition meets_pat (w : Z) (p : pat) : Prop :=
  (forall lo n v, In (lo, n, v) (p_eq p) -> at_ w lo n = v) /\
  (forall lo n v, In (lo, n, v) (p_ne p) -> at_ w lo n <> v).

(** ** Operands *)
Inductive kind :=
| KX (lo : Z) | KF (lo : Z) | KV (lo : Z)   (* register numbered by the 5 bits at lo *)
| KImm (a b z : Z) (l : list (Z * Z * Z))   (* a <= v < b, multiple of 2^z; (i,j,n): bits i.. of v are bits j.. of w *)
| KShift                                    (* shift amount, used modulo 32 or less *)
| KVtype (n : Z)                            (* new vtype, n bits; the top one reserved *)
| KC (v : Z) | KMask | KTrue.
Inductive dkind := DKX (lo : Z) | DKF (lo : Z) | DKV (lo : Z) | DKCsr | DKFflags | DKPc.
Definition operand_is (k : kind) (w : Z) (o : opnd) : Prop :=
  match k with
  | KX lo => o = if at_ w lo 5 =? 0 then PZero else PX (at_ w lo 5)
  | KF lo => o = PF (at_ w lo 5)
  | KV lo => o = PV (at_ w lo 5)
  | KImm a b z l => exists v, o = PImm v /\ a <= v < b /\ v mod 2 ^ z = 0 /\
      forall i j n, In (i, j, n) l -> at_ v i n = at_ w j n
  | KShift => exists v, o = PImm v /\ v mod 32 = at_ w 15 5
  | KVtype n => exists v, o = PImm v /\ v mod 2 ^ n = at_ w 20 n /\ (at_ w (20 + n - 1) 1 = 0 -> v = at_ w 20 n)
  | KC v => o = PImm v
  | KMask => o = if at_ w 25 1 =? 0 then PMaskV0 else PMaskTrue
  | KTrue => o = PMaskTrue
  end.
Definition dest_is (k : dkind) (w : Z) (o : dopnd) : Prop :=
  match k with
  | DKX lo => o = if at_ w lo 5 =? 0 then DX0 else DX (at_ w lo 5)
  | DKF lo => o = DF (at_ w lo 5)
  | DKV lo => o = DV (at_ w lo 5)
  | DKCsr => o = DCsr | DKFflags => o = DFflags | DKPc => o = DNextPc
  end.
(** Immediates of the base formats, and unsigned fields. *)
Definition Iimm := KImm (-2048) 2048 0 [(0, 20, 12)].
Definition Simm := KImm (-2048) 2048 0 [(5, 25, 7); (0, 7, 5)].
Definition Bimm := KImm (-4096) 4096 1 [(12, 31, 1); (11, 7, 1); (5, 25, 6); (1, 8, 4)].
Definition Uimm := KImm (-2147483648) 2147483648 12 [(12, 12, 20)].
Definition Jimm := KImm (-1048576) 1048576 1 [(20, 31, 1); (12, 12, 8); (11, 20, 1); (1, 21, 10)].
Definition Ufld lo n := KImm 0 (2 ^ n) 0 [(0, lo, n)].
Definition imms : list kind := [Iimm; Simm; Bimm; Uimm; Jimm].
Definition Vsimm := KImm (-16) 16 0 [(0, 15, 5)].

(** ** The manual *)
(** Name, encoding, semantic functions, sources, destinations, sources and
    destinations of the child; patterns under which doing nothing is as good. *)
Record ment := M {
  m_name : string; m_pat : pat; m_sem : list fn2;
  m_src : list kind; m_dst : list dkind; m_child : option (list kind * list dkind);
  m_nop : list (list (Z * Z * Z)) }.
Definition rd0 := [[(7, 5, 0)]].
Definition fn (s : string) := [Fn s []].
Definition rv (s : string) := [Fn ("RV32::" ++ s) []].

(** Register-register, register-immediate and unary integer operations. *)
Definition rr name f7 f3 sem := M name (P [(0, 7, 51); (12, 3, f3); (25, 7, f7)] []) (rv sem) [KX 15; KX 20] [DKX 7] None rd0.
Definition ri name f3 sem := M name (P [(0, 7, 19); (12, 3, f3)] []) (rv sem) [KX 15; Iimm] [DKX 7] None rd0.
Definition sh name f7 f3 sem := M name (P [(0, 7, 19); (12, 3, f3); (25, 7, f7)] []) (rv sem) [KX 15; Ufld 20 5] [DKX 7] None rd0.
Definition un name op f12 f3 sem := M name (P [(0, 7, op); (12, 3, f3); (20, 12, f12)] []) (rv sem) [KX 15] [DKX 7] None rd0.
Definition br name f3 sem := M name (P [(0, 7, 99); (12, 3, f3)] []) (rv sem) [KX 15; KX 20; Bimm] [DKPc] None [].
Definition ld name f3 sem chl := M name (P [(0, 7, 3); (12, 3, f3)] []) [Fn ("coralnpu::" ++ sem) []; Fn ("RV32::" ++ chl) []] [KX 15; Iimm] [] (Some ([], [DKX 7])) [].
Definition st name f3 sem := M name (P [(0, 7, 35); (12, 3, f3)] []) [Fn ("coralnpu::" ++ sem) []] [KX 15; Simm; KX 20] [] None [].
Definition base : list ment := [
  M "lui" (P [(0, 7, 55)] []) (rv "RiscVILui") [Uimm] [DKX 7] None rd0;
  M "auipc" (P [(0, 7, 23)] []) (rv "RiscVIAuipc") [Uimm] [DKX 7] None rd0;
  M "jal" (P [(0, 7, 111)] []) (rv "RiscVIJal") [Jimm] [DKPc; DKX 7] None [];
  M "jalr" (P [(0, 7, 103); (12, 3, 0)] []) (rv "RiscVIJalr") [KX 15; Iimm] [DKPc; DKX 7] None [];
  br "beq" 0 "RiscVIBeq"; br "bne" 1 "RiscVIBne"; br "blt" 4 "RiscVIBlt";
  br "bge" 5 "RiscVIBge"; br "bltu" 6 "RiscVIBltu"; br "bgeu" 7 "RiscVIBgeu";
  ld "lb" 0 "CoralNPUV2Lb" "RiscVILbChild"; ld "lh" 1 "CoralNPUV2Lh" "RiscVILhChild";
  ld "lw" 2 "CoralNPUV2Lw" "RiscVILwChild"; ld "lbu" 4 "CoralNPUV2Lbu" "RiscVILbuChild";
  ld "lhu" 5 "CoralNPUV2Lhu" "RiscVILhuChild";
  st "sb" 0 "CoralNPUV2Sb"; st "sh" 1 "CoralNPUV2Sh"; st "sw" 2 "CoralNPUV2Sw";
  ri "addi" 0 "RiscVIAdd"; ri "slti" 2 "RiscVISlt"; ri "sltiu" 3 "RiscVISltu";
  ri "xori" 4 "RiscVIXor"; ri "ori" 6 "RiscVIOr"; ri "andi" 7 "RiscVIAnd";
  sh "slli" 0 1 "RiscVISll"; sh "srli" 0 5 "RiscVISrl"; sh "srai" 32 5 "RiscVISra";
  rr "add" 0 0 "RiscVIAdd"; rr "sub" 32 0 "RiscVISub"; rr "sll" 0 1 "RiscVISll";
  rr "slt" 0 2 "RiscVISlt"; rr "sltu" 0 3 "RiscVISltu"; rr "xor" 0 4 "RiscVIXor";
  rr "srl" 0 5 "RiscVISrl"; rr "sra" 32 5 "RiscVISra"; rr "or" 0 6 "RiscVIOr"; rr "and" 0 7 "RiscVIAnd";
  (* Reserved fm values and nonzero rd, rs1 are treated as a plain fence. *)
  M "fence" (P [(0, 7, 15); (12, 3, 0)] [(20, 12, 2099)]) (fn "RiscVIFence") [Ufld 24 4; Ufld 20 4] [] None [[(24, 4, 0)]; [(20, 4, 0)]];
  M "fence.tso" (P [(0, 7, 15); (12, 3, 0); (20, 12, 2099)] []) (fn "RiscVIFenceTso") [] [] None [];
  M "ecall" (P [(0, 32, 115)] []) (fn "RiscVIEcall") [] [] None [];
  M "ebreak" (P [(0, 32, 1048691)] []) (fn "RiscVIEbreak") [] [] None [];
  M "fence.i" (P [(0, 7, 15); (12, 3, 1)] []) (fn "RiscVZFencei") [Iimm] [] None [];
  M "mret" (P [(0, 32, 807403635)] []) (rv "RiscVPrivMRet") [] [DKPc] None [];
  M "wfi" (P [(0, 32, 273678451)] []) (fn "RiscVPrivWfi") [] [] None [];
  M "mpause" (P [(0, 32, 134217843)] []) (fn "coralnpu::CoralNPUV2Mpause") [] [] None [] ].
(** csrrw does not read the csr if rd is x0; csrrs and csrrc do not write it if rs1
    is x0 (or the immediate 0).  The word csrrw x0, cycle, x0 is unimp; the other
    csrrw to cycle, a read-only csr, are illegal. *)
Definition csr_ name f3 eq ne sem src dst := M name (P ((0, 7, 115) :: (12, 3, f3) :: eq) ne) (rv sem) src dst None [].
Definition csr_src := Ufld 20 12.
Definition zicsr : list ment := [
  csr_ "csrrw" 1 [] [(7, 5, 0); (20, 12, 3072)] "RiscVZiCsrrw" [KX 15; csr_src] [DKX 7; DKCsr];
  csr_ "csrrw x0" 1 [(7, 5, 0)] [(20, 12, 3072)] "RiscVZiCsrrwNr" [KX 15; csr_src] [DKCsr];
  M "unimp" (P [(0, 32, 3221229683)] []) (fn "RiscVIUnimplemented") [] [] None [];
  csr_ "csrrs" 2 [] [(15, 5, 0)] "RiscVZiCsrrs" [KX 15; csr_src] [DKX 7; DKCsr];
  csr_ "csrr" 2 [(15, 5, 0)] [] "RiscVZiCsrrNw" [csr_src] [DKX 7];
  csr_ "csrrc" 3 [] [(15, 5, 0)] "RiscVZiCsrrc" [KX 15; csr_src] [DKX 7; DKCsr];
  csr_ "csrrc .. x0" 3 [(15, 5, 0)] [] "RiscVZiCsrrNw" [csr_src] [DKX 7];
  csr_ "csrrwi" 5 [] [(7, 5, 0)] "RiscVZiCsrrw" [Ufld 15 5; csr_src] [DKX 7; DKCsr];
  csr_ "csrrwi x0" 5 [(7, 5, 0)] [] "RiscVZiCsrrwNr" [Ufld 15 5; csr_src] [DKCsr];
  csr_ "csrrsi" 6 [] [(15, 5, 0)] "RiscVZiCsrrs" [Ufld 15 5; csr_src] [DKX 7; DKCsr];
  csr_ "csrrsi .. 0" 6 [(15, 5, 0)] [] "RiscVZiCsrrNw" [csr_src] [DKX 7];
  csr_ "csrrci" 7 [] [(15, 5, 0)] "RiscVZiCsrrc" [Ufld 15 5; csr_src] [DKX 7; DKCsr];
  csr_ "csrrci .. 0" 7 [(15, 5, 0)] [] "RiscVZiCsrrNw" [csr_src] [DKX 7] ].
Definition mul_div : list ment := [
  rr "mul" 1 0 "MMul"; rr "mulh" 1 1 "MMulh"; rr "mulhsu" 1 2 "MMulhsu"; rr "mulhu" 1 3 "MMulhu";
  rr "div" 1 4 "MDiv"; rr "divu" 1 5 "MDivu"; rr "rem" 1 6 "MRem"; rr "remu" 1 7 "MRemu" ].
Definition zbb : list ment := [
  rr "andn" 32 7 "RiscVAndn"; rr "orn" 32 6 "RiscVOrn"; rr "xnor" 32 4 "RiscVXnor";
  rr "max" 5 6 "RiscVMax"; rr "maxu" 5 7 "RiscVMaxu"; rr "min" 5 4 "RiscVMin"; rr "minu" 5 5 "RiscVMinu";
  rr "rol" 48 1 "RiscVRol"; rr "ror" 48 5 "RiscVRor"; sh "rori" 48 5 "RiscVRor";
  un "clz" 19 1536 1 "RiscVClz"; un "ctz" 19 1537 1 "RiscVCtz"; un "cpop" 19 1538 1 "RiscVCpop";
  un "sext.b" 19 1540 1 "RiscVSextB"; un "sext.h" 19 1541 1 "RiscVSextH"; un "zext.h" 51 128 4 "RiscVZextH";
  un "orc.b" 19 647 5 "RiscVOrcb"; un "rev8" 19 1688 5 "RiscVRev8" ].

(** Single precision.  The rounding mode is the field at 12. *)
Definition RM := Ufld 12 3.
Definition f_ name f7 eq sem src dst := M name (P ((0, 7, 83) :: (25, 7, f7) :: eq) []) sem src dst None [].
Definition fma name op sem := M name (P [(0, 7, op); (25, 2, 0)] []) (fn sem) [KF 15; KF 20; KF 27; RM] [DKF 7; DKFflags] None [].
Definition single : list ment := [
  M "flw" (P [(0, 7, 7); (12, 3, 2)] []) [Fn "coralnpu::CoralNPUV2Lw" []; Fn "RiscVIFlwChild" []] [KX 15; Iimm] [] (Some ([], [DKF 7])) [];
  M "fsw" (P [(0, 7, 39); (12, 3, 2)] []) (fn "coralnpu::CoralNPUV2Fsw") [KX 15; Simm; KF 20] [] None [];
  fma "fmadd.s" 67 "RiscVFMadd"; fma "fmsub.s" 71 "RiscVFMsub"; fma "fnmsub.s" 75 "RiscVFNmsub"; fma "fnmadd.s" 79 "RiscVFNmadd";
  f_ "fadd.s" 0 [] (fn "RiscVFAdd") [KF 15; KF 20; RM] [DKF 7]; f_ "fsub.s" 4 [] (fn "RiscVFSub") [KF 15; KF 20; RM] [DKF 7];
  f_ "fmul.s" 8 [] (fn "RiscVFMul") [KF 15; KF 20; RM] [DKF 7]; f_ "fdiv.s" 12 [] (fn "RiscVFDiv") [KF 15; KF 20; RM] [DKF 7];
  f_ "fsqrt.s" 44 [(20, 5, 0)] (fn "RiscVFSqrt") [KF 15; RM] [DKF 7; DKFflags];
  f_ "fsgnj.s" 16 [(12, 3, 0)] (fn "RiscVFSgnj") [KF 15; KF 20] [DKF 7];
  f_ "fsgnjn.s" 16 [(12, 3, 1)] (fn "RiscVFSgnjn") [KF 15; KF 20] [DKF 7];
  f_ "fsgnjx.s" 16 [(12, 3, 2)] (fn "RiscVFSgnjx") [KF 15; KF 20] [DKF 7];
  f_ "fmin.s" 20 [(12, 3, 0)] (fn "RiscVFMin") [KF 15; KF 20] [DKF 7; DKFflags];
  f_ "fmax.s" 20 [(12, 3, 1)] (fn "RiscVFMax") [KF 15; KF 20] [DKF 7; DKFflags];
  f_ "fcvt.w.s" 96 [(20, 5, 0)] (rv "RiscVFCvtWs") [KF 15; RM] [DKX 7; DKFflags];
  f_ "fcvt.wu.s" 96 [(20, 5, 1)] (rv "RiscVFCvtWus") [KF 15; RM] [DKX 7; DKFflags];
  f_ "fmv.x.w" 112 [(20, 5, 0); (12, 3, 0)] (rv "RiscVFMvxw") [KF 15] [DKX 7];
  f_ "feq.s" 80 [(12, 3, 2)] (rv "RiscVFCmpeq") [KF 15; KF 20] [DKX 7; DKFflags];
  f_ "flt.s" 80 [(12, 3, 1)] (rv "RiscVFCmplt") [KF 15; KF 20] [DKX 7; DKFflags];
  f_ "fle.s" 80 [(12, 3, 0)] (rv "RiscVFCmple") [KF 15; KF 20] [DKX 7; DKFflags];
  f_ "fclass.s" 112 [(20, 5, 0); (12, 3, 1)] (rv "RiscVFClass") [KF 15] [DKX 7];
  f_ "fcvt.s.w" 104 [(20, 5, 0)] (fn "RiscVFCvtSw") [KX 15; RM] [DKF 7];
  f_ "fcvt.s.wu" 104 [(20, 5, 1)] (fn "RiscVFCvtSwu") [KX 15; RM] [DKF 7];
  f_ "fmv.w.x" 120 [(20, 5, 0); (12, 3, 0)] (fn "RiscVFMvwx") [KX 15] [DKF 7] ].

(** ** Vectors (Zve32x) *)
(** vl is set from rs1; to VLMAX if rs1 is x0 and rd is not; kept if both are. *)
Definition vset name eq ne args src := M name (P ((0, 7, 87) :: (12, 3, 7) :: eq) ne) [Fn "Vsetvl" args] src [DKX 7] None [].
Definition vconfig : list ment := [
  vset "vsetvli" [(31, 1, 0)] [(15, 5, 0)] [0; 0] [KX 15; KVtype 11];
  vset "vsetvli rd,x0" [(31, 1, 0); (15, 5, 0)] [(7, 5, 0)] [0; 1] [KX 15; KVtype 11];
  vset "vsetvli x0,x0" [(31, 1, 0); (15, 5, 0); (7, 5, 0)] [] [1; 1] [KX 15; KVtype 11];
  vset "vsetivli" [(30, 2, 3)] [] [0; 0] [Ufld 15 5; KVtype 10];
  vset "vsetvl" [(25, 7, 64)] [(15, 5, 0)] [0; 0] [KX 15; KX 20];
  vset "vsetvl rd,x0" [(25, 7, 64); (15, 5, 0)] [(7, 5, 0)] [0; 1] [KX 15; KX 20];
  vset "vsetvl x0,x0" [(25, 7, 64); (15, 5, 0); (7, 5, 0)] [] [1; 1] [KX 15; KX 20] ].

(** Memory.  Element sizes 1, 2, 4 have width codes 0, 5, 6; the field at 26 is mop
    (0 unit stride, 1 and 3 indexed, 2 strided), the one at 20 lumop, the one at 29
    nf, bit 28 mew. *)
Definition widths : list (string * Z * Z) := [("8", 1, 0); ("16", 2, 5); ("32", 4, 6)].
Definition vpat op wd mop eq ne := P ((0, 7, op) :: (12, 3, wd) :: (26, 2, mop) :: (28, 1, 0) :: eq) ne.
Definition vl name pt sem args src := M name pt [Fn sem args; Fn "VlChild" []] src [] (Some ([], [DKV 7])) [].
Definition vlseg name pt sem b src := M name pt [Fn sem [b]; Fn "VlSegmentChild" [b]] src [] (Some ([Ufld 29 3], [DKV 7])) [].
Definition vs name pt sem args src := M name pt [Fn sem args] src [] None [].
Definition vmem : list ment := flat_map (fun t => let '(n, b, c) := t in [
  vl ("vle" ++ n) (vpat 7 c 0 [(20, 5, 0); (29, 3, 0); (25, 1, 0)] []) "VlStrided" [b] [KX 15; KC b; KMask];
  vl ("vle" ++ n ++ " unmasked") (vpat 7 c 0 [(20, 5, 0); (29, 3, 0); (25, 1, 1)] []) "VlStrided" [b] [KX 15; KC b; KTrue];
  vl ("vlse" ++ n) (vpat 7 c 2 [(29, 3, 0)] []) "VlStrided" [b] [KX 15; KX 20; KMask];
  vl ("vluxei" ++ n) (vpat 7 c 1 [(29, 3, 0)] []) "VlIndexed" [b] [KX 15; KV 20; KMask];
  vl ("vloxei" ++ n) (vpat 7 c 3 [(29, 3, 0)] []) "VlIndexed" [b] [KX 15; KV 20; KMask];
  vlseg ("vlsege" ++ n) (vpat 7 c 0 [(20, 5, 0)] [(29, 3, 0)]) "VlSegment" b [KX 15; KMask; Ufld 29 3];
  vlseg ("vlssege" ++ n) (vpat 7 c 2 [] [(29, 3, 0)]) "VlSegmentStrided" b [KX 15; KX 20; KMask; Ufld 29 3];
  vlseg ("vluxsegei" ++ n) (vpat 7 c 1 [] [(29, 3, 0)]) "VlSegmentIndexed" b [KX 15; KV 20; KMask; Ufld 29 3];
  vlseg ("vloxsegei" ++ n) (vpat 7 c 3 [] [(29, 3, 0)]) "VlSegmentIndexed" b [KX 15; KV 20; KMask; Ufld 29 3];
  vl ("vl1re" ++ n) (vpat 7 c 0 [(20, 5, 8); (25, 1, 1); (29, 3, 0)] []) "VlRegister" [1; b] [KX 15];
  vl ("vl2re" ++ n) (vpat 7 c 0 [(20, 5, 8); (25, 1, 1); (29, 3, 1)] []) "VlRegister" [2; b] [KX 15];
  vl ("vl4re" ++ n) (vpat 7 c 0 [(20, 5, 8); (25, 1, 1); (29, 3, 3)] []) "VlRegister" [4; b] [KX 15];
  vl ("vl8re" ++ n) (vpat 7 c 0 [(20, 5, 8); (25, 1, 1); (29, 3, 7)] []) "VlRegister" [8; b] [KX 15];
  vs ("vse" ++ n) (vpat 39 c 0 [(20, 5, 0); (29, 3, 0)] []) "VsStrided" [b] [KV 7; KX 15; KC b; KMask];
  vs ("vsse" ++ n) (vpat 39 c 2 [(29, 3, 0)] []) "VsStrided" [b] [KV 7; KX 15; KX 20; KMask];
  vs ("vsuxei" ++ n) (vpat 39 c 1 [(29, 3, 0)] []) "VsIndexed" [b] [KV 7; KX 15; KV 20; KMask];
  vs ("vsoxei" ++ n) (vpat 39 c 3 [(29, 3, 0)] []) "VsIndexed" [b] [KV 7; KX 15; KV 20; KMask];
  vs ("vssege" ++ n) (vpat 39 c 0 [(20, 5, 0)] [(29, 3, 0)]) "VsSegment" [b] [KV 7; KX 15; KMask; Ufld 29 3];
  vs ("vsssege" ++ n) (vpat 39 c 2 [] [(29, 3, 0)]) "VsSegmentStrided" [b] [KV 7; KX 15; KX 20; KMask; Ufld 29 3];
  vs ("vsoxsegei" ++ n) (vpat 39 c 3 [] [(29, 3, 0)]) "VsSegmentIndexed" [b] [KV 7; KX 15; KV 20; KMask; Ufld 29 3] ]) widths
  ++ [
  vl "vlm" (vpat 7 0 0 [(20, 5, 11); (25, 1, 1); (29, 3, 0)] []) "Vlm" [] [KX 15; KC 1; KTrue];
  vs "vsm" (vpat 39 0 0 [(20, 5, 11); (25, 1, 1); (29, 3, 0)] []) "Vsm" [] [KV 7; KX 15; KC 1; KTrue];
  vs "vs1r" (vpat 39 0 0 [(20, 5, 8); (25, 1, 1); (29, 3, 0)] []) "VsRegister" [1] [KV 7; KX 15];
  vs "vs2r" (vpat 39 0 0 [(20, 5, 8); (25, 1, 1); (29, 3, 1)] []) "VsRegister" [2] [KV 7; KX 15];
  vs "vs4r" (vpat 39 0 0 [(20, 5, 8); (25, 1, 1); (29, 3, 3)] []) "VsRegister" [4] [KV 7; KX 15];
  vs "vs8r" (vpat 39 0 0 [(20, 5, 8); (25, 1, 1); (29, 3, 7)] []) "VsRegister" [8] [KV 7; KX 15] ].

(** Arithmetic: the field at 26 and the operand form at 12 (0 OPIVV, 3 OPIVI, 4
    OPIVX, 2 OPMVV, 6 OPMVX).  vs2 is the first operand. *)
Definition va name f6 f3 eq ne sem args src dst := M name (P ((0, 7, 87) :: (12, 3, f3) :: (26, 6, f6) :: eq) ne) [Fn sem args] src dst None [].
Definition vi_ f6 f3 x ex eq ne tl name sem := va name f6 f3 eq ne sem [] ([KV 20; x] ++ ex ++ tl) [DKV 7].
(** One instruction in the integer forms it has: VV, VX, VI with the given
    immediate. *)
Definition ivs (vv vx : bool) (vi : option kind) (eq ne : list (Z * Z * Z)) (tl : list kind) (t : string * Z * string) : list ment :=
  let '(n, f6, sem) := t in
  (if vv then [vi_ f6 0 (KV 15) [] eq ne tl (n ++ ".vv") sem] else []) ++
  (if vx then [vi_ f6 4 (KX 15) [] eq ne tl (n ++ ".vx") sem] else []) ++
  match vi with Some k => [vi_ f6 3 k [] eq ne tl (n ++ ".vi") sem] | None => [] end.
(** The multiply forms; [ex]: vd is a source too. *)
Definition mvs (vv vx : bool) (ex : list kind) (t : string * Z * string) : list ment :=
  let '(n, f6, sem) := t in
  (if vv then [vi_ f6 2 (KV 15) ex [] [] [KMask] (n ++ ".vv") sem] else []) ++
  (if vx then [vi_ f6 6 (KX 15) ex [] [] [KMask] (n ++ ".vx") sem] else []).
Definition Vuimm := Ufld 15 5.
Definition VM := Ufld 25 1.
Definition vint : list ment :=
  flat_map (ivs true true (Some Vsimm) [] [] [KMask])
    [("vadd", 0, "Vadd"); ("vand", 9, "Vand"); ("vor", 10, "Vor"); ("vxor", 11, "Vxor"); ("vmseq", 24, "Vmseq");
     ("vmsne", 25, "Vmsne"); ("vmsleu", 28, "Vmsleu"); ("vmsle", 29, "Vmsle"); ("vsaddu", 32, "Vsaddu"); ("vsadd", 33, "Vsadd")] ++
  flat_map (ivs true true None [] [] [KMask])
    [("vsub", 2, "Vsub"); ("vminu", 4, "Vminu"); ("vmin", 5, "Vmin"); ("vmaxu", 6, "Vmaxu"); ("vmax", 7, "Vmax");
     ("vmsltu", 26, "Vmsltu"); ("vmslt", 27, "Vmslt"); ("vssubu", 34, "Vssubu"); ("vssub", 35, "Vssub"); ("vsmul", 39, "Vsmul")] ++
  flat_map (ivs true true (Some KShift) [] [] [KMask])
    [("vsll", 37, "Vsll"); ("vsrl", 40, "Vsrl"); ("vsra", 41, "Vsra"); ("vssrl", 42, "Vssrl"); ("vssra", 43, "Vssra")] ++
  flat_map (ivs true true (Some Vuimm) [] [] [KMask])
    [("vrgather", 12, "Vrgather"); ("vnsrl", 44, "Vnsrl"); ("vnsra", 45, "Vnsra"); ("vnclipu", 46, "Vnclipu"); ("vnclip", 47, "Vnclip")] ++
  flat_map (ivs false true (Some Vsimm) [] [] [KMask]) [("vmsgtu", 30, "Vmsgtu"); ("vmsgt", 31, "Vmsgt")] ++
  flat_map (ivs false true (Some Vuimm) [] [] [KMask]) [("vslideup", 14, "Vslideup"); ("vslidedown", 15, "Vslidedown")] ++
  ivs false true None [] [] [KMask] ("vrsub", 3, "Vrsub") ++
  ivs true false None [] [] [KMask] ("vrgatherei16", 14, "Vrgatherei16") ++
  (* vadc and vsbc take the carry from v0 and cannot write it. *)
  ivs true true (Some Vsimm) [(25, 1, 0)] [(7, 5, 0)] [KMask] ("vadc", 16, "Vadc") ++
  ivs true true None [(25, 1, 0)] [(7, 5, 0)] [KMask] ("vsbc", 18, "Vsbc") ++
  ivs true true (Some Vsimm) [] [] [KMask; VM] ("vmadc", 17, "Vmadc") ++
  ivs true true None [] [] [KMask; VM] ("vmsbc", 19, "Vmsbc") ++
  ivs true true (Some Vsimm) [(25, 1, 0)] [] [KMask] ("vmerge", 23, "Vmerge") ++
  ivs true true (Some Vsimm) [(25, 1, 1); (20, 5, 0)] [] [KTrue] ("vmv", 23, "Vmerge") ++
  flat_map (ivs true false None [] [] [KMask]) [("vwredsumu", 48, "Vwredsumu"); ("vwredsum", 49, "Vwredsum")] ++
  map (fun n => va "vmv<n>r" 39 3 [(25, 1, 1); (15, 5, n - 1)] [] "Vmvr" [n] [KV 20] [DKV 7]) [1; 2; 4; 8].
Definition vmul : list ment :=
  flat_map (mvs true false [])
    [("vredsum", 0, "Vredsum"); ("vredand", 1, "Vredand"); ("vredor", 2, "Vredor"); ("vredxor", 3, "Vredxor");
     ("vredminu", 4, "Vredminu"); ("vredmin", 5, "Vredmin"); ("vredmaxu", 6, "Vredmaxu"); ("vredmax", 7, "Vredmax")] ++
  flat_map (mvs true true [])
    [("vaaddu", 8, "Vaaddu"); ("vaadd", 9, "Vaadd"); ("vasubu", 10, "Vasubu"); ("vasub", 11, "Vasub");
     ("vdivu", 32, "Vdivu"); ("vdiv", 33, "Vdiv"); ("vremu", 34, "Vremu"); ("vrem", 35, "Vrem");
     ("vmulhu", 36, "Vmulhu"); ("vmul", 37, "Vmul"); ("vmulhsu", 38, "Vmulhsu"); ("vmulh", 39, "Vmulh");
     ("vwaddu", 48, "Vwaddu"); ("vwadd", 49, "Vwadd"); ("vwsubu", 50, "Vwsubu"); ("vwsub", 51, "Vwsub");
     ("vwaddu.w", 52, "Vwadduw"); ("vwadd.w", 53, "Vwaddw"); ("vwsubu.w", 54, "Vwsubuw"); ("vwsub.w", 55, "Vwsubw");
     ("vwmulu", 56, "Vwmulu"); ("vwmulsu", 58, "Vwmulsu"); ("vwmul", 59, "Vwmul")] ++
  flat_map (mvs false true []) [("vslide1up", 14, "Vslide1up"); ("vslide1down", 15, "Vslide1down")] ++
  flat_map (mvs true true [KV 7])
    [("vmadd", 41, "Vmadd"); ("vnmsub", 43, "Vnmsub"); ("vmacc", 45, "Vmacc"); ("vnmsac", 47, "Vnmsac");
     ("vwmaccu", 60, "Vwmaccu"); ("vwmacc", 61, "Vwmacc"); ("vwmaccsu", 63, "Vwmaccsu")] ++
  mvs false true [KV 7] ("vwmaccus", 62, "Vwmaccus") ++
  (* Mask-register operations are never masked. *)
  map (fun t => let '(n, f6, sem) := t in va n f6 2 [(25, 1, 1)] [] sem [] [KV 20; KV 15] [DKV 7])
    [("vcompress.vm", 23, "Vcompress"); ("vmandn.mm", 24, "Vmandnot"); ("vmand.mm", 25, "Vmand"); ("vmor.mm", 26, "Vmor");
     ("vmxor.mm", 27, "Vmxor"); ("vmorn.mm", 28, "Vmornot"); ("vmnand.mm", 29, "Vmnand"); ("vmnor.mm", 30, "Vmnor");
     ("vmxnor.mm", 31, "Vmxnor")] ++ [
  va "vmv.x.s" 16 2 [(25, 1, 1); (15, 5, 0)] [] "VmvToScalar" [] [KV 20] [DKX 7];
  va "vcpop.m" 16 2 [(15, 5, 16)] [] "Vcpop" [] [KV 20; KMask] [DKX 7];
  va "vfirst.m" 16 2 [(15, 5, 17)] [] "Vfirst" [] [KV 20; KMask] [DKX 7];
  va "vmv.s.x" 16 6 [(25, 1, 1); (20, 5, 0)] [] "VmvFromScalar" [] [KX 15] [DKV 7];
  va "vid.v" 20 2 [(15, 5, 17); (20, 5, 0)] [] "Vid" [] [KMask] [DKV 7] ] ++
  map (fun t => let '(n, f6, v1, sem) := t in va n f6 2 [(15, 5, v1)] [] sem [] [KV 20; KMask] [DKV 7])
    [("vzext.vf4", 18, 4, "Vzext4"); ("vsext.vf4", 18, 5, "Vsext4"); ("vzext.vf2", 18, 6, "Vzext2"); ("vsext.vf2", 18, 7, "Vsext2");
     ("vmsbf.m", 20, 1, "Vmsbf"); ("vmsof.m", 20, 2, "Vmsof"); ("vmsif.m", 20, 3, "Vmsif"); ("viota.m", 20, 16, "Viota")].
Definition manual : list ment := base ++ zicsr ++ mul_div ++ zbb ++ single ++ vconfig ++ vmem ++ vint ++ vmul.

(** Instructions of the manuals that V2 gets wrong: the reverse subtract of an
    immediate, unordered indexed segment stores, fault-only-first loads (a name for
    each element size). *)
Definition odd : list ment :=
  [vi_ 3 3 Vsimm [] [] [] [KMask] "vrsub.vi" "Vrsub"] ++
  flat_map (fun t => let '(n, b, c) := t in [
    vs ("vsuxsegei" ++ n) (vpat 39 c 1 [] [(29, 3, 0)]) "VsSegmentIndexed" [b] [KV 7; KX 15; KV 20; KMask; Ufld 29 3] ]) widths.
Definition ff : list (Z * pat) :=
  map (fun t => let '(n, b, c) := t in (b, vpat 7 c 0 [(20, 5, 16); (29, 3, 0)] [])) widths.

(** Words of the manuals for which V2 has no row: add x0,x0,x2 .. x5 (HINTs for
    non-temporal locality), fences that name rd, rs1 but no successor, fences with
    a reserved fm, segment loads of the fault-only-first kind. *)
Definition holes : list pat :=
  map (fun r => P [(0, 7, 51); (12, 3, 0); (25, 7, 0); (7, 5, 0); (15, 5, 0); (20, 5, r)] []) [2; 3; 4; 5] ++
  [ P [(0, 7, 15); (12, 3, 0); (28, 4, 0); (20, 4, 0)] [(7, 5, 0); (15, 5, 0)];
    P [(0, 7, 15); (12, 3, 0)] [(28, 4, 0); (20, 12, 2099)] ].
Definition ffseg : list pat :=
  map (fun t => let '(n, b, c) := t in vpat 7 c 0 [(20, 5, 16)] [(29, 3, 0)]) widths.

(** Words that are in none of the manuals' instructions and still accepted. *)
Definition tolerated : list pat :=
  (* fault-only-first stores; whole register stores with an element size; whole
     register moves of memory with mew set *)
  flat_map (fun t => let '(n, b, c) := t in
    [vpat 39 c 0 [(20, 5, 16); (29, 3, 0)] []] ++
    flat_map (fun nf => [P [(0, 7, 7); (12, 3, c); (26, 2, 0); (20, 5, 8); (25, 1, 1); (29, 3, nf); (28, 1, 1)] [];
                         P [(0, 7, 39); (12, 3, c); (26, 2, 0); (20, 5, 8); (25, 1, 1); (29, 3, nf); (28, 1, 1)] []] ++
                        (if c =? 0 then [] else [vpat 39 c 0 [(20, 5, 8); (25, 1, 1); (29, 3, nf)] []])) [0; 1; 3; 7]) widths ++
  (* masked forms of vlm, vsm, vmv<n>r, mask operations, scalar moves *)
  [vpat 7 0 0 [(20, 5, 11); (25, 1, 0); (29, 3, 0)] []; vpat 39 0 0 [(20, 5, 11); (25, 1, 0); (29, 3, 0)] []] ++
  map (fun n => P [(0, 7, 87); (12, 3, 3); (26, 6, 39); (25, 1, 0); (15, 5, n - 1)] []) [1; 2; 4; 8] ++
  map (fun f6 => P [(0, 7, 87); (12, 3, 2); (26, 6, f6); (25, 1, 0)] []) [23; 24; 25; 26; 27; 28; 29; 30; 31] ++
  [P [(0, 7, 87); (12, 3, 2); (26, 6, 16); (25, 1, 0); (15, 5, 0)] []; P [(0, 7, 87); (12, 3, 6); (26, 6, 16); (25, 1, 0); (20, 5, 0)] []] ++
  (* vid with a source; extensions from an eighth of 32 bits; vwmaccus of two vectors *)
  [P [(0, 7, 87); (12, 3, 2); (26, 6, 20); (15, 5, 17)] [(20, 5, 0)];
   P [(0, 7, 87); (12, 3, 2); (26, 6, 18); (15, 5, 2)] []; P [(0, 7, 87); (12, 3, 2); (26, 6, 18); (15, 5, 3)] [];
   P [(0, 7, 87); (12, 3, 2); (26, 6, 62)] []].

(** ** What decoding must deliver *)
Definition list_is {A B} (r : A -> Z -> B -> Prop) (w : Z) (ks : list A) (os : list B) : Prop := Forall2 (fun k o => r k w o) ks os.
Definition does (m : ment) (w : Z) (a : act) : Prop :=
  (a_sem a = m_sem m /\ list_is operand_is w (m_src m) (a_src a) /\ list_is dest_is w (m_dst m) (a_dst a) /\
   match m_child m, a_child a with
   | None, None => True
   | Some (s, t), Some (s', t') => list_is operand_is w s s' /\ list_is dest_is w t t'
   | _, _ => False
   end) \/
  (a_sem a = [Fn "RiscVINop" []] /\ a_child a = None /\
   exists c, In c (m_nop m) /\ forall lo n v, In (lo, n, v) c -> at_ w lo n = v).
(** Executing nothing but the unimplemented-instruction trap. *)
Definition rejected (w : Z) : Prop := forall d, decoder2_ok d -> decode2 d w = None.
(** All words that may be accepted. *)
Definition accepted_pats : list pat := map m_pat (manual ++ odd) ++ map snd ff ++ tolerated.
(** Words with several rows: operations on x0 and fences that order nothing. *)
Definition free_choice : list (list (Z * Z * Z)) :=
  [[(0, 7, 19); (7, 5, 0)]; [(0, 7, 51); (7, 5, 0)]; [(0, 7, 15); (24, 4, 0)]; [(0, 7, 15); (20, 4, 0)]].

(** ** Scalar loads and stores *)
(** Opcode, field at 12, access: the loads of integers, flw, the stores. *)
Definition loads : list (Z * Z * v2mem) := [(3, 0, Lb); (3, 1, Lh); (3, 2, Lw); (3, 4, Lbu); (3, 5, Lhu); (7, 2, Lw)].
Definition stores : list (Z * Z * v2mem) := [(35, 0, Sb); (35, 1, Sh); (35, 2, Sw); (39, 2, Fsw)].
(** The value of the register in the field at 15. *)
Definition base_of (x : Z -> Z) (w : Z) : Z := if at_ w 15 5 =? 0 then 0 else x (at_ w 15 5).

(** ** Mnemonics *)
(** Texts shared by several forms of one instruction (x0 as an operand), and texts
    shared by different instructions. *)
Definition shared_forms : list string := ["csrw"; "csrs"; "csrc"; "csrsi"; "vsetvli"; "vsetvl"].
Definition shared_names : list string :=
  ["xor"; "max"; "min"; "vmax.vv"; "vmax.vx"; "fsgnjx.s"; "csrwi"; "vlseg%nf\\e.v"; "vsseg%nf\\e.v";
   "vsuxseg%nf\\ei1.v"; "vsuxseg%nf\\ei2.v"; "vsuxseg%nf\\ei4.v"].
