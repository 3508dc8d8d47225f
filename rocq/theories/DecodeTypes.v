(** * Instruction encodings: formats, constraints, table rows

    Types of the rows of DecodeTable.v, which tools/gen_decode.py transcribes
    from /repo/sim/coralnpu_*.bin_fmt and coralnpu_*.isa, and the bit positions
    of the fields of /repo/sim/coralnpu_format.bin_fmt. *)
From Verif Require Export CInt VecModel.
From Coq Require Export String List.
Import ListNotations.
Open Scope string_scope.
Open Scope Z_scope.

(** The instruction formats, coralnpu_format.bin_fmt. *)
Inductive fmt := FInst32 | FR | FI | FS | FB | FU | FJ | FFence | FSys | FV2 | FV3.

(** Fields, most significant first (coralnpu_format.bin_fmt: Inst32Format 1,
    RType 8, IType 21, SType 34, BType 47, UType 60, JType 70, Fence 80,
    CoralNPUSystemType 92, CoralNPUV2ArgsType 105, CoralNPUV3ArgsType 122). *)
Definition fields (f : fmt) : list (string * Z) :=
  match f with
  | FInst32 => [("bits", 25); ("opcode", 7)]
  | FR => [("func7", 7); ("rs2", 5); ("rs1", 5); ("func3", 3); ("rd", 5); ("opcode", 7)]
  | FI => [("imm12", 12); ("rs1", 5); ("func3", 3); ("rd", 5); ("opcode", 7)]
  | FS | FB => [("imm7", 7); ("rs2", 5); ("rs1", 5); ("func3", 3); ("imm5", 5); ("opcode", 7)]
  | FU | FJ => [("imm20", 20); ("rd", 5); ("opcode", 7)]
  | FFence => [("fm", 4); ("pred", 4); ("succ", 4); ("rs1", 5); ("func3", 3); ("rd", 5); ("opcode", 7)]
  | FSys => [("func2", 4); ("m", 1); ("mode", 2); ("rs2", 5); ("rs1", 5); ("func1", 3); ("rd", 5); ("opcode", 7)]
  | FV2 => [("func2", 6); ("vs2", 6); ("vs1", 6); ("sz", 2); ("vd", 6); ("m", 1); ("func1", 3); ("form", 2)]
  | FV3 => [("vs3", 6); ("vs2", 6); ("vs1", 6); ("func3_hi", 2); ("vd", 6); ("m", 1); ("func3_lo", 2); ("form", 3)]
  end.
(** Overlays that are one slice [hi..lo] of a field (name, field, hi, lo); the
    overlays built from several pieces are not used by any constraint. *)
Definition overlays (f : fmt) : list (string * (string * Z * Z)) :=
  match f with
  | FV2 => [("vs1_low4", ("vs1", 3, 0)); ("vs1_low2", ("vs1", 1, 0)); ("vd_low2", ("vd", 1, 0))]
  | FV3 => [("vs2_hi1", ("vs2", 5, 5)); ("rs2", ("vs2", 4, 0)); ("vs1_low4", ("vs1", 3, 0));
            ("vs3_low3", ("vs3", 2, 0)); ("vd_low2", ("vd", 1, 0))]
  | _ => []
  end.
Fixpoint find {A} (n : string) (l : list (string * A)) : option A :=
  match l with [] => None | (k, v) :: r => if String.eqb n k then Some v else find n r end.
(** Lowest bit and width of a field; [top] is the number of bits still unused. *)
Fixpoint place (n : string) (l : list (string * Z)) (top : Z) : option (Z * Z) :=
  match l with
  | [] => None
  | (k, w) :: r => if String.eqb n k then Some (top - w, w) else place n r (top - w)
  end.
Definition field (f : fmt) (n : string) : option (Z * Z) :=
  match place n (fields f) 32 with
  | Some p => Some p
  | None => match find n (overlays f) with
            | Some (b, hi, lo) =>
                match place b (fields f) 32 with
                | Some (p, _) => Some (p + lo, hi - lo + 1)
                | None => None end
            | None => None end
  end.
(** The bits [lo, lo+n) of a word. *)
Definition xbits (w lo n : Z) : Z := (w / 2 ^ lo) mod 2 ^ n.

(** One constraint [field == value] or [field != value]. *)
Inductive con := Ceq (f : string) (v : Z) | Cne (f : string) (v : Z).
Inductive group := GInst | GArith | GConv | GMemory | GMul | GShift.

(** Source and destination operand names of the .isa files. *)
Inductive srcop := SRs1 | SRs2 | SVs1 | SVs2 | SVs3 | SVd | SImm (n : string).
Inductive dstop := DRd | DVd | DVs1 | DCsr | DNextPc.

(** Semantic functions with the arguments bound in the .isa files. *)
Inductive sem :=
| SmVec (i : vinst) (scalar strip : bool)
| SmLd (T : ity) (len stride strip : bool) (Tw : ity) (wstrip : bool)  (* VLd and its child VLdRegWrite *)
| SmSt (T : ity) (len stride strip : bool)
| SmStq (T : ity) (strip : bool)
| SmDup (T : ity) (strip : bool)
| SmGetVl (T : ity) (strip is_rs1 is_rs2 : bool)
| SmConv | SmDwconv (write_acc : bool) | SmAcSet (transpose : bool) | SmVcGet | SmADwInit
| SmScalar (f : string).

(** A row: opcode, instruction group, format, constraints, sources,
    destinations, destinations of the child instruction, semantic function. *)
Record entry := E {
  e_name : string; e_grp : group; e_fmt : fmt; e_cons : list con;
  e_src : list srcop; e_dst : list dstop; e_child : list dstop; e_sem : sem }.
