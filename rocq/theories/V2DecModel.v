(** * V2: decoding an instruction word and building its operands

    Models CoralNPUV2Encoding (/repo/sim/coralnpu_v2_encoding.cc, "encoding.cc")
    and the operand getters of /repo/sim/coralnpu_v2_getters.h ("getters.h") over
    the tables of V2Table.v.

    Simplifications:
    - DecodeCoralNPUV2Inst32 is generated by mpact from coralnpu_v2.bin_fmt.  All
      that is assumed about it is [decoder2_ok]: it returns a row whose
      constraints the word meets, and kNone only if there is none.  Which row it
      returns when several match is left open;
    - Extractors::F::ExtractN is the field or overlay N of format F; where F is
      Inst32Format (b_imm, i_uimm5, u_imm12, imm12), the one of the format that
      declares it;
    - constraints compare the bits of a field as an unsigned number (the only
      signed field in a constraint is imm12, compared with 0);
    - an operand is described by what it gives access to; a csr source is the
      number it carries, its name is left out; latencies are left out. *)
From Verif Require Export CInt V2DecTypes V2Table V2Model.
Import ListNotations.
Open Scope string_scope.
Open Scope Z_scope.

(** ** Fields *)
(** The bits [lo, lo+n) of a word. *)
Definition bitsat (w lo n : Z) : Z := (w / 2 ^ lo) mod 2 ^ n.
(** Lowest bit, width and signedness of a field; [top] bits are still unused. *)
Fixpoint place2 (n : string) (l : list (bool * string * Z)) (top : Z) : option (Z * Z * bool) :=
  match l with
  | [] => None
  | (s, k, w) :: r => if String.eqb n k then Some (top - w, w, s) else place2 n r (top - w)
  end.
(** Slices of a word, most significant first: bits [lo, lo+n) or [n] literal bits. *)
Inductive slice := SBits (lo n : Z) | SLit (n v : Z).
Definition slice_of (f : fmt2) (p : piece) : option slice :=
  match p with
  | PFld n => match place2 n (vfields f) 32 with Some (lo, w, _) => Some (SBits lo w) | None => None end
  | PSl n hi lo => match place2 n (vfields f) 32 with Some (b, _, _) => Some (SBits (b + lo) (hi - lo + 1)) | None => None end
  | PLit w v => Some (SLit w v)
  end.
Fixpoint slices_of (f : fmt2) (l : list piece) : option (list slice) :=
  match l with
  | [] => Some []
  | p :: r => match slice_of f p, slices_of f r with Some s, Some t => Some (s :: t) | _, _ => None end
  end.
(** Signedness and slices of a field or overlay. *)
Definition field2 (f : fmt2) (n : string) : option (bool * list slice) :=
  match place2 n (vfields f) 32 with
  | Some (lo, w, s) => Some (s, [SBits lo w])
  | None =>
      match List.find (fun o => let '(_, k, _, _) := o in String.eqb n k) (voverlays f) with
      | Some (s, _, _, ps) => match slices_of f ps with Some l => Some (s, l) | None => None end
      | None => None
      end
  end.
Definition slice_len (s : slice) : Z := match s with SBits _ n => n | SLit n _ => n end.
Definition slice_val (w : Z) (s : slice) : Z := match s with SBits lo n => bitsat w lo n | SLit _ v => v end.
(** The concatenation of slices and its width. *)
Fixpoint cat (w : Z) (l : list slice) : Z * Z :=
  match l with
  | [] => (0, 0)
  | s :: r => let '(v, n) := cat w r in (slice_val w s * 2 ^ n + v, slice_len s + n)
  end.
Definition sext (n v : Z) : Z := if v <? 2 ^ (n - 1) then v else v - 2 ^ n.
Definition raw2 (f : fmt2) (n : string) (w : Z) : option Z :=
  match field2 f n with Some (_, l) => Some (fst (cat w l)) | None => None end.
(** Extractors::F::ExtractN. *)
Definition ext2 (f : fmt2) (n : string) (w : Z) : Z :=
  match field2 f n with
  | Some (s, l) => let '(v, k) := cat w l in if s then sext k v else v
  | None => 0
  end.

(** ** Matching *)
Definition con2_ok (f : fmt2) (w : Z) (c : con2) : bool :=
  match c with
  | Ceq n v => match raw2 f n w with Some x => x =? v | None => false end
  | Cne n v => match raw2 f n w with Some x => negb (x =? v) | None => false end
  | Cgt n v => match raw2 f n w with Some x => v <? x | None => false end
  | Clt n v => match raw2 f n w with Some x => x <? v | None => false end
  end.
Definition matches2 (w : Z) (e : entry2) : bool := forallb (con2_ok (e2_fmt e) w) (e2_cons e).
(** DecodeCoralNPUV2Inst32, called by ParseInstruction, encoding.cc 64-67. *)
Definition decoder2 := Z -> option entry2.
Definition decoder2_ok (d : decoder2) : Prop := forall w,
  match d w with
  | Some e => In e all2 /\ matches2 w e = true
  | None => forall e, In e all2 -> matches2 w e = false
  end.
Definition first_match2 : decoder2 := fun w => List.find (matches2 w) all2.

(** ** Operands *)
Inductive opnd :=
| PX (r : Z)                 (* integer register r, not 0 *)
| PZero                      (* IntLiteralOperand<0> *)
| PF (r : Z) | PV (r : Z)    (* floating point register; vector register group at r *)
| PImm (v : Z)               (* ImmediateOperand, IntLiteralOperand<v> *)
| PMaskV0 | PMaskTrue        (* mask register v0; all-ones mask *)
| PNull.
Inductive dopnd := DX (r : Z) | DX0 | DF (r : Z) | DV (r : Z) | DCsr | DFflags | DNextPc | DNull.

(** AddCoralNPUV2SourceGetters, getters.h 61-261; the names of the .isa file for
    the enumerators; GetSource of an unknown one, encoding.cc 50-55. *)
Definition src2 (n : string) (w : Z) : opnd :=
  let is := String.eqb n in
  let xreg k := if k =? 0 then PZero else PX k in
  if is "B_imm12" then PImm (wrap I32 (ext2 GB "b_imm" w))                  (* 65-69 *)
  else if is "CSR_uimm5" then PImm (wrap U32 (ext2 GI "i_uimm5" w))         (* 70-74 *)
  else if is "const1" then PImm 1 else if is "const2" then PImm 2           (* 75-80 *)
  else if is "const4" then PImm 4                                           (* 81-83 *)
  else if is "csr" then PImm (wrap U16 (ext2 GI "u_imm12" w))               (* 84-96 *)
  else if is "frs1" then PF (ext2 GR "rs1" w)                               (* 97-103 *)
  else if is "frs2" then PF (ext2 GR "rs2" w)                               (* 104-110 *)
  else if is "frs3" then PF (ext2 GR4 "rs3" w)                              (* 111-117 *)
  else if is "I_imm12" then PImm (wrap I32 (ext2 GI "imm12" w))             (* 118-122 *)
  else if is "I_uimm5" then PImm (wrap U32 (ext2 GI "i_uimm5" w))           (* 123-127 *)
  else if is "J_imm12" then PImm (wrap I32 (ext2 GI "imm12" w))             (* 128-132 *)
  else if is "J_imm20" then PImm (wrap I32 (ext2 GJ "j_imm" w))             (* 133-137 *)
  else if is "nf" then PImm (wrap U8 (ext2 GVMem "nf" w))                   (* 138-142 *)
  else if is "pred" then PImm (wrap U32 (ext2 GFence "pred" w))             (* 143-147 *)
  else if is "r_uimm5" then PImm (wrap U32 (ext2 GR "r_uimm5" w))           (* 148-152 *)
  else if is "rm" then                                                      (* 153-175 *)
    let k := ext2 GR "func3" w in if (0 <=? k) && (k <=? 7) then PImm k else PNull
  else if is "rs1" then xreg (ext2 GR "rs1" w)                              (* 176-183 *)
  else if is "rs2" then xreg (ext2 GR "rs2" w)                              (* 184-191 *)
  else if is "S_imm12" then PImm (wrap I32 (ext2 GS "s_imm" w))             (* 192-196 *)
  else if is "simm5" then PImm (wrap I32 (ext2 GVArith "simm5" w))          (* 197-201 *)
  else if is "succ" then PImm (wrap U32 (ext2 GFence "succ" w))             (* 202-206 *)
  else if is "U_imm20" then PImm (wrap I32 (ext2 GU "u_imm" w))             (* 207-211 *)
  else if is "uimm5" then PImm (wrap I32 (ext2 GVArith "uimm5" w))          (* 212-216 *)
  else if is "vd" then PV (ext2 GVArith "vd" w)                             (* 217-220 *)
  else if is "vm" then PImm (if ext2 GVArith "vm" w =? 0 then 0 else 1)     (* 221-224 *)
  else if is "vmask" then if ext2 GVArith "vm" w =? 0 then PMaskV0 else PMaskTrue  (* 225-235 *)
  else if is "vmask_true" then PMaskTrue                                    (* 236-239 *)
  else if is "vs1" then PV (ext2 GVArith "vs1" w)                           (* 240-245 *)
  else if is "vs2" then PV (ext2 GVArith "vs2" w)                           (* 246-251 *)
  else if is "vs3" then PV (ext2 GVMem "vs3" w)                             (* 252-257 *)
  else if is "zimm10" then PImm (wrap I32 (ext2 GVConfig "zimm10" w))       (* 258-262 *)
  else if is "zimm11" then PImm (wrap I32 (ext2 GVConfig "zimm11" w))       (* 263-267 *)
  else PNull.
(** AddCoralNPUV2DestGetters, getters.h 269-313; encoding.cc 57-62. *)
Definition dst2 (n : string) (w : Z) : dopnd :=
  let is := String.eqb n in
  if is "csr" then DCsr else if is "fflags" then DFflags
  else if is "frd" then DF (ext2 GR "rd" w)
  else if is "next_pc" then DNextPc
  else if is "rd" then let k := ext2 GR "rd" w in if k =? 0 then DX0 else DX k
  else if is "vd" then DV (ext2 GVArith "vd" w)
  else DNull.

(** What is executed for a word: semantic functions, operands, operands of the
    child instruction. *)
Record act := Act {
  a_sem : list fn2; a_src : list opnd; a_dst : list dopnd;
  a_child : option (list opnd * list dopnd) }.
Definition act_of (e : entry2) (w : Z) : act :=
  Act (e2_sem e) (map (fun n => src2 n w) (e2_src e)) (map (fun n => dst2 n w) (e2_dst e))
      (option_map (fun c => (map (fun n => src2 n w) (fst c), map (fun n => dst2 n w) (snd c))) (e2_child e)).
(** [None]: the default opcode, RiscVIUnimplemented (coralnpu_v2.isa 1775-1777). *)
Definition decode2 (d : decoder2) (w : Z) : option act := option_map (fun e => act_of e w) (d w).

(** ** Executing a scalar load or store *)
(** The function of coralnpu_v2_instructions.cc a row names; flw uses that of lw
    (coralnpu_v2.isa 520-523). *)
Definition mem_fn (l : list fn2) : option v2mem :=
  match l with
  | Fn n _ :: _ =>
      let is s := String.eqb n ("coralnpu::" ++ s) in
      if is "CoralNPUV2Lw" then Some Lw else if is "CoralNPUV2Lh" then Some Lh
      else if is "CoralNPUV2Lhu" then Some Lhu else if is "CoralNPUV2Lb" then Some Lb
      else if is "CoralNPUV2Lbu" then Some Lbu else if is "CoralNPUV2Sw" then Some Sw
      else if is "CoralNPUV2Sh" then Some Sh else if is "CoralNPUV2Sb" then Some Sb
      else if is "CoralNPUV2Fsw" then Some Fsw else None
  | [] => None
  end.
(** What an integer source operand reads; [x r] is integer register r. *)
Definition value2 (x : Z -> Z) (o : opnd) : Z :=
  match o with PX r => x r | PImm v => v | _ => 0 end.
Section Mem2.
  Variable St : Type.
  (** The access with the sources behind base and offset and the destinations of
      the child, at an address; Trap. *)
  Variable perform : v2mem -> list opnd -> list dopnd -> Z -> St -> St.
  Variable trap : Z -> Z -> St -> St.
  (** The word [w] at [pc], if it decodes to one of these functions. *)
  Definition exec_mem2 (d : decoder2) (x : Z -> Z) (ranges : list range) (pc w : Z) (s : St) : option St :=
    match decode2 d w with
    | Some a =>
        match mem_fn (a_sem a), a_src a with
        | Some i, b :: o :: r =>
            let t := match a_child a with Some (_, t) => t | None => [] end in
            Some (v2_exec (fun j => perform j r t) trap i ranges pc (value2 x b) (value2 x o) s)
        | _, _ => None
        end
    | None => None
    end.
End Mem2.
Arguments exec_mem2 {St}.
