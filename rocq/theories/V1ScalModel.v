(** * V1: operands of the scalar instructions

    Completes DecodeModel.v for the words of the group CoralNPUInst: the
    immediate operands (/repo/sim/coralnpu_encoding.cc, line numbers refer to that
    file) over the formats of /repo/sim/coralnpu_format.bin_fmt, and the semantic
    functions of the instruction and its child (V1Aux.v).  What is executed is
    described as in V2DecModel.v ([act]).

    Simplifications: encoding::inst32_format::ExtractN is the field or overlay N of
    the format that declares it; a csr source is the number it carries, its name
    is left out; latencies are left out. *)
From Verif Require Export CInt DecodeTypes DecodeModel LogModel V1Aux.
From Verif Require Export V2DecTypes V2DecModel.
Import ListNotations.
Open Scope string_scope.
Open Scope Z_scope.

(** The overlays of the scalar formats: signed, name, pieces from the most
    significant (coralnpu_format.bin_fmt: RType 16-17, IType 28-30, SType 42-43,
    BType 55-56, UType 65-66, JType 75-76). *)
Definition overlays1 (f : fmt) : list (bool * string * list piece) :=
  match f with
  | FR => [(false, "r_uimm5", [PFld "rs2"])]
  | FI => [(false, "u_imm12", [PFld "imm12"]); (false, "i_uimm5", [PFld "rs1"])]
  | FS => [(true, "s_imm", [PFld "imm7"; PFld "imm5"])]
  | FB => [(true, "b_imm", [PSl "imm7" 6 6; PSl "imm5" 0 0; PSl "imm7" 5 0; PSl "imm5" 4 1; PLit 1 0])]
  | FU => [(false, "u_imm", [PFld "imm20"; PLit 12 0])]
  | FJ => [(true, "j_imm", [PSl "imm20" 19 19; PSl "imm20" 7 0; PSl "imm20" 8 8; PSl "imm20" 18 9; PLit 1 0])]
  | _ => []
  end.
Definition slice1 (f : fmt) (p : piece) : slice :=
  match p with
  | PFld n => match place n (fields f) 32 with Some (lo, k) => SBits lo k | None => SLit 0 0 end
  | PSl n hi lo => match place n (fields f) 32 with Some (b, _) => SBits (b + lo) (hi - lo + 1) | None => SLit 0 0 end
  | PLit k v => SLit k v
  end.
(** ExtractN.  imm12 of IType (line 23) is the only signed field. *)
Definition ext1 (f : fmt) (n : string) (w : Z) : Z :=
  match place n (fields f) 32 with
  | Some (lo, k) => let v := bitsat w lo k in if String.eqb n "imm12" then sext k v else v
  | None =>
      match List.find (fun o => let '(_, k, _) := o in String.eqb n k) (overlays1 f) with
      | Some (s, _, l) => let '(v, k) := cat w (map (slice1 f) l) in if s then sext k v else v
      | None => 0
      end
  end.

(** InitializeSourceOperandGetters, the immediates 133-178 and 203-212; GetSource
    of a name without getter is null. *)
Definition imm1 (n : string) (w : Z) : opnd :=
  let is := String.eqb n in
  if is "B_imm12" then PImm (wrap I32 (ext1 FB "b_imm" w))            (* 133-137 *)
  else if is "CSR_uimm5" then PImm (wrap U32 (ext1 FI "i_uimm5" w))   (* 138-142 *)
  else if is "csr" then PImm (wrap U32 (ext1 FI "u_imm12" w))         (* 143-153 *)
  else if is "I_imm12" then PImm (wrap I32 (ext1 FI "imm12" w))       (* 154-158 *)
  else if is "I_uimm5" then PImm (wrap U32 (ext1 FR "r_uimm5" w))     (* 159-163 *)
  else if is "r_uimm5" then PImm (wrap U32 (ext1 FR "r_uimm5" w))     (* 164-168 *)
  else if is "J_imm12" then PImm (wrap I32 (ext1 FI "imm12" w))       (* 169-173 *)
  else if is "J_imm20" then PImm (wrap I32 (ext1 FJ "j_imm" w))       (* 174-178 *)
  else if is "S_imm12" then PImm (wrap I32 (ext1 FS "s_imm" w))       (* 203-207 *)
  else if is "U_imm20" then PImm (wrap I32 (ext1 FU "u_imm" w))       (* 208-212 *)
  else PNull.
Definition src1 (e : entry) (w : Z) (s : srcop) : opnd :=
  match s with
  | SImm n => imm1 n w
  | _ => match src_op e w s with OReg r => PX r | OZero => PZero | OVec g => PV (g_base g) | OOther => PNull end
  end.
(** InitializeDestinationOperandGetters: kCsr 299-303, kNextPc 304-308; the others
    are [dst_op]. *)
Definition dst1 (e : entry) (w : Z) (d : dstop) : dopnd :=
  match d with
  | DecodeTypes.DCsr => DCsr
  | DecodeTypes.DNextPc => DNextPc
  | _ => match dst_op e w d with OReg r => DX r | OZero => DX0 | OVec g => DV (g_base g) | OOther => DNull end
  end.
(** What is executed for a word that row [e] matches. *)
Definition act1 (e : entry) (w : Z) : act :=
  Act (match DecodeTypes.find (e_name e) v1_sems with Some l => l | None => [] end)
      (map (src1 e w) (e_src e)) (map (dst1 e w) (e_dst e))
      (match e_child e with [] => None | l => Some ([], map (dst1 e w) l) end).
Definition decode1 (d : decoder) (w : Z) : option act := option_map (fun e => act1 e w) (parse d w).

(** ** Disassembly *)
(** The disasm clauses of the .isa files: a mnemonic and a text in which %name and
    %(name:format) stand for an operand and %(@+name:format) for an operand added to
    the address of the instruction.  The generator that reads them is mpact-sim's. *)
Inductive tok := TChr (c : Ascii.ascii) | TOp (rel : bool) (name fmt : string).
Definition is_id (c : Ascii.ascii) : bool :=
  let n := Ascii.nat_of_ascii c in
  ((48 <=? n) && (n <=? 57) || (65 <=? n) && (n <=? 90) || (n =? 95) || (97 <=? n) && (n <=? 122))%nat.
Definition snoc (s : string) (c : Ascii.ascii) : string := (s ++ String c "")%string.
(** Reader states: plain text, after %, in a bare name, and in parentheses. *)
Inductive rd := RTxt | RPct | RName (n : string) | RPar (rel : bool) (n : string) (f : option string).
Definition step1 (st : rd) (c : Ascii.ascii) : list tok * rd :=
  let ch (s : string) := String.eqb (String c "") s in
  let txt := if ch "%" then ([], RPct) else ([TChr c], RTxt) in
  match st with
  | RTxt => txt
  | RPct => if ch "(" then ([], RPar false "" None) else ([], RName (String c ""))
  | RName n => if is_id c then ([], RName (snoc n c)) else let '(l, s) := txt in (TOp false n "" :: l, s)
  | RPar rel n None =>
      if ch ")" then ([TOp rel n ""], RTxt)
      else if ch ":" then ([], RPar rel n (Some ""))
      else if ch "@" then ([], RPar true n None)
      else if ch "+" then ([], RPar rel n None)
      else ([], RPar rel (snoc n c) None)
  | RPar rel n (Some f) => if ch ")" then ([TOp rel n f], RTxt) else ([], RPar rel n (Some (snoc f c)))
  end.
Fixpoint read1 (st : rd) (s : string) : list tok :=
  match s with
  | "" => match st with RName n => [TOp false n ""] | _ => [] end
  | String c r => let '(l, st') := step1 st c in (l ++ read1 st' r)%list
  end.
Definition src_name (s : srcop) : string :=
  match s with SRs1 => "rs1" | SRs2 => "rs2" | SVs1 => "vs1" | SVs2 => "vs2" | SVs3 => "vs3" | SVd => "vd" | SImm n => n end.
Definition dst_name (d : dstop) : string :=
  match d with DRd => "rd" | DVd => "vd" | DVs1 => "vs1" | DecodeTypes.DCsr => "csr" | DecodeTypes.DNextPc => "next_pc" end.
(** What is printed of an operand: the name of a register (coralnpu_encoding.cc
    182-188, 66, 80, 313-319; both x0 and the literal 0 print as x0), a number (a csr by
    its name, 143-153). *)
Inductive what := WX (r : Z) | WV (r : Z) | WNum (v : Z) | WNone.
Definition what_src (o : opnd) : what :=
  match o with PX r => WX r | PZero => WX 0 | PV r => WV r | PImm v => WNum v | _ => WNone end.
Definition what_dst (o : dopnd) : what := match o with DX r => WX r | DX0 => WX 0 | DV r => WV r | _ => WNone end.
(** The operand of a name: a source, a destination, or one of the child. *)
Definition oper (e : entry) (w : Z) (n : string) : what :=
  match List.find (fun s => String.eqb n (src_name s)) (e_src e) with
  | Some s => what_src (src1 e w s)
  | None => match List.find (fun s => String.eqb n (dst_name s)) (e_dst e ++ e_child e)%list with
            | Some s => what_dst (dst1 e w s)
            | None => WNone
            end
  end.
(** A line: its mnemonic, then characters and operands, each operand with its format. *)
Inductive shown := HChr (c : Ascii.ascii) | HOp (rel : bool) (f : string) (o : what).
Definition show_tok (e : entry) (w : Z) (t : tok) : shown :=
  match t with TChr c => HChr c | TOp rel n f => HOp rel f (oper e w n) end.
Definition texts (e : entry) : list string := match DecodeTypes.find (e_name e) v1_disasm with Some l => l | None => [] end.
Definition toks (e : entry) : list tok := flat_map (fun s => TChr (Ascii.ascii_of_nat 32) :: read1 RTxt s) (tl (texts e)).
Definition line1 (e : entry) (w : Z) : string * list shown := (hd "" (texts e), map (show_tok e w) (toks e)).
(** Its text, for a given way to print operands. *)
Definition text1 (pr : bool -> string -> what -> string) (l : string * list shown) : string :=
  fold_left String.append (map (fun h => match h with HChr c => String c "" | HOp r f o => pr r f o end) (snd l)) (fst l).

(** ** Stores: sb, sh and sw, the instances of CoralNPUIStore (coralnpu_base.isa:179-189). *)
Definition store_ty (f : fn2) : option ity :=
  match f with
  | Fn "coralnpu::CoralNPUIStore<uint8_t>" [] => Some U8
  | Fn "coralnpu::CoralNPUIStore<uint16_t>" [] => Some U16
  | Fn "coralnpu::CoralNPUIStore<uint32_t>" [] => Some U32
  | _ => None
  end.
Definition value1 (x : Z -> Z) (o : opnd) : Z := match o with PX r => x r | PImm v => v | _ => 0 end.
Definition store_act (small : bool) (x : Z -> Z) (a : act) (m : Z -> Z) : option (Z -> Z) :=
  match a_sem a, a_src a with
  | [f], [b; o; v] => option_map (fun T => exec_store T small (value1 x b) (value1 x o) (value1 x v) m) (store_ty f)
  | _, _ => None
  end.
(** Memory after a word that is a store; None for any other word. *)
Definition exec1 (d : decoder) (small : bool) (x : Z -> Z) (w : Z) (m : Z -> Z) : option (Z -> Z) :=
  match decode1 d w with Some a => store_act small x a m | None => None end.
