(** * Decoding an instruction word and executing it

    Models CoralNPUEncoding of /repo/sim/coralnpu_encoding.cc (line numbers refer
    to that file) over the tables of DecodeTable.v, and the call of the semantic
    function with the operands it builds.

    Simplifications:
    - the decoder functions of the groups are generated by mpact from the
      .bin_fmt files.  All that is assumed about one of them is [decoder_ok]: it
      returns an opcode of the group whose constraints the word meets, and kNone
      only if there is none.  Which one it returns when several match is left
      open;
    - the three Zbb groups tried last (374-376) come from mpact-riscv and are not
      in the repo: [None] means that none of the six groups before them matches;
    - the semantics of scalar instructions is not part of this file ([None]);
    - register -1 of the scalar file stands for the register "X0Dest" that takes
      writes to x0. *)
From Verif Require Export DecodeTypes DecodeTable MemModel.
Import ListNotations.
Open Scope string_scope.
Open Scope Z_scope.

(** ** Matching *)
Definition con_ok (f : fmt) (w : Z) (c : con) : bool :=
  match c with
  | Ceq n v => match field f n with Some (lo, k) => xbits w lo k =? v | None => false end
  | Cne n v => match field f n with Some (lo, k) => negb (xbits w lo k =? v) | None => false end
  end.
Definition matches (w : Z) (e : entry) : bool := forallb (con_ok (e_fmt e) w) (e_cons e).

Definition table (g : group) : list entry :=
  match g with
  | GInst => tab_GInst | GArith => tab_GArith | GConv => tab_GConv
  | GMemory => tab_GMemory | GMul => tab_GMul | GShift => tab_GShift
  end.
(** The order of decode_functions, 368-373. *)
Definition order : list group := [GInst; GArith; GConv; GMemory; GMul; GShift].
Definition all_entries : list entry := flat_map table order.

(** The generated functions encoding::DecodeCoralNPU...Inst. *)
Definition decoder := group -> Z -> option entry.
Definition decoder_ok (d : decoder) : Prop := forall g w,
  match d g w with
  | Some e => In e (table g) /\ matches w e = true
  | None => forall e, In e (table g) -> matches w e = false
  end.
(** One such decoder: the first row that matches. *)
Definition first_match : decoder := fun g w => List.find (matches w) (table g).

(** ParseInstruction 364-381. *)
Fixpoint parse_in (d : decoder) (l : list group) (w : Z) : option entry :=
  match l with
  | [] => None
  | g :: r => match d g w with Some e => Some e | None => parse_in d r w end
  end.
Definition parse (d : decoder) (w : Z) : option entry := parse_in d order w.

(** ** Operands *)
Inductive operand := OVec (g : vgroup) | OReg (r : Z) | OZero | OOther.
Definition ext (f : fmt) (n : string) (w : Z) : Z :=
  match field f n with Some (lo, k) => xbits w lo k | None => 0 end.
Definition is (e : entry) (n : string) : bool := String.eqb (e_name e) n.
(** GetVRegGroup 40-50. *)
Definition vgrp (r : Z) (strip : bool) (widen : Z) : vgroup := VG r ((if strip then 4 else 1) * widen).
(** func2 & ~1u. *)
Definition ignore_unsigned (f2 : Z) : Z := Z.land f2 (Z.lnot 1).

(** IsWidenDestinationRegisterOp 411-447. *)
Definition widen_dst (e : entry) (w : Z) : bool :=
  let f1 := ext FV2 "func1" w in let f2 := ext FV2 "func2" w in let f2u := ignore_unsigned f2 in
  if (f1 =? 4) && ((f2u =? 4) || (f2u =? 6)) then true
  else if (f1 =? 4) && (f2u =? 10) then true
  else if (f1 =? 1) && (f2 =? 13) then true
  else if (f1 =? 3) && (f2u =? 4) then true
  else if (f1 =? 6) && ((f2 =? 28) || (f2 =? 26)) then true
  else is e "vcget".
(** GetSrc1WidenFactor 449-481. *)
Definition src1_widen (e : entry) (w : Z) : Z :=
  let f1 := ext FV2 "func1" w in let f2 := ext FV2 "func2" w in
  let sz := ext FV2 "sz" w in let f2u := ignore_unsigned f2 in
  if (f1 =? 4) && (f2u =? 10) then 2
  else if (f1 =? 2) && ((sz =? 0) || (sz =? 1)) && ((f2u =? 16) || (f2u =? 18)) then 2
  else if (f1 =? 2) && (sz =? 0) && ((f2u =? 24) || (f2u =? 26)) then 4
  else if is e "aconv_vxv" || is e "acset" || is e "actr" then 8
  else 1.

(** InitializeSourceOperandGetters: kRs1 179-190, kRs2 191-202, kVs1 213-246,
    kVs2 247-271, kVd 272-282, kVs3 283-292. *)
Definition src_op (e : entry) (w : Z) (s : srcop) : operand :=
  let strip := ext FV2 "m" w =? 1 in
  let form := ext FV2 "form" w in
  match s with
  | SRs1 => let n := ext FR "rs1" w in if n =? 0 then OZero else OReg n
  | SRs2 => let n := ext FR "rs2" w in if n =? 0 then OZero else OReg n
  | SVs1 =>
      let n := ext FV2 "vs1" w in
      if form =? 3 then if n =? 0 then OZero else OReg (Z.shiftr n 1)
      else if is e "adwconv_vxv" || is e "vdwconv_vxv" then OVec (vgrp n false 9)
      else OVec (vgrp n (if is e "adwinit" then true else strip) (src1_widen e w))
  | SVs2 =>
      let n := ext FV2 "vs2" w in
      if (form =? 2) || (form =? 3) || is e "aconv_vxv"
      then if n =? 0 then OZero else OReg (Z.land n 31)
      else OVec (vgrp n strip 1)
  | SVd => OVec (vgrp (ext FV2 "vd" w) strip 1)
  | SVs3 => OVec (vgrp (ext FV3 "vs3" w) false (if is e "aconv_vxv" then 8 else 4))
  | SImm _ => OOther
  end.
(** InitializeDestinationOperandGetters: kRd 309-321, kVd 322-339, kVs1 340-358. *)
Definition dst_op (e : entry) (w : Z) (d : dstop) : operand :=
  match d with
  | DRd => let n := ext FR "rd" w in if n =? 0 then OZero else OReg n
  | DVd =>
      let strip := if is e "vcget" || is e "adwinit" || is e "vdwconv_vxv" then true
                   else ext FV2 "m" w =? 1 in
      OVec (vgrp (ext FV2 "vd" w) strip (if widen_dst e w then 2 else 1))
  | DVs1 => let n := ext FV2 "vs1" w in if n =? 0 then OZero else OReg (Z.shiftr n 1)
  | DCsr | DNextPc => OOther
  end.

(** ** Execution *)
Record wstate := WS {
  w_mem : Z -> Z; w_v : vregs; w_x : Z -> Z;
  w_acc : Z -> Z -> Z; w_dw : option (Z -> Z); w_traps : list (Z * Z) }.

(** GetInstructionSource<uint32_t>(inst, k, 0). *)
Definition rd_scalar (o : operand) (s : wstate) : outcome Z :=
  match o with
  | OReg r => Ok (w_x s r)
  | OZero => Ok 0
  | OVec g => get_src U32 (SVec (g_base g) (g_n g)) (w_v s) 0
  | OOther => UB OutOfBounds
  end.
(** An operand as the source of an element loop. *)
Definition to_src (o : operand) (s : wstate) : src :=
  match o with
  | OReg r => SScal (w_x s r)
  | OZero => SScal 0
  | OVec g => SVec (g_base g) (g_n g)
  | OOther => SVec 0 0
  end.
(** An operand cast to RV32VectorSourceOperand / RV32VectorDestinationOperand;
    the cast of anything else is undefined: no register of it may be used. *)
Definition to_group (o : operand) : vgroup := match o with OVec g => g | _ => VG 0 0 end.
(** The register number of a scalar destination, -1 for X0Dest. *)
Definition to_xdst (o : operand) : Z := match o with OReg r => r | _ => -1 end.

Definition ity_eqb (a b : ity) : bool :=
  match a, b with
  | I8, I8 | I16, I16 | I32, I32 | I64, I64 | U8, U8 | U16, U16 | U32, U32 | U64, U64 => true
  | _, _ => false
  end.

Section Exec.
  (** [small]: max_physical_address() <= kCoralnpuMaxMemoryAddress; [pc]: the
      address of the instruction; [junk]: contents of fresh data buffers. *)
  Variables (small : bool) (pc : Z) (junk : Z -> vbytes).

  Definition mop_of (e : entry) (w : Z) (s : wstate) (len stride strip quad : bool)
             (bpos : nat) (v : operand) : outcome mop :=
    let srcs := map (src_op e w) (e_src e) in
    base <- rd_scalar (nth bpos srcs OOther) s ;;
    xs2 <- match nth_error srcs (S bpos) with
           | Some o => x <- rd_scalar o s ;; Ok (Some x)
           | None => Ok None end ;;
    Ok (MO len stride strip quad base xs2 (to_group v)
           (match map (dst_op e w) (e_dst e) with d :: _ => Some (to_xdst d) | [] => None end) small).
  Definition with_m (s : wstate) (r : outcome mstate) : outcome wstate :=
    m <- r ;; Ok (WS (m_mem m) (m_v m) (m_x m) (w_acc s) (w_dw s) (w_traps s)).
  Definition with_v (s : wstate) (r : outcome vregs) : outcome wstate :=
    v <- r ;; Ok (WS (w_mem s) v (w_x s) (w_acc s) (w_dw s) (w_traps s)).
  Definition with_c (s : wstate) (r : outcome cstate) : outcome wstate :=
    c <- r ;; Ok (WS (w_mem s) (c_v c) (w_x s) (c_acc c) (c_dw c) (c_traps c)).
  Definition to_m (s : wstate) : mstate := MS (w_mem s) (w_v s) (w_x s).
  Definition to_c (s : wstate) : cstate := CS (w_v s) (w_acc s) (w_dw s) (w_traps s).

  (** The semantic function of row [e] on the operands built for word [w]. The
      operand positions are those of the .isa rows. *)
  Definition exec_row (e : entry) (w : Z) (s : wstate) : option (outcome wstate) :=
    let srcs := map (src_op e w) (e_src e) in
    let dsts := map (dst_op e w) (e_dst e) in
    let s_ k := nth k srcs OOther in
    let d_ k := nth k dsts OOther in
    match e_sem e with
    | SmVec i sc st =>
        let g := to_group (d_ 0%nat) in
        Some (with_v s (exec i sc st
          {| o_s0 := to_src (s_ 0%nat) s; o_s1 := to_src (s_ 1%nat) s; o_vd := g_base g; o_nd := g_n g |}
          junk (w_v s)))
    | SmLd T len stride st Tw stw =>
        if ity_eqb T Tw && Bool.eqb st stw then
          Some (o <- mop_of e w s len stride st false 0 (nth 0 (map (dst_op e w) (e_child e)) OOther) ;;
                with_m s (exec_vld T o junk (to_m s)))
        else None
    | SmSt T len stride st =>
        Some (o <- mop_of e w s len stride st false 1 (s_ 0%nat) ;; with_m s (exec_vst T o (to_m s)))
    | SmStq T st =>
        Some (o <- mop_of e w s false true st true 1 (s_ 0%nat) ;; with_m s (exec_vst T o (to_m s)))
    | SmDup T st =>
        Some (x <- rd_scalar (s_ 0%nat) s ;;
              with_v s (exec_vdup T st (to_group (d_ 0%nat)) x junk (w_v s)))
    | SmGetVl T st r1 r2 =>
        Some (a <- (if r1 then x <- rd_scalar (s_ 0%nat) s ;; Ok (Some x) else Ok None) ;;
              b <- (if r2 then x <- rd_scalar (s_ 1%nat) s ;; Ok (Some x) else Ok None) ;;
              Ok (WS (w_mem s) (w_v s) (upd (w_x s) (to_xdst (d_ 0%nat)) (exec_getvl T st a b))
                     (w_acc s) (w_dw s) (w_traps s)))
    | SmConv =>
        Some (c <- rd_scalar (s_ 1%nat) s ;;
              with_c s (exec_vconv (to_group (s_ 0%nat)) (to_group (s_ 2%nat)) c pc (to_c s)))
    | SmDwconv acc =>
        Some (c <- rd_scalar (s_ 1%nat) s ;;
              with_c s (exec_vdwconv acc (to_group (s_ 0%nat)) (to_group (s_ 2%nat)) (to_group (d_ 0%nat))
                          c pc junk (to_c s)))
    | SmAcSet tr => Some (with_c s (exec_acset tr (to_group (s_ 0%nat)) (to_c s)))
    | SmVcGet => Some (with_c s (exec_vcget (to_group (d_ 0%nat)) junk (to_c s)))
    | SmADwInit => Some (with_c s (exec_adwinit (to_group (s_ 0%nat)) (to_group (d_ 0%nat)) junk (to_c s)))
    | SmScalar _ => None
    end.

  (** Decode and execute one word. *)
  Definition exec_word (d : decoder) (w : Z) (s : wstate) : option (outcome wstate) :=
    match parse d w with Some e => exec_row e w s | None => None end.
End Exec.
