(** * Convolution and accumulator instructions

    Models /repo/sim/coralnpu_vector_convolution_instructions.cc (cited as
    conv.cc), its header (conv.h) and the accumulator instructions of
    /repo/sim/coralnpu_vector_memory_instructions.cc (mem.cc).

    Simplifications:
    - the vector length is 256 bits (coralnpu_state.h:48), as in VecModel.v;
    - the bit-fields of conv.h 32-52 are allocated from the least significant bit
      (the Itanium/x86 ABI; implementation-defined in C++).  The bit numbers in
      the comments of CoralNPUVConvCmd (conv.h 33-39) are the mirror image of
      that layout and are not what memcpy of the register yields;
    - RiscVState::Trap is outside the repo; a call is recorded as the pair
      (exception code, epc), code 2 being kIllegalInstruction;
    - GetRegister(i) with i outside the operand's group is undefined behaviour;
    - right shift of a negative int is arithmetic (clang/gcc). *)
From Verif Require Export CInt VecModel.
From Coq Require Import List.
Import ListNotations.

(** A group of vector registers: first register, number of registers. *)
Record vgroup := VG { g_base : Z; g_n : Z }.
(** operand->GetRegister(i). *)
Definition get_reg (g : vgroup) (rf : vregs) (i : Z) : outcome vbytes :=
  if (0 <=? i) && (i <? g_n g) then Ok (rf (g_base g + i)) else UB OutOfBounds.

(** The state the instructions touch: vector registers, acc_register_
    (coralnpu_state.h:109, 8x8 words, zeroed in the constructor),
    depthwise_acc_register_ (coralnpu_state.h:112, 32 words, [None] until the
    first adwinit because no constructor initialises it), and the traps raised. *)
Record cstate := CS {
  c_v : vregs;
  c_acc : Z -> Z -> Z;
  c_dw : option (Z -> Z);
  c_traps : list (Z * Z)
}.

(** Bit-field of width [w] at bit [p]. *)
Definition bfield (x p w : Z) : Z := (x / 2 ^ p) mod 2 ^ w.
(** conv.h 32-40. *)
Record vconv_cmd := VCmd { vc_mode : Z; vc_start : Z; vc_stop : Z;
  vc_sbias1 : Z; vc_sdata1 : bool; vc_sbias2 : Z; vc_sdata2 : bool }.
Definition vconv_cmd_of (w : Z) : vconv_cmd :=
  VCmd (bfield w 0 2) (bfield w 2 5) (bfield w 7 5) (bfield w 12 9)
       (bfield w 21 1 =? 1) (bfield w 22 9) (bfield w 31 1 =? 1).
(** conv.h 43-52; the int32_t fields sbias1 and sbias2 are signed. *)
Record vdw_cmd := DCmd { dc_mode : Z; dc_sparsity : Z; dc_regbase : Z;
  dc_sbias1 : Z; dc_sdata1 : bool; dc_sbias2 : Z; dc_sdata2 : bool }.
Definition sfield (x p w : Z) : Z :=
  let u := bfield x p w in if u <? 2 ^ (w - 1) then u else u - 2 ^ w.
Definition vdw_cmd_of (w : Z) : vdw_cmd :=
  DCmd (bfield w 0 2) (bfield w 2 2) (bfield w 4 4) (sfield w 12 9)
       (bfield w 21 1 =? 1) (sfield w 22 9) (bfield w 31 1 =? 1).

(** int32_t arithmetic. *)
Definition i32 (x : Z) : outcome Z := if in_range I32 x then Ok x else UB SignedOverflow.
(** [(static_cast<int32_t>(b) << 23) >> 23], conv.cc 92-93. *)
Definition sext9 (b : Z) : outcome Z :=
  a <- c_shl (CV I32 (wrap I32 b)) (lit 23) ;; r <- c_shr a (lit 23) ;; Ok (cval r).
(** [flag ? static_cast<int8_t>(b) : b], conv.cc 114,116,224-227. *)
Definition sbyte (flag : bool) (b : Z) : Z := if flag then wrap I8 b else b.
(** kInterleave, conv.cc 105 and 231. *)
Definition interleave (i : Z) : Z := if i =? 1 then 2 else if i =? 2 then 1 else i.

Definition upd2 (f : Z -> Z -> Z) (i j v : Z) : Z -> Z -> Z :=
  fun a b => if (a =? i) && (b =? j) then v else f a b.

(** The innermost body, conv.cc 112-124. *)
Definition conv_body (c : vconv_cmd) (b1 b2 : Z) (narrow : Z -> vbytes) (wide : vbytes) (k i j : Z)
           (acc : Z -> Z -> Z) : outcome (Z -> Z -> Z) :=
  let n := narrow i (4 * k + Z.land j 3) in
  let sdata1 := sbyte (vc_sdata1 c) n in
  let w := wide j in
  let sdata2 := sbyte (vc_sdata2 c) w in
  let rbase := Z.land i (Z.lnot 3) in
  let rquad := Z.land i 3 in
  let word := j / 4 in
  let idx_i := rbase + interleave (Z.land word 3) in
  let idx_j := rquad * (8 / 4) + word / 4 in
  x <- i32 (sdata1 + b1) ;;
  y <- i32 (sdata2 + b2) ;;
  p <- i32 (x * y) ;;
  Ok (upd2 acc idx_i idx_j (wrap U32 (acc idx_i idx_j + wrap U32 p))).

Definition illegal (pc : Z) (s : cstate) : cstate :=
  CS (c_v s) (c_acc s) (c_dw s) (c_traps s ++ [(2, pc)]).

(** CoralNPUVConv, conv.cc 47-130. [vs1] is Source(0), [cmdw] Source(1), [vs3]
    Source(2), [pc] inst->address(). *)
Definition exec_vconv (vs1 vs3 : vgroup) (cmdw pc : Z) (s : cstate) : outcome cstate :=
  let c := vconv_cmd_of (wrap U32 cmdw) in
  if negb (vc_mode c =? 0) then Ok (illegal pc s)
  else if vc_stop c <? vc_start c then Ok (illegal pc s)
  else if (8 <=? vc_start c) || (8 <=? vc_stop c) then Ok (illegal pc s)
  else
    narrow <- for_n 8 (fun i (nw : Z -> vbytes) =>
                r <- get_reg vs1 (c_v s) i ;; Ok (upd nw i r)) (fun _ _ => 0) ;;
    b1 <- sext9 (vc_sbias1 c) ;;
    b2 <- sext9 (vc_sbias2 c) ;;
    acc <- for_n (Z.to_nat (vc_stop c - vc_start c + 1)) (fun m acc =>
             wide <- get_reg vs3 (c_v s) m ;;
             for_n 8 (fun i => for_n 32 (fun j =>
               conv_body c b1 b2 narrow wide (vc_start c + m) i j)) acc) (c_acc s) ;;
    Ok (CS (c_v s) acc (c_dw s) (c_traps s)).

(** The register selection, conv.cc 144-177. *)
Definition dw_index (regbase : Z) : Z * Z * Z :=
  if regbase <? 7 then (regbase, regbase + 1, regbase + 2)
  else if regbase =? 7 then (1, 0, 2)
  else if regbase <? 12 then (2 * regbase - 15, 2 * regbase - 15 + 1, 0)
  else (2 * regbase - 22, 0, 1).
(** Word [i] of a register. *)
Definition word (b : vbytes) (i : Z) : Z := lane_get U32 b i.
(** memcpy of [n] words from [src + so] to [a + d]. *)
Definition copyw (a : Z -> Z) (d : Z) (src : vbytes) (so n : Z) : Z -> Z :=
  fun i => if (d <=? i) && (i <? d + n) then word src (so + (i - d)) else a i.
(** a_data, conv.cc 186-213; [None] for the default case, which leaves the
    array uninitialised. *)
Definition dw_adata (sparsity : Z) (r0 r1 r2 : vbytes) : option (Z -> Z) :=
  let a := fun _ : Z => 0 in
  if sparsity =? 0 then Some (copyw (copyw (copyw a 0 r0 0 8) 8 r1 0 8) 16 r2 0 8)
  else if sparsity =? 1 then
    let a := upd a 0 (word r0 7) in
    let a := copyw a 1 r1 0 7 in
    let a := copyw a 8 r1 0 8 in
    let a := copyw a 16 r1 1 7 in
    Some (upd a 23 (word r2 0))
  else if sparsity =? 2 then
    let a := copyw a 0 r0 0 8 in
    let a := copyw a 8 r0 1 7 in
    let a := upd a 15 (word r1 0) in
    let a := copyw a 16 r0 2 6 in
    let a := upd a 22 (word r1 0) in
    Some (upd a 23 (word r1 1))
  else None.
(** a_span[i] of conv.cc 220-222: byte [i] of the words from [8 * r]. *)
Definition abyte (a : Z -> Z) (r i : Z) : Z := (a (r * 8 + i / 4) / 256 ^ (i mod 4)) mod 256.

(** Body of the lane loop, conv.cc 226-241. [acc] holds the words; they are
    accessed as int32_t. *)
Definition dw_body (c : vdw_cmd) (a : Z -> Z) (b : vbytes) (r i : Z) (acc : Z -> Z) : outcome (Z -> Z) :=
  let x := sbyte (dc_sdata1 c) (abyte a r i) in
  let y := sbyte (dc_sdata2 c) (b i) in
  x <- i32 (x + dc_sbias1 c) ;;
  y <- i32 (y + dc_sbias2 c) ;;
  let t := 8 * interleave (Z.land i 3) + i / 4 in
  p <- i32 (x * y) ;;
  v <- i32 (wrap I32 (acc t) + p) ;;
  Ok (upd acc t (wrap U32 v)).

(** CoralNPUVDwconv, conv.cc 138-254. *)
Definition exec_vdwconv (write_acc : bool) (vs1 vs3 vd : vgroup) (cmdw pc : Z)
           (junk : Z -> vbytes) (s : cstate) : outcome cstate :=
  let c := vdw_cmd_of (wrap U32 cmdw) in
  let '(i0, i1, i2) := dw_index (dc_regbase c) in
  r0 <- get_reg vs1 (c_v s) i0 ;;
  r1 <- get_reg vs1 (c_v s) i1 ;;
  r2 <- get_reg vs1 (c_v s) i2 ;;
  match dw_adata (dc_sparsity c) r0 r1 r2 with
  | None => UB Uninitialised       (* Trap at 210-212, then a_data is read *)
  | Some a =>
      match c_dw s with
      | None => UB Uninitialised   (* no adwinit yet *)
      | Some acc0 =>
          acc <- for_n 3 (fun r acc =>
                   b <- get_reg vs3 (c_v s) r ;;
                   for_n 32 (fun i => dw_body c a b r i) acc) acc0 ;;
          let s1 := CS (c_v s) (c_acc s) (Some acc) (c_traps s) in
          if negb write_acc then Ok s1
          else
            rf <- for_n 4 (fun i (rf : vregs) =>
                    if i <? g_n vd then
                      b <- for_n 8 (fun j b => Ok (lane_put U32 b j (acc (i * 8 + j)))) (junk i) ;;
                      Ok (upd rf (g_base vd + i) b)
                    else UB OutOfBounds) (c_v s) ;;
            Ok (CS rf (c_acc s) (Some acc) (c_traps s))
      end
  end.

(** CoralNPUVcGet, mem.cc 332-348. *)
Definition exec_vcget (vd : vgroup) (junk : Z -> vbytes) (s : cstate) : outcome cstate :=
  for_n 8 (fun op s =>
    if op <? g_n vd then
      b <- for_n 8 (fun i b => Ok (lane_put U32 b i (c_acc s op i))) (junk op) ;;
      Ok (CS (upd (c_v s) (g_base vd + op) b)
             (fun r c => if r =? op then 0 else c_acc s r c) (c_dw s) (c_traps s))
    else UB OutOfBounds) s.

(** CoralNPUAcSet, mem.cc 350-371. *)
Definition exec_acset (transpose : bool) (vs : vgroup) (s : cstate) : outcome cstate :=
  acc <- for_n 8 (fun op acc =>
           r <- get_reg vs (c_v s) op ;;
           for_n 8 (fun i acc =>
             Ok (if transpose then upd2 acc i op (word r i) else upd2 acc op i (word r i))) acc)
         (c_acc s) ;;
  Ok (CS (c_v s) acc (c_dw s) (c_traps s)).

(** CoralNPUADwInit, mem.cc 376-399: the byte loop over dwacc_span (388-390)
    writes the 8 words of one source register; the destination buffer keeps its
    uninitialised contents past the first init_n = 8 bytes (394-396).  An
    iteration reads its source register after the previous iteration has
    submitted its destination register. *)
Definition exec_adwinit (vs vd : vgroup) (junk : Z -> vbytes) (s : cstate) : outcome cstate :=
  st <- for_n 4 (fun op (st : vregs * (Z -> Z)) =>
         r <- get_reg vs (fst st) op ;;
         if op <? g_n vd then
           let dw := fun t => if (8 * op <=? t) && (t <? 8 * op + 8) then word r (t - 8 * op) else snd st t in
           let b := fun i => if i <? 8 then r i else junk op i in
           Ok (upd (fst st) (g_base vd + op) b, dw)
         else UB OutOfBounds)
       (c_v s, match c_dw s with Some d => d | None => fun _ => 0 end) ;;
  Ok (CS (fst st) (c_acc s) (Some (snd st)) (c_traps s)).
