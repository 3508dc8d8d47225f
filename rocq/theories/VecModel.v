(** * Vector register file and the element loops

    Models CoralNPUBinaryVectorOp / CoralNPUUnaryVectorOp and the argument
    getters of /repo/sim/coralnpu_vector_instructions.cc (line numbers refer to
    that file unless said otherwise).

    Simplifications:
    - the vector length is the fixed 256 bits of coralnpu_state.h:48 (nothing in
      the simulator calls set_vector_length);
    - a fresh DataBuffer has arbitrary contents ([junk]); reading an element of
      it (BinaryOpInvoke 41-43 passes it as the unused [vd] argument) yields an
      arbitrary value;
    - Submit with latency 0 replaces the register's buffer at once (mpact
      DataBuffer contract);
    - a vector source operand maps element i to register i / elts of its group
      (mpact RV32VectorSourceOperand contract); an element outside the group is
      undefined behaviour, and so is a non-zero index of a scalar operand. *)
From Verif Require Export CInt Lane.

(** coralnpu_state.h:48: 256 bits. *)
Definition VB : Z := 32.

(** Register contents: byte index -> byte. Register file: register number ->
    contents.  Numbers past 63 are allowed: GetVRegGroup
    (coralnpu_encoding.cc 40-50) builds names v64.. and GetRegister creates them. *)
Definition vbytes := Z -> Z.
Definition vregs := Z -> vbytes.

(** Little-endian value of [n] bytes at offset [off] (memory layout of
    absl::Span<T> over the buffer on the little-endian host). *)
Fixpoint le (b : vbytes) (off : Z) (n : nat) : Z :=
  match n with O => 0 | S m => b off + 256 * le b (off + 1) m end.
(** span[i] of a DataBuffer viewed as T. *)
Definition lane_get (T : ity) (b : vbytes) (i : Z) : Z :=
  wrap T (le b (i * sizeof T) (Z.to_nat (sizeof T))).
(** span[i] = v. *)
Definition lane_put (T : ity) (b : vbytes) (i v : Z) : vbytes := fun j =>
  if (i * sizeof T <=? j) && (j <? (i + 1) * sizeof T)
  then (v / 256 ^ (j - i * sizeof T)) mod 256 else b j.

(** Elements of type T per register: vector_size_in_bytes / sizeof(T). *)
Definition elts (T : ity) : Z := VB / sizeof T.

(** A source operand: a group of vector registers or a scalar register value. *)
Inductive src :=
| SVec (base nregs : Z)
| SScal (v : Z).

(** GetInstructionSource<T>(inst, op, idx). *)
Definition get_src (T : ity) (s : src) (rf : vregs) (idx : Z) : outcome Z :=
  match s with
  | SVec base n =>
      if (0 <=? idx) && (idx / elts T <? n)
      then Ok (lane_get T (rf (base + idx / elts T)) (idx mod elts T))
      else UB OutOfBounds
  | SScal v => if idx =? 0 then Ok (wrap T v) else UB OutOfBounds
  end.

(** Counted loop [for (i = 0; i < n; ++i)]. *)
Fixpoint for_n {S : Type} (n : nat) (f : Z -> S -> outcome S) (s : S) : outcome S :=
  match n with
  | O => Ok s
  | Datatypes.S m => s' <- for_n m f s ;; f (Z.of_nat m) s'
  end.

(** An argument getter: (scalar, num_ops, op_index, dst_element_index,
    dst_reg_index) to (source operand number, element index). *)
Definition getter := bool -> Z -> Z -> Z -> Z -> Z * Z.

(** One vector operation: template arguments of CoralNPUBinaryVectorOp 86-95. *)
Record vsem := {
  v_td : ity;                 (* Vd *)
  v_ts1 : ity;                (* Vs1 *)
  v_ts2 : ity;                (* Vs2 *)
  v_half : bool;              (* halftype *)
  v_wdst : bool;              (* widen_dst *)
  v_rdest : bool;             (* sizeof...(VDArgs) == 1 *)
  v_op : Z -> Z -> Z -> outcome Z;   (* vd, vs1, vs2 *)
  v_get1 : getter;
  v_get2 : getter
}.

Record voperands := {
  o_s0 : src;                 (* inst->Source(0) *)
  o_s1 : src;                 (* inst->Source(1) *)
  o_vd : Z;                   (* first register of inst->Destination(0) *)
  o_nd : Z                    (* number of registers of the destination group *)
}.

Definition src_no (o : voperands) (k : Z) : src := if k =? 0 then o_s0 o else o_s1 o.

(** dest_regs_per_op 103-106. *)
Definition dest_per_op (s : vsem) : Z :=
  if ((sizeof (v_ts2 s) <? sizeof (v_td s)) && negb (v_half s)) || v_wdst s then 2 else 1.
Definition num_ops (strip : bool) : Z := if strip then 4 else 1.

Definition upd {A} (f : Z -> A) (k : Z) (v : A) : Z -> A := fun j => if j =? k then v else f j.

(** Body of the innermost loop 124-132. [bufs] are dest_db[]. *)
Definition elem_step (s : vsem) (o : voperands) (scalar : bool) (nops op : Z) (rf : vregs)
           (e d : Z) (bufs : Z -> vbytes) : outcome (Z -> vbytes) :=
  let g1 := v_get1 s scalar nops op e d in
  let g2 := v_get2 s scalar nops op e d in
  a <- get_src (v_ts1 s) (src_no o (fst g1)) rf (snd g1) ;;
  b <- get_src (v_ts2 s) (src_no o (fst g2)) rf (snd g2) ;;
  v <- v_op s (lane_get (v_td s) (bufs d) e) a b ;;
  Ok (upd bufs d (lane_put (v_td s) (bufs d) e v)).

(** One iteration of the op_index loop 110-136. *)
Definition exec_op (s : vsem) (o : voperands) (scalar : bool) (nops : Z) (junk : Z -> vbytes)
           (op : Z) (rf : vregs) : outcome vregs :=
  let dpo := dest_per_op s in
  if op + (dpo - 1) * nops <? o_nd o then
    let bufs0 := fun i => if v_rdest s then rf (o_vd o + (op + i * nops))
                          else junk (op + i * nops) in
    bufs <- for_n (Z.to_nat (elts (v_td s))) (fun e =>
              for_n (Z.to_nat dpo) (fun d => elem_step s o scalar nops op rf e d)) bufs0 ;;
    let rf1 := upd rf (o_vd o + op) (bufs 0) in
    Ok (if dpo =? 2 then upd rf1 (o_vd o + (op + nops)) (bufs 1) else rf1)
  else UB OutOfBounds.

(** CoralNPUBinaryVectorOp 86-137. *)
Definition exec_binary (s : vsem) (o : voperands) (scalar strip : bool) (junk : Z -> vbytes)
           (rf : vregs) : outcome vregs :=
  for_n (Z.to_nat (num_ops strip)) (exec_op s o scalar (num_ops strip) junk) rf.

(** CommonBinaryOpGetArg1 49-66. *)
Definition common_get1 (Td Ts1 Ts2 : ity) : getter := fun scalar nops op e d =>
  let idx := op * elts Ts1 + e * sizeof Td / sizeof Ts1 in
  (0, if (sizeof Td =? sizeof Ts1) && (sizeof Ts1 =? 2 * sizeof Ts2)
      then idx + nops * elts Ts1 * d else idx + d).
(** CommonBinaryOpGetArg2 68-79. *)
Definition common_get2 (Td Ts1 Ts2 : ity) : getter := fun scalar nops op e d =>
  (1, if scalar then 0 else op * elts Ts2 + e * sizeof Td / sizeof Ts2 + d).
(** PackedBinaryOpGetArg1 491-500, PackedBinaryOpGetArg2 502-512. *)
Definition packed_get1 (Td Ts1 Ts2 : ity) : getter := fun scalar nops op e d =>
  (0, op * elts Ts1 + e * sizeof Td / sizeof Ts1).
Definition packed_get2 (Td Ts1 Ts2 : ity) : getter := fun scalar nops op e d =>
  (0, op * elts Ts2 + e * sizeof Td / sizeof Ts2 + 1).
(** VMvpOpGetArg1 664-672. *)
Definition mvp_get (T : ity) : getter := fun scalar nops op e d =>
  if d =? 0 then common_get1 T T T scalar nops op e 0
  else common_get2 T T T scalar nops op e 0.
(** {0, 2, 1, 3}[k]. *)
Definition interleave4 (k : Z) : Z := if k =? 1 then 2 else if k =? 2 then 1 else k.
(** VSransOpGetArg1 857-878. *)
Definition srans_get1 (Td Ts : ity) : getter := fun scalar nops op e d =>
  let idx := op * elts Ts + e * sizeof Td / sizeof Ts in
  (0, if sizeof Ts / sizeof Td =? 2
      then idx + (if negb (Z.land e 1 =? 0) then nops * elts Ts else 0)
      else idx + interleave4 (Z.land e 3) * nops * elts Ts).
(** VSlidenOpGetArg1 1063-1107: interleave tables (register_num, source_arg). *)
Definition sliden_start (h : bool) (op : Z) : Z * Z := (op, 0).
Definition sliden_end (h : bool) (op : Z) : Z * Z :=
  if h then (if op =? 3 then (0, 1) else (op + 1, 0)) else (op, 1).
Definition sliden_get (T : ity) (h : bool) (index : Z) : getter := fun scalar nops op e d =>
  if e + index <? elts T then
    let '(r, s) := sliden_start h op in (s, r * elts T + e + index)
  else
    let '(r, s) := sliden_end h op in (s, r * elts T + e + index - elts T).
(** VSlidepOpGetArg1 1137-1181. *)
Definition slidep_start (h : bool) (op : Z) : Z * Z :=
  if h then (if op =? 0 then (3, 0) else (op - 1, 1)) else (op, 0).
Definition slidep_end (h : bool) (op : Z) : Z * Z := (op, 1).
Definition slidep_get (T : ity) (h : bool) (index : Z) : getter := fun scalar nops op e d =>
  if e <? index then
    let '(r, s) := slidep_start h op in (s, r * elts T + e - index + elts T)
  else
    let '(r, s) := slidep_end h op in (s, r * elts T + e - index).
(** VEvnOpGetArg1 1224-1241, VOddOpGetArg1 1256-1273. *)
Definition evnodd_get_at (T : ity) (odd : Z) : getter := fun scalar nops op e d =>
  let idx := op * elts T * 2 + e * 2 + odd in
  let per_src := elts T * nops in
  if idx <? per_src then (0, idx) else (1, if scalar then 0 else idx - per_src).
Definition evn_get (T : ity) : getter := evnodd_get_at T 0.
Definition odd_get (T : ity) : getter := evnodd_get_at T 1.
(** VEvnoddOpGetArg1 1288-1297. *)
Definition evnodd_get (T : ity) : getter := fun scalar nops op e d =>
  if d =? 0 then evn_get T scalar nops op e d else odd_get T scalar nops op e d.
(** VZipOpGetArg1 1311-1332. *)
Definition zip_get (T : ity) : getter := fun scalar nops op e d =>
  let h := elts T / 2 in
  let idx := op * h + e / 2 + d * h * nops in
  if negb (Z.land e 1 =? 0) then (1, if scalar then 0 else idx) else (0, idx).

(** CoralNPUUnaryVectorOp 139-165; the getter is the default one. *)
Record usem := { u_td : ity; u_ts : ity; u_op : Z -> outcome Z }.
Definition uelem_step (s : usem) (o : voperands) (nops op : Z) (rf : vregs) (e : Z)
           (buf : vbytes) : outcome vbytes :=
  let g := common_get1 (u_td s) (u_ts s) (u_ts s) false nops op e 0 in
  a <- get_src (u_ts s) (src_no o (fst g)) rf (snd g) ;;
  v <- u_op s a ;;
  Ok (lane_put (u_td s) buf e v).
Definition uexec_op (s : usem) (o : voperands) (nops : Z) (junk : Z -> vbytes)
           (op : Z) (rf : vregs) : outcome vregs :=
  if op <? o_nd o then
    buf <- for_n (Z.to_nat (elts (u_td s))) (fun e => uelem_step s o nops op rf e) (junk op) ;;
    Ok (upd rf (o_vd o + op) buf)
  else UB OutOfBounds.
Definition exec_unary (s : usem) (o : voperands) (strip : bool) (junk : Z -> vbytes)
           (rf : vregs) : outcome vregs :=
  for_n (Z.to_nat (num_ops strip)) (uexec_op s o (num_ops strip) junk) rf.

(** ** The semantic functions

    Element-wise operations with all operands of type T (VAbsd returns the
    unsigned type). *)
Inductive elop :=
| OAdd | OSub | ORsub | OEq | ONe | OLt | OLe | OGt | OGe | OAbsd | OMax | OMin | OAdd3
| OAdds | OAddsu | OSubs | OSubsu | OHadd (round : bool) | OHsub (round : bool)
| OAnd | OOr | OXor | ORev | ORor | OSll | OSra | OSrl | OShift (round : bool)
| OMul | OMuls | OMulh (round : bool) | ODmulh (round round_neg : bool)
| OMacc | OMadd | OSel.
Inductive wop := WAdd | WSub | WMul.
Inductive unop := UNot | UClb | UClz | UCpop | UMv.
Inductive perm :=
| PSliden (horizontal : bool) (index : Z) | PSlidep (horizontal : bool) (index : Z)
| PEvn | POdd | PEvnodd | PZip | PMvp.
Inductive vinst :=
| VEl (o : elop) (T : ity)
| VWiden (o : wop) (Td Ts : ity)
| VAcc (Td Ts : ity)
| VPair (sub : bool) (Td Ts : ity)
| VUn (o : unop) (T : ity)
| VNarrow (round : bool) (Td Ts : ity)
| VPerm (p : perm) (T : ity).

(** The lambda of each element-wise semantic function (see Lane.v). *)
Definition el_op (o : elop) (T : ity) (d a b : Z) : outcome Z :=
  match o with
  | OAdd => l_vadd T a b | OSub => l_vsub T a b | ORsub => l_vrsub T a b
  | OEq => l_veq T a b | ONe => l_vne T a b | OLt => l_vlt T a b | OLe => l_vle T a b
  | OGt => l_vgt T a b | OGe => l_vge T a b | OAbsd => l_vabsd T a b
  | OMax => l_vmax T a b | OMin => l_vmin T a b | OAdd3 => l_vadd3 T d a b
  | OAdds => l_vadds T a b | OAddsu => l_vaddsu T a b
  | OSubs => l_vsubs T a b | OSubsu => l_vsubsu T a b
  | OHadd r => l_vhadd T r a b | OHsub r => l_vhsub T r a b
  | OAnd => l_vand T a b | OOr => l_vor T a b | OXor => l_vxor T a b
  | ORev => l_vrev T a b | ORor => l_vror T a b
  | OSll => l_vsll T a b | OSra => l_vsra T a b | OSrl => l_vsrl T a b
  | OShift r => l_vshift T r a b
  | OMul => l_vmul T a b | OMuls => l_vmuls T a b | OMulh r => l_vmulh T r a b
  | ODmulh r rn => l_vdmulh T r rn a b
  | OMacc => l_vmacc T d a b | OMadd => l_vmadd T d a b | OSel => l_vsel T d a b
  end.
(** Operations whose lambda takes vd. *)
Definition el_rdest (o : elop) : bool :=
  match o with OAdd3 | OMacc | OMadd | OSel => true | _ => false end.
(** Destination element type: VAbsd 296-312 uses make_unsigned. *)
Definition el_td (o : elop) (T : ity) : ity :=
  match o with OAbsd => make_unsigned T | _ => T end.
(** The template instantiations present in the file. *)
Definition el_legal (o : elop) (T : ity) : bool :=
  let s := match T with I8 | I16 | I32 => true | _ => false end in
  let u := match T with U8 | U16 | U32 => true | _ => false end in
  match o with
  | OAdd | OSub | ORsub | OEq | ONe | OAdd3 | OAdds | OSubs | OSra | OMul | ODmulh _ _
  | OMacc | OMadd | OSel => s
  | OAddsu | OSubsu | OAnd | OOr | OXor | ORev | ORor | OSll | OSrl => u
  | OLt | OLe | OGt | OGe | OAbsd | OMax | OMin | OHadd _ | OHsub _ | OShift _
  | OMuls | OMulh _ => s || u
  end.
Definition w_op (o : wop) (Td Ts : ity) (a b : Z) : outcome Z :=
  match o with WAdd => l_vaddw Td Ts a b | WSub => l_vsubw Td Ts a b
             | WMul => l_vmulw Td Ts a b end.
Definition un_op (o : unop) (T : ity) (a : Z) : outcome Z :=
  match o with UNot => l_vnot T a | UClb => l_vclb T a | UClz => l_vclz T a
             | UCpop => l_vcpop T a | UMv => l_vmv T a end.

Definition sem_el (o : elop) (T : ity) : vsem :=
  {| v_td := el_td o T; v_ts1 := T; v_ts2 := T; v_half := false; v_wdst := false;
     v_rdest := el_rdest o; v_op := el_op o T;
     v_get1 := common_get1 (el_td o T) T T; v_get2 := common_get2 (el_td o T) T T |}.
(** VAddw 452, VSubw 465, VMulw 956. *)
Definition sem_widen (o : wop) (Td Ts : ity) : vsem :=
  {| v_td := Td; v_ts1 := Ts; v_ts2 := Ts; v_half := false; v_wdst := false;
     v_rdest := false; v_op := fun _ a b => w_op o Td Ts a b;
     v_get1 := common_get1 Td Ts Ts; v_get2 := common_get2 Td Ts Ts |}.
(** VAcc 476. *)
Definition sem_acc (Td Ts : ity) : vsem :=
  {| v_td := Td; v_ts1 := Td; v_ts2 := Ts; v_half := false; v_wdst := false;
     v_rdest := false; v_op := fun _ a b => l_vacc Td Ts a b;
     v_get1 := common_get1 Td Td Ts; v_get2 := common_get2 Td Td Ts |}.
(** VPadd 515, VPsub 533. *)
Definition sem_pair (sub : bool) (Td Ts : ity) : vsem :=
  {| v_td := Td; v_ts1 := Ts; v_ts2 := Ts; v_half := true; v_wdst := false;
     v_rdest := false;
     v_op := fun _ a b => if sub then l_vpsub Td Ts a b else l_vpadd Td Ts a b;
     v_get1 := packed_get1 Td Ts Ts; v_get2 := packed_get2 Td Ts Ts |}.
(** VSrans 900-909. *)
Definition sem_narrow (r : bool) (Td Ts : ity) : vsem :=
  {| v_td := Td; v_ts1 := Ts; v_ts2 := Td; v_half := false; v_wdst := false;
     v_rdest := false; v_op := fun _ a b => l_vsrans Td Ts r a b;
     v_get1 := srans_get1 Td Ts; v_get2 := common_get2 Td Ts Td |}.
(** VSlidevn 1110, VSlidehn 1123, VSlidevp 1184, VSlidehp 1197, VEvn 1244,
    VOdd 1276, VEvnodd 1300, VZip 1335, VMvp 675. *)
Definition sem_perm (p : perm) (T : ity) : vsem :=
  let g1 := match p with
            | PSliden h k => sliden_get T h k | PSlidep h k => slidep_get T h k
            | PEvn => evn_get T | POdd => odd_get T | PEvnodd => evnodd_get T
            | PZip => zip_get T | PMvp => mvp_get T end in
  let slide := match p with PSliden _ _ | PSlidep _ _ => true | _ => false end in
  {| v_td := T; v_ts1 := T; v_ts2 := T; v_half := false;
     v_wdst := match p with PEvnodd | PZip | PMvp => true | _ => false end;
     v_rdest := false; v_op := fun _ a b => l_arg1 T a b;
     v_get1 := g1;
     v_get2 := if slide then common_get2 T T T else g1 |}.

(** Execute a vector instruction. Slides pass scalar = false, horizontal slides
    strip_mine = true; pairwise and unary operations take no scalar flag. *)
Definition exec (i : vinst) (scalar strip : bool) (o : voperands) (junk : Z -> vbytes)
           (rf : vregs) : outcome vregs :=
  match i with
  | VEl op T => exec_binary (sem_el op T) o scalar strip junk rf
  | VWiden op Td Ts => exec_binary (sem_widen op Td Ts) o scalar strip junk rf
  | VAcc Td Ts => exec_binary (sem_acc Td Ts) o scalar strip junk rf
  | VPair sub Td Ts => exec_binary (sem_pair sub Td Ts) o false strip junk rf
  | VUn op T => exec_unary {| u_td := T; u_ts := T; u_op := un_op op T |} o strip junk rf
  | VNarrow r Td Ts => exec_binary (sem_narrow r Td Ts) o scalar strip junk rf
  | VPerm p T =>
      match p with
      | PSliden h _ | PSlidep h _ => exec_binary (sem_perm p T) o false (h || strip) junk rf
      | _ => exec_binary (sem_perm p T) o scalar strip junk rf
      end
  end.
