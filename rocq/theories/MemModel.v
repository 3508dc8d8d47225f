(** * Vector loads and stores, vdup, getvl

    Models /repo/sim/coralnpu_vector_memory_instructions.cc (line numbers refer
    to that file).

    Simplifications:
    - memory is a function from 64-bit addresses to bytes; RiscVState::LoadMemory
      and StoreMemory (mpact-riscv) are assumed to access every unmasked element
      in index order and, for loads, to run the child instruction at once
      (latency 0, line 88).  Their check against max_physical_address, which
      raises an access-fault trap instead, is outside the model: the theorems
      speak about accesses it lets through;
    - the address, mask and value buffers are one array of optional entries; an
      entry that was never written is uninitialised memory ([UB Uninitialised]
      when used), an index beyond the allocated size is [UB OutOfBounds];
    - the vector length is 256 bits (coralnpu_state.h:48);
    - the post-increment destination is a scalar register number; how it is
      chosen from the encoding is modelled in the decoder files. *)
From Verif Require Export CInt VecModel ConvModel.
From Coq Require Import List.
Import ListNotations.

Record mstate := MS { m_mem : Z -> Z; m_v : vregs; m_x : Z -> Z }.

(** Operands of a vector load or store: the has_length / has_stride /
    strip_mine / is_quad arguments bound in the instruction table, the base
    address, the optional further scalar source, the vector register group, the
    optional scalar destination, and whether max_physical_address() is at most
    kCoralnpuMaxMemoryAddress (coralnpu_state.h:52). *)
Record mop := MO {
  mo_len : bool; mo_stride : bool; mo_strip : bool; mo_quad : bool;
  mo_base : Z; mo_xs2 : option Z; mo_v : vgroup; mo_post : option Z; mo_small : bool }.

(** GetInstructionSource<uint32_t>(inst, 1 or 2, 0). *)
Definition xs2_val (o : mop) : outcome Z :=
  match mo_xs2 o with Some x => Ok (wrap U32 x) | None => UB OutOfBounds end.
(** Lines 46-54 and 170-174; kMemMask of coralnpu_state.h:44. *)
Definition mbase (o : mop) : Z :=
  let a := wrap U32 (mo_base o) in if mo_small o then Z.land a 0x7fffffff else a.
(** elts_to_load 56-60, elts_to_store 179-183. *)
Definition mcount (T : ity) (o : mop) : outcome Z :=
  let n := wrap U32 (num_ops (mo_strip o) * elts T) in
  if mo_len o then x <- xs2_val o ;; Ok (Z.min x n) else Ok n.
(** stride_elts 62-66, 185-189. *)
Definition mstride (T : ity) (o : mop) : outcome Z :=
  if mo_stride o then xs2_val o else Ok (elts T).

Definition cells (A : Type) := Z -> option A.
Definition set_cell {A} (n : Z) (a : cells A) (i : Z) (v : A) : outcome (cells A) :=
  if (0 <=? i) && (i <? n) then Ok (upd a i (Some v)) else UB OutOfBounds.

(** The address loop 77-87: state is (addresses, elts_left, base). [base +
    i * sizeof(T)] is a 64-bit sum, [base += ...] is truncated to 32 bits. *)
Definition vld_addrs (T : ity) (nops n stride base : Z) : outcome (cells Z) :=
  r <- for_n (Z.to_nat nops) (fun op (st : cells Z * Z * Z) =>
         let '(a, el, b) := st in
         let count := Z.min el (elts T) in
         a' <- for_n (Z.to_nat count) (fun i a => set_cell n a (op * elts T + i) (b + i * sizeof T)) a ;;
         Ok (a', el - count, wrap U32 (b + stride * sizeof T)))
       (fun _ => None, n, base) ;;
  Ok (fst (fst r)).

(** Memory element of type T. *)
Definition mem_get (T : ity) (m : Z -> Z) (a : Z) : Z := wrap T (le m a (Z.to_nat (sizeof T))).
(** The loaded values: LoadMemory reads every element (89-91). *)
Definition load_all (T : ity) (m : Z -> Z) (n : Z) (a : cells Z) : outcome (Z -> Z) :=
  for_n (Z.to_nat n) (fun i vs => match a i with
                        | Some ad => Ok (upd vs i (mem_get T m ad))
                        | None => UB Uninitialised end) (fun _ => 0).
(** CoralNPUVLdRegWrite 128-156. *)
Definition vld_write (T : ity) (nops n : Z) (vals : Z -> Z) (vd : vgroup) (junk : Z -> vbytes)
           (rf : vregs) : outcome vregs :=
  for_n (Z.to_nat nops) (fun op (rf : vregs) =>
    if op <? g_n vd then
      b <- for_n (Z.to_nat (elts T)) (fun e b =>
             let idx := op * elts T + e in
             Ok (lane_put T b e (if idx <? n then vals idx else 0))) (junk op) ;;
      Ok (upd rf (g_base vd + op) b)
    else UB OutOfBounds) rf.
(** The post-increment 98-121, 227-250: [None] without a destination. *)
Definition post_addr (T : ity) (o : mop) (n stride : Z) : outcome (option Z) :=
  match mo_post o with
  | None => Ok None
  | Some _ =>
      let a := mbase o in
      if 0 <? n then
        if mo_len o && mo_stride o then Ok (Some (wrap U32 (a + VB)))
        else if negb (mo_len o) && negb (mo_stride o) && (match mo_xs2 o with None => true | _ => false end)
        then Ok (Some (wrap U32 (a + VB * num_ops (mo_strip o))))
        else if mo_len o then Ok (Some (wrap U32 (a + n * sizeof T)))
        else if mo_stride o
        then Ok (Some (wrap U32 (a + stride * sizeof T * num_ops (mo_strip o) * (if mo_quad o then 4 else 1))))
        else x <- xs2_val o ;; Ok (Some (wrap U32 (a + x * sizeof T)))
      else Ok (Some a)
  end.
Definition write_post (o : mop) (p : option Z) (x : Z -> Z) : Z -> Z :=
  match mo_post o, p with Some r, Some v => upd x r v | _, _ => x end.

(** CoralNPUVLd 38-122 (mo_quad is ignored: loads have no quad form). *)
Definition exec_vld (T : ity) (o : mop) (junk : Z -> vbytes) (s : mstate) : outcome mstate :=
  let nops := num_ops (mo_strip o) in
  n <- mcount T o ;;
  stride <- mstride T o ;;
  a <- vld_addrs T nops n stride (mbase o) ;;
  vals <- load_all T (m_mem s) n a ;;
  rf <- vld_write T nops n vals (mo_v o) junk (m_v s) ;;
  p <- post_addr T o n stride ;;
  Ok (MS (m_mem s) rf (write_post o p (m_x s))).

(** The store loops 200-222: state is (entries, address_index, base_addr). The
    loop guards [address_index < elts_to_store] stop the inner loops early. *)
Definition st_entry (T : ity) (n : Z) (reg : vbytes) (lane0 j : Z)
           (st : cells (Z * Z) * Z * Z) : outcome (cells (Z * Z) * Z * Z) :=
  let '(a, ai, b) := st in
  if ai <? n
  then a' <- set_cell n a ai (b + j * sizeof T, lane_get T reg (lane0 + j)) ;; Ok (a', ai + 1, b)
  else Ok st.
Definition st_advance (T : ity) (stride : Z) (st : cells (Z * Z) * Z * Z) : cells (Z * Z) * Z * Z :=
  let '(a, ai, b) := st in (a, ai, wrap U32 (b + stride * sizeof T)).
Definition vst_entries (T : ity) (quad : bool) (nops n stride base : Z) (vs : vgroup) (rf : vregs)
  : outcome (cells (Z * Z)) :=
  r <- for_n (Z.to_nat nops) (fun op st =>
         reg <- get_reg vs rf op ;;
         if quad then
           let qs := elts T / 4 in
           for_n 4 (fun i st =>
             st' <- for_n (Z.to_nat qs) (fun j => st_entry T n reg (i * qs) j) st ;;
             Ok (st_advance T stride st')) st
         else
           st' <- for_n (Z.to_nat (elts T)) (fun j => st_entry T n reg 0 j) st ;;
           Ok (st_advance T stride st'))
       (fun _ => None, 0, base) ;;
  Ok (fst (fst r)).
(** Writing one element of type T. *)
Definition mem_put (T : ity) (m : Z -> Z) (a v : Z) : Z -> Z := fun x =>
  if (a <=? x) && (x <? a + sizeof T) then (v / 256 ^ (x - a)) mod 256 else m x.
Definition store_all (T : ity) (n : Z) (c : cells (Z * Z)) (m : Z -> Z) : outcome (Z -> Z) :=
  for_n (Z.to_nat n) (fun i m => match c i with
                        | Some (ad, v) => Ok (mem_put T m ad v)
                        | None => UB Uninitialised end) m.
(** VectorStoreHelper 163-251; CoralNPUVSt is [mo_quad = false], CoralNPUVStQ
    (292-296) is [mo_quad = true], [mo_len = false], [mo_stride = true]. *)
Definition exec_vst (T : ity) (o : mop) (s : mstate) : outcome mstate :=
  n <- mcount T o ;;
  stride <- mstride T o ;;
  c <- vst_entries T (mo_quad o) (num_ops (mo_strip o)) n stride (mbase o) (mo_v o) (m_v s) ;;
  m <- store_all T n c (m_mem s) ;;
  p <- post_addr T o n stride ;;
  Ok (MS m (m_v s) (write_post o p (m_x s))).

(** CoralNPUVDup 267-287. *)
Definition exec_vdup (T : ity) (strip : bool) (vd : vgroup) (x : Z) (junk : Z -> vbytes)
           (rf : vregs) : outcome vregs :=
  for_n (Z.to_nat (num_ops strip)) (fun op (rf : vregs) =>
    if op <? g_n vd then
      b <- for_n (Z.to_nat (elts T)) (fun e b => Ok (lane_put T b e (wrap T x))) (junk op) ;;
      Ok (upd rf (g_base vd + op) b)
    else UB OutOfBounds) rf.

(** CoralNPUGetVl 304-326: [None] for an operand the form does not have. *)
Definition exec_getvl (T : ity) (strip : bool) (rs1 rs2 : option Z) : Z :=
  let v := elts T in
  let v := if strip then wrap U32 (v * 4) else v in
  let v := match rs1 with Some x => Z.min v (wrap U32 x) | None => v end in
  match rs2 with Some x => Z.min v (wrap U32 x) | None => v end.
