(** * Lane operations: the C++ lambdas of coralnpu_vector_instructions.cc

    Each definition transliterates one lambda/helper; all line numbers refer to
    /repo/sim/coralnpu_vector_instructions.cc.  [T] is the template argument;
    operands are values of their declared types.  The result is the value
    returned (converted to the lambda's return type) or UB/Crash. *)
From Verif Require Import CInt.

(** Value of a typed rvalue converted to the return type. *)
Definition ret (t : ity) (v : cv) : outcome Z := Ok (cval (cast t v)).

(** CoralNPUVAdd 167-178. *)
Definition l_vadd (T : ity) (a b : Z) : outcome Z :=
  let UT := make_unsigned T in
  let uvs1 := cast UT (CV T a) in
  let uvs2 := cast UT (CV T b) in
  s <- c_add uvs1 uvs2 ;; ret T s.
(** CoralNPUVSub 184-195. *)
Definition l_vsub (T : ity) (a b : Z) : outcome Z :=
  let UT := make_unsigned T in
  let uvs1 := cast UT (CV T a) in
  let uvs2 := cast UT (CV T b) in
  s <- c_sub uvs1 uvs2 ;; ret T s.
(** CoralNPUVRSub 201-212. *)
Definition l_vrsub (T : ity) (a b : Z) : outcome Z :=
  let UT := make_unsigned T in
  let uvs1 := cast UT (CV T a) in
  let uvs2 := cast UT (CV T b) in
  s <- c_sub uvs2 uvs1 ;; ret T s.
(** CoralNPUVEq 218, VNe 229, VLt 240, VLe 254, VGt 268, VGe 282. *)
Definition l_veq (T : ity) (a b : Z) := ret T (of_bool (c_eq (CV T a) (CV T b))).
Definition l_vne (T : ity) (a b : Z) := ret T (of_bool (c_ne (CV T a) (CV T b))).
Definition l_vlt (T : ity) (a b : Z) := ret T (of_bool (c_lt (CV T a) (CV T b))).
Definition l_vle (T : ity) (a b : Z) := ret T (of_bool (c_le (CV T a) (CV T b))).
Definition l_vgt (T : ity) (a b : Z) := ret T (of_bool (c_gt (CV T a) (CV T b))).
Definition l_vge (T : ity) (a b : Z) := ret T (of_bool (c_ge (CV T a) (CV T b))).
(** CoralNPUVAbsd 296-312: returns make_unsigned<T>. *)
Definition l_vabsd (T : ity) (a b : Z) : outcome Z :=
  let UT := make_unsigned T in
  let uvs1 := cast UT (CV T a) in
  let uvs2 := cast UT (CV T b) in
  d <- (if c_gt (CV T a) (CV T b) then c_sub uvs1 uvs2 else c_sub uvs2 uvs1) ;;
  ret UT d.
(** CoralNPUVMax 320, CoralNPUVMin 335 (std::max(a,b) = a<b ? b : a;
    std::min(a,b) = b<a ? b : a). *)
Definition l_vmax (T : ity) (a b : Z) : outcome Z :=
  ret T (if c_lt (CV T a) (CV T b) then CV T b else CV T a).
Definition l_vmin (T : ity) (a b : Z) : outcome Z :=
  ret T (if c_lt (CV T b) (CV T a) then CV T b else CV T a).
(** CoralNPUVAdd3 350-362: op(vd, vs1, vs2). *)
Definition l_vadd3 (T : ity) (d a b : Z) : outcome Z :=
  let UT := make_unsigned T in
  let uvs1 := cast UT (CV T a) in
  let uvs2 := cast UT (CV T b) in
  let uvd := cast UT (CV T d) in
  s <- c_add uvd uvs1 ;; s <- c_add s uvs2 ;; ret T s.
(** VAddsHelper 371-383. *)
Definition l_vadds (T : ity) (a b : Z) : outcome Z :=
  let UT := make_unsigned T in
  let vs1 := CV T a in let vs2 := CV T b in
  let uvs1 := cast UT vs1 in
  let uvs2 := cast UT vs2 in
  s <- c_add uvs1 uvs2 ;;
  let usum := cast UT s in
  let sum := cast T usum in
  if c_ge (c_xor vs1 vs2) (lit 0) && c_lt (c_xor sum vs1) (lit 0)
  then ret T (if c_gt vs1 (lit 0) then lim_max T else lim_min T)
  else ret T sum.
(** VAddsuHelper 396-403. *)
Definition l_vaddsu (T : ity) (a b : Z) : outcome Z :=
  let vs1 := CV T a in let vs2 := CV T b in
  s <- c_add vs1 vs2 ;;
  let sum := cast T s in
  ret T (if c_lt sum vs1 then lim_max T else sum).
(** VSubsHelper 416-428. *)
Definition l_vsubs (T : ity) (a b : Z) : outcome Z :=
  let UT := make_unsigned T in
  let vs1 := CV T a in let vs2 := CV T b in
  let uvs1 := cast UT vs1 in
  let uvs2 := cast UT vs2 in
  s <- c_sub uvs1 uvs2 ;;
  let usub := cast UT s in
  let sub := cast T usub in
  if c_lt (c_xor vs1 vs2) (lit 0) && c_ge (c_xor sub vs2) (lit 0)
  then ret T (if c_lt vs2 (lit 0) then lim_max T else lim_min T)
  else ret T sub.
(** CoralNPUVSubsu 440-446. *)
Definition l_vsubsu (T : ity) (a b : Z) : outcome Z :=
  let vs1 := CV T a in let vs2 := CV T b in
  if c_lt vs1 vs2 then ret T (lit 0) else d <- c_sub vs1 vs2 ;; ret T d.
(** CoralNPUVAddw 452, CoralNPUVSubw 465. *)
Definition l_vaddw (Td Ts : ity) (a b : Z) : outcome Z :=
  s <- c_add (cast Td (CV Ts a)) (cast Td (CV Ts b)) ;; ret Td s.
Definition l_vsubw (Td Ts : ity) (a b : Z) : outcome Z :=
  s <- c_sub (cast Td (CV Ts a)) (cast Td (CV Ts b)) ;; ret Td s.
(** CoralNPUVAcc 478: vs1 has type Td, vs2 type Ts2. *)
Definition l_vacc (Td Ts2 : ity) (a b : Z) : outcome Z :=
  let UTd := make_unsigned Td in
  s <- c_add (cast UTd (CV Td a)) (cast UTd (CV Ts2 b)) ;; ret Td s.
(** CoralNPUVPadd 517-525, CoralNPUVPsub 535-543. *)
Definition l_vpadd (Td Ts : ity) (a b : Z) : outcome Z :=
  s <- c_add (cast Td (CV Ts a)) (cast Td (CV Ts b)) ;; ret Td s.
Definition l_vpsub (Td Ts : ity) (a b : Z) : outcome Z :=
  s <- c_sub (cast Td (CV Ts a)) (cast Td (CV Ts b)) ;; ret Td s.
(** CoralNPUVHaddHelper 552-557. *)
Definition l_vhadd (T : ity) (round : bool) (a b : Z) : outcome Z :=
  let WT := wide T in
  s <- c_add (cast WT (CV T a)) (cast WT (CV T b)) ;;
  s <- c_add s (lit (if round then 1 else 0)) ;;
  s <- c_shr s (lit 1) ;; ret T s.
(** CoralNPUVHsubHelper 574-579. *)
Definition l_vhsub (T : ity) (round : bool) (a b : Z) : outcome Z :=
  let WT := wide T in
  s <- c_sub (cast WT (CV T a)) (cast WT (CV T b)) ;;
  s <- c_add s (lit (if round then 1 else 0)) ;;
  s <- c_shr s (lit 1) ;; ret T s.
(** CoralNPUVAnd 595, VOr 606, VXor 617. *)
Definition l_vand (T : ity) (a b : Z) := ret T (c_and (CV T a) (CV T b)).
Definition l_vor (T : ity) (a b : Z) := ret T (c_or (CV T a) (CV T b)).
Definition l_vxor (T : ity) (a b : Z) := ret T (c_xor (CV T a) (CV T b)).
(** One ladder stage of CoralNPUVRev:
    [if (count & c) r = ((r & lo) << c) | ((r & hi) >> c);] where [lo] is an int
    literal (all the low masks fit in int) and [hi] an unsigned literal. *)
Definition rev_stage (T : ity) (c lo hi : Z) (count r : cv) : outcome cv :=
  if c_true (c_and count (lit c)) then
    x <- c_shl (c_and r (lit lo)) (lit c) ;;
    y <- c_shr (c_and r (ulit hi)) (lit c) ;;
    Ok (cast T (c_or x y))
  else Ok r.
(** CoralNPUVRev 628-643. *)
Definition l_vrev (T : ity) (a b : Z) : outcome Z :=
  let r := CV T a in
  let count := cast T (c_and (CV T b) (lit 31)) in
  r <- rev_stage T 1 1431655765 2863311530 count r ;;
  r <- rev_stage T 2 858993459 3435973836 count r ;;
  r <- rev_stage T 4 252645135 4042322160 count r ;;
  if sizeof T =? 1 then ret T r else
  r <- rev_stage T 8 16711935 4278255360 count r ;;
  if sizeof T =? 2 then ret T r else
  r <- rev_stage T 16 65535 4294901760 count r ;;
  ret T r.
(** One iteration of the loop in CoralNPUVRor (656-658). *)
Definition ror_stage (T : ity) (shift : Z) (count r : cv) : outcome cv :=
  if c_true (c_and count (lit shift)) then
    x <- c_shr r (lit shift) ;;
    n <- c_sub (ullit (sizeof T * 8)) (lit shift) ;;
    y <- c_shl r n ;;
    Ok (cast T (c_or x y))
  else Ok r.
(** CoralNPUVRor 649-664. *)
Definition l_vror (T : ity) (a b : Z) : outcome Z :=
  let r := CV T a in
  let count := cast T (c_and (CV T b) (cast T (ullit (sizeof T * 8 - 1)))) in
  r <- ror_stage T 1 count r ;;
  r <- ror_stage T 2 count r ;;
  r <- ror_stage T 4 count r ;;
  r <- ror_stage T 8 count r ;;
  r <- ror_stage T 16 count r ;;
  ret T r.
(** The lambda [return vs1;] of VMvp 683, slides 1115/1128/1189/1202, VEvn 1249,
    VOdd 1281, VEvnodd 1303, VZip 1339. *)
Definition l_arg1 (T : ity) (a b : Z) : outcome Z := ret T (CV T a).
(** CoralNPUVSll 692, VSra 706, VSrl 720: [size_t shift = vs2 & (sizeof(T)*8-1)]. *)
Definition shift_amount (T : ity) (b : Z) : cv :=
  cast U64 (c_and (CV T b) (ullit (sizeof T * 8 - 1))).
Definition l_vsll (T : ity) (a b : Z) : outcome Z :=
  s <- c_shl (CV T a) (shift_amount T b) ;; ret T s.
Definition l_vsra (T : ity) (a b : Z) : outcome Z :=
  s <- c_shr (CV T a) (shift_amount T b) ;; ret T s.
Definition l_vsrl (T : ity) (a b : Z) : outcome Z :=
  s <- c_shr (CV T a) (shift_amount T b) ;; ret T s.
(** CHECK_LE / CHECK_GE abort the process when the comparison is false. *)
Definition check (b : bool) : outcome unit := if b then Ok tt else Crash.
(** CoralNPUVShiftHelper 733-790. *)
Definition l_vshift (T : ity) (round : bool) (a b : Z) : outcome Z :=
  let WT := wide T in
  let vs1 := CV T a in let vs2 := CV T b in
  let k := lit (sizeof T * 8) in                       (* kMaxShiftBit *)
  if is_signed T then
    let shamt := cast I32 vs2 in
    if negb (c_true vs1) then ret T (lit 0) else
    shift <-
      (if c_lt vs1 (lit 0) && c_ge shamt k then
         s <- c_add (lit (-1)) (of_bool round) ;; Ok (cast WT s)
       else if c_gt vs1 (lit 0) && c_ge shamt k then Ok (cast WT (lit 0))
       else if c_gt shamt (lit 0) then
         rnd <- (if round
                 then e <- c_sub shamt (lit 1) ;; p <- c_shl (llit 1) e ;;
                      Ok (cast WT p)
                 else Ok (lit 0)) ;;
         s <- c_add (cast WT vs1) (cast (uac WT I32) rnd) ;;
         s <- c_shr s shamt ;; Ok (cast WT s)
       else
         let UT := make_unsigned T in
         let UWT := wide UT in
         n <- c_neg shamt ;;
         ushamt <- (if c_le n k then n2 <- c_neg shamt ;; Ok (cast UT n2)
                    else Ok (cast UT k)) ;;
         _ <- check (c_le ushamt k) ;;
         _ <- check (c_ge ushamt (lit 0)) ;;
         s <- c_shl (cast UWT vs1) ushamt ;;
         Ok (cast WT s)) ;;
    let neg_max := lim_min T in
    let pos_max := lim_max T in
    negk <- c_neg k ;;
    let neg_sat := c_lt vs1 (lit 0) && (c_le shamt negk || c_lt shift neg_max) in
    let pos_sat := c_gt vs1 (lit 0) && (c_le shamt negk || c_gt shift pos_max) in
    if neg_sat then ret T neg_max
    else if pos_sat then ret T pos_max
    else ret T shift
  else
    let shamt := cast I32 (cast (make_signed T) vs2) in
    if negb (c_true vs1) then ret T (lit 0) else
    shift <-
      (if c_gt shamt k then Ok (cast WT (lit 0))
       else if c_gt shamt (lit 0) then
         rnd <- (if round
                 then e <- c_sub shamt (lit 1) ;; p <- c_shl (ullit 1) e ;;
                      Ok (cast WT p)
                 else Ok (lit 0)) ;;
         s <- c_add (cast WT vs1) (cast (uac WT I32) rnd) ;;
         s <- c_shr s shamt ;; Ok (cast WT s)
       else
         let UT := make_unsigned T in
         n <- c_neg shamt ;;
         ushamt <- (if c_le n k then n2 <- c_neg shamt ;; Ok (cast UT n2)
                    else Ok (cast UT k)) ;;
         s <- c_shl (cast WT vs1) ushamt ;;
         Ok (cast WT s)) ;;
    let pos_max := lim_max T in
    negk <- c_neg k ;;
    let pos_sat := c_true vs1 && (c_lt shamt negk || c_gt shift pos_max) in
    if pos_sat then ret T pos_max else ret T shift.
(** CoralNPUVNot 806. *)
Definition l_vnot (T : ity) (a : Z) : outcome Z := ret T (c_not (CV T a)).
(** absl::countl_zero / countl_one / popcount (absl/numeric/bits.h), defined
    here by scanning the bits from the most significant one. *)
Fixpoint count_lead (bit : bool) (v : Z) (n : nat) : Z :=
  match n with
  | O => 0
  | S m => if Bool.eqb (Z.testbit v (Z.of_nat m)) bit
           then 1 + count_lead bit v m else 0
  end.
Fixpoint popcount_from (v : Z) (n : nat) : Z :=
  match n with
  | O => 0
  | S m => (if Z.testbit v (Z.of_nat m) then 1 else 0) + popcount_from v m
  end.
Definition absl_countl_zero (T : ity) (v : Z) := count_lead false v (Z.to_nat (bits T)).
Definition absl_countl_one (T : ity) (v : Z) := count_lead true v (Z.to_nat (bits T)).
Definition absl_popcount (T : ity) (v : Z) := popcount_from v (Z.to_nat (bits T)).
(** CoralNPUVClb 814-821. *)
Definition l_vclb (T : ity) (a : Z) : outcome Z :=
  m <- c_shl (ulit 1) (ullit (sizeof T * 8 - 1)) ;;
  ret T (lit (if c_true (c_and (CV T a) m)
              then absl_countl_one T a else absl_countl_zero T a)).
(** CoralNPUVClz 827, CoralNPUVCpop 838, CoralNPUVMv 849. *)
Definition l_vclz (T : ity) (a : Z) : outcome Z := ret T (lit (absl_countl_zero T a)).
Definition l_vcpop (T : ity) (a : Z) : outcome Z := ret T (lit (absl_popcount T a)).
Definition l_vmv (T : ity) (a : Z) : outcome Z := ret T (CV T a).
(** CoralNPUVSransHelper 882-899: vs1 : Ts, vs2 : Td. *)
Definition l_vsrans (Td Ts : ity) (round : bool) (a b : Z) : outcome Z :=
  let WTs := wide Ts in
  let vs1 := CV Ts a in
  let src_bits := sizeof Ts * 8 in
  let vs2 := cast Td (c_and (CV Td b) (lit (src_bits - 1))) in
  rnd <- (if c_true vs2 && round
          then e <- c_sub vs2 (lit 1) ;; p <- c_shl (llit 1) e ;; Ok (cast WTs p)
          else Ok (lit 0)) ;;
  s <- c_add (cast WTs vs1) (cast (uac WTs I32) rnd) ;;
  s <- c_shr s vs2 ;;
  let res := cast WTs s in
  let neg_sat := c_lt res (lim_min Td) in
  let pos_sat := c_gt res (lim_max Td) in
  let zero := negb (c_true vs1) in
  if neg_sat then ret Td (lim_min Td)
  else if pos_sat then ret Td (lim_max Td)
  else if zero then ret Td (lit 0)
  else ret Td res.
(** CoralNPUVMul 918-925. *)
Definition l_vmul (T : ity) (a b : Z) : outcome Z :=
  let WT := wide T in
  p <- c_mul (cast WT (CV T a)) (cast WT (CV T b)) ;; ret T p.
(** CoralNPUVMuls 932-948 (std::min/std::max on WT values). *)
Definition c_std_min (x y : cv) : cv := if c_lt y x then y else x.
Definition c_std_max (x y : cv) : cv := if c_lt x y then y else x.
Definition l_vmuls (T : ity) (a b : Z) : outcome Z :=
  let WT := wide T in
  p <- c_mul (cast WT (CV T a)) (cast WT (CV T b)) ;;
  let result := cast WT p in
  if is_signed T
  then ret T (c_std_max (cast WT (lim_min T))
                        (c_std_min (cast WT (lim_max T)) result))
  else ret T (c_std_min (cast WT (lim_max T)) result).
(** CoralNPUVMulw 958-964. *)
Definition l_vmulw (Td Ts : ity) (a b : Z) : outcome Z :=
  p <- c_mul (cast Td (CV Ts a)) (cast Td (CV Ts b)) ;; ret Td p.
(** CoralNPUVMulhHelper 973-981. *)
Definition l_vmulh (T : ity) (round : bool) (a b : Z) : outcome Z :=
  let WT := wide T in
  let n := sizeof T * 8 in
  p <- c_mul (cast WT (CV T a)) (cast WT (CV T b)) ;;
  let result := cast WT p in
  rnd <- (if round then q <- c_shl (llit 1) (lit (n - 1)) ;; Ok (cast WT q)
          else Ok (lit 0)) ;;
  r2 <- c_add result (cast (uac WT I32) rnd) ;;
  let result := cast WT r2 in
  s <- c_shr result (lit n) ;; ret T s.
(** CoralNPUVDmulhHelper 999-1017. *)
Definition l_vdmulh (T : ity) (round round_neg : bool) (a b : Z) : outcome Z :=
  let WT := wide T in
  let n := sizeof T * 8 in
  let vs1 := CV T a in let vs2 := CV T b in
  p <- c_mul (cast WT vs1) (cast WT vs2) ;;
  let result := cast WT p in
  result <-
    (if round then
       q <- c_shr (llit 1073741824) (lit (32 - n)) ;;
       let rnd := cast WT q in
       m <- c_neg (llit 1073741824) ;;
       q2 <- c_shr m (lit (32 - n)) ;;
       let rnd := if c_lt result (lit 0) && round_neg then cast WT q2 else rnd in
       s <- c_add result rnd ;; Ok (cast WT s)
     else Ok result) ;;
  s <- c_shr result (lit (n - 1)) ;;
  let result := cast WT s in
  if c_eq vs1 (lim_min T) && c_eq vs2 (lim_min T)
  then ret T (cast WT (lim_max T)) else ret T result.
(** CoralNPUVMacc 1029, CoralNPUVMadd 1045: op(vd, vs1, vs2). *)
Definition l_vmacc (T : ity) (d a b : Z) : outcome Z :=
  let WT := wide T in
  p <- c_mul (cast WT (CV T a)) (cast WT (CV T b)) ;;
  s <- c_add (cast WT (CV T d)) p ;; ret T s.
Definition l_vmadd (T : ity) (d a b : Z) : outcome Z :=
  let WT := wide T in
  p <- c_mul (cast WT (CV T d)) (cast WT (CV T b)) ;;
  s <- c_add (cast WT (CV T a)) p ;; ret T s.
(** CoralNPUVSel 1212-1219: op(vd, vs1, vs2) = vs1 & 1 ? vd : vs2. *)
Definition l_vsel (T : ity) (d a b : Z) : outcome Z :=
  ret T (if c_true (c_and (CV T a) (lit 1)) then CV T d else CV T b).
