(** * Specification of the decoder *)
From Coq Require Import ZArith List Bool String Ascii.
From Verif Require Import CInt VecModel VecSpec ConvModel ConvSpec MemModel MemSpec DecodeTypes DecodeModel.
Import ListNotations.
Open Scope string_scope.
Open Scope Z_scope.

(** acset, actr and adwinit leave the func1 and form fields free in the tables.
    Assemblers emit func1 = 001, form = 10 (test/coralnpu_encoding_test.cc
    551-566). *)
Definition loose (e : entry) : Prop := In (e_name e) ["acset"; "actr"; "adwinit"].
Definition canonical (w : Z) (e : entry) : Prop := loose e -> xbits w 0 5 = 6.
(** The word [w] is an encoding of [e]. *)
Definition encodes (e : entry) (w : Z) : Prop := In e all_entries /\ matches w e = true.

(** ** What the fields of a vector word mean
    func2[31:26] vs2[25:20] vs1[19:14] sz[13:12] vd[11:6] m[5] func1[4:2] form[1:0] *)
Definition w_m (w : Z) : bool := Z.testbit w 5.
Definition w_form (w : Z) : Z := w mod 4.
Definition w_sz (w : Z) : Z := (w / 2 ^ 12) mod 4.
Definition w_func2 (w : Z) : Z := (w / 2 ^ 26) mod 64.
(** System format: m[27] mode[26:25]. *)
Definition w_sysm (w : Z) : bool := Z.testbit w 27.
Definition w_sysmode (w : Z) : Z := (w / 2 ^ 25) mod 4.

(** The destination lane type of a vector instruction. *)
Definition dest_type (i : vinst) : ity :=
  match i with
  | VEl o T => dst_ty o T
  | VWiden _ Td _ | VAcc Td _ | VPair _ Td _ | VNarrow _ Td _ => Td
  | VUn _ T | VPerm _ T => T
  end.
(** Operations that work alike on lanes of every width: they may leave sz free. *)
Definition width_free (i : vinst) : Prop :=
  match i with
  | VEl OAnd _ | VEl OOr _ | VEl OXor _ | VUn UNot _ | VUn UMv _ | VPerm PMvp _ => True
  | _ => False
  end.
(** Instructions with a second operand. *)
Definition two_operands (i : vinst) : Prop :=
  match i with VPair _ _ _ | VUn _ _ => False | _ => True end.
Definition width_of (sz : Z) : Z := 8 * 2 ^ sz.

(** The operand forms: 0 .vv, 2 .vx, 3 .xx. *)
Definition fields_select (s : sem) (w : Z) : Prop :=
  match s with
  | SmVec i scalar strip =>
      strip = w_m w /\ (two_operands i -> (scalar = true <-> w_form w = 2)) /\
      (bits (dest_type i) = width_of (w_sz w) \/ width_free i)
  | SmLd T len stride strip Tw stripw =>
      Tw = T /\ stripw = strip /\ strip = w_m w /\ w_form w = 3 /\ bits T = width_of (w_sz w) /\
      len = Z.testbit (w_func2 w) 0 /\ stride = Z.testbit (w_func2 w) 1
  | SmSt T len stride strip =>
      strip = w_m w /\ w_form w = 3 /\ bits T = width_of (w_sz w) /\
      len = Z.testbit (w_func2 w) 0 /\ stride = Z.testbit (w_func2 w) 1
  | SmStq T strip | SmDup T strip => strip = w_m w /\ w_form w = 3 /\ bits T = width_of (w_sz w)
  | SmGetVl T strip _ _ => strip = w_sysm w /\ bits T = width_of (w_sysmode w)
  | _ => True
  end.

(** ** What a mnemonic means *)
Fixpoint split (s cur : string) : list string :=
  match s with
  | EmptyString => [cur]
  | String c r => if Ascii.eqb c "_"%char then cur :: split r "" else split r (cur ++ String c "")
  end.
Definition has (l : list string) (t : string) : bool := existsb (String.eqb t) l.
Definition lanes_of (l : list string) : ity :=
  if has l "b" then I8 else if has l "h" then I16 else I32.
Definition uns_of (T : ity) : ity := match T with I8 => U8 | I16 => U16 | I32 => U32 | t => t end.
Definition half_of (T : ity) : ity :=
  match T with I16 => I8 | I32 => I16 | U16 => U8 | U32 => U16 | t => t end.
Definition double_of (T : ity) : ity :=
  match T with I8 => I16 | I16 => I32 | U8 => U16 | U16 => U32 | t => t end.
(** The semantics a mnemonic stands for: first token the operation, the others
    lane width, unsignedness, rounding, operand form, strip mining. *)
Definition meaning (name : string) : option sem :=
  match split name "" with
  | op :: l =>
    let T := lanes_of l in
    let U := uns_of T in
    let m := has l "m" in let x := has l "vx" in
    let TU := if has l "u" || has l "ur" then U else T in
    let r := has l "r" || has l "ur" || has l "rn" in
    let k := if has l "1" then 1 else if has l "2" then 2 else if has l "3" then 3 else 4 in
    let len := has l "l" || has l "lp" || has l "tp" in
    let stride := has l "s" || has l "sp" || has l "tp" in
    let el o t := Some (SmVec (VEl o t) x m) in
    let is n := String.eqb op n in
    if is "vadd" then el OAdd T else if is "vsub" then el OSub T else if is "vrsub" then el ORsub T
    else if is "veq" then el OEq T else if is "vne" then el ONe T
    else if is "vlt" then el OLt TU else if is "vle" then el OLe TU
    else if is "vgt" then el OGt TU else if is "vge" then el OGe TU
    else if is "vabsd" then el OAbsd TU else if is "vmax" then el OMax TU else if is "vmin" then el OMin TU
    else if is "vadd3" then el OAdd3 T
    else if is "vadds" then (if has l "u" then el OAddsu U else el OAdds T)
    else if is "vsubs" then (if has l "u" then el OSubsu U else el OSubs T)
    else if is "vhadd" then el (OHadd r) TU else if is "vhsub" then el (OHsub r) TU
    else if is "vand" then el OAnd U else if is "vor" then el OOr U else if is "vxor" then el OXor U
    else if is "vrev" then el ORev U else if is "vror" then el ORor U
    else if is "vsll" then el OSll U else if is "vsrl" then el OSrl U else if is "vsra" then el OSra T
    else if is "vsha" then el (OShift r) T else if is "vshl" then el (OShift r) U
    else if is "vmul" then el OMul T else if is "vmuls" then el OMuls T else if is "vmulsu" then el OMuls U
    else if is "vmulh" then el (OMulh r) TU
    else if is "vdmulh" then el (ODmulh r (has l "rn")) T
    else if is "vmacc" then el OMacc T else if is "vmadd" then el OMadd T else if is "vsel" then el OSel T
    else if is "vaddw" then Some (SmVec (VWiden WAdd TU (half_of TU)) x m)
    else if is "vsubw" then Some (SmVec (VWiden WSub TU (half_of TU)) x m)
    else if is "vmulw" then Some (SmVec (VWiden WMul TU (half_of TU)) x m)
    else if is "vacc" then Some (SmVec (VAcc TU (half_of TU)) x m)
    else if is "vpadd" then Some (SmVec (VPair false TU (half_of TU)) false m)
    else if is "vpsub" then Some (SmVec (VPair true TU (half_of TU)) false m)
    else if is "vnot" then Some (SmVec (VUn UNot T) false m)
    else if is "vmv" then Some (SmVec (VUn UMv T) false m)
    else if is "vclb" then Some (SmVec (VUn UClb U) false m)
    else if is "vclz" then Some (SmVec (VUn UClz U) false m)
    else if is "vcpop" then Some (SmVec (VUn UCpop U) false m)
    else if is "vsrans" then Some (SmVec (VNarrow r T (double_of T)) x m)
    else if is "vsransu" then Some (SmVec (VNarrow r U (double_of U)) x m)
    else if is "vsraqs" then Some (SmVec (VNarrow r T (double_of (double_of T))) x m)
    else if is "vsraqsu" then Some (SmVec (VNarrow r U (double_of (double_of U))) x m)
    else if is "vsliden" then Some (SmVec (VPerm (PSliden false k) T) false false)
    else if is "vslidep" then Some (SmVec (VPerm (PSlidep false k) T) false false)
    else if is "vslidevn" then Some (SmVec (VPerm (PSliden false k) T) false true)
    else if is "vslidevp" then Some (SmVec (VPerm (PSlidep false k) T) false true)
    else if is "vslidehn" then Some (SmVec (VPerm (PSliden true k) T) false true)
    else if is "vslidehp" then Some (SmVec (VPerm (PSlidep true k) T) false true)
    else if is "vevn" then Some (SmVec (VPerm PEvn T) x m)
    else if is "vodd" then Some (SmVec (VPerm POdd T) x m)
    else if is "vevnodd" then Some (SmVec (VPerm PEvnodd T) x m)
    else if is "vzip" then Some (SmVec (VPerm PZip T) x m)
    else if is "vmvp" then Some (SmVec (VPerm PMvp U) x m)
    else if is "vld" then Some (SmLd T len stride m T m)
    else if is "vst" then Some (SmSt T len stride m)
    else if is "vstq" then Some (SmStq T m)
    else if is "vdup" then Some (SmDup T m)
    else if is "getmaxvl" then Some (SmGetVl T m false false)
    else if is "getvl" then Some (SmGetVl T m true (has l "xx"))
    else if is "aconv" then Some SmConv
    else if is "adwconv" then Some (SmDwconv false)
    else if is "vdwconv" then Some (SmDwconv true)
    else if is "acset" then Some (SmAcSet false)
    else if is "actr" then Some (SmAcSet true)
    else if is "adwinit" then Some SmADwInit
    else if is "vcget" then Some SmVcGet
    else None
  | [] => None
  end.
Definition is_scalar_op (s : sem) : Prop := match s with SmScalar _ => True | _ => False end.

(** ** Scalar registers *)
(** The 5-bit register number of a scalar source. *)
Definition xfield (o : srcop) (w : Z) : Z :=
  match o with
  | SRs1 | SVs1 => (w / 2 ^ 15) mod 2 ^ 5
  | SRs2 | SVs2 => (w / 2 ^ 20) mod 2 ^ 5
  | _ => -1
  end.
Definition xval (s : wstate) (r : Z) : Z := if r =? 0 then 0 else w_x s r.
(** The scalar register an instruction may write: rd for getvl, the base address
    register for post-incrementing loads and stores.  Writes are dropped when rd,
    or the whole 6-bit vs1 field, is zero. *)
Definition xdest (e : entry) (w : Z) : option Z :=
  match e_sem e with
  | SmGetVl _ _ _ _ => if (w / 2 ^ 7) mod 2 ^ 5 =? 0 then None else Some ((w / 2 ^ 7) mod 2 ^ 5)
  | SmLd _ _ _ _ _ _ | SmSt _ _ _ _ | SmStq _ _ =>
      match e_dst e with
      | [] => None
      | _ => if (w / 2 ^ 14) mod 2 ^ 6 =? 0 then None else Some ((w / 2 ^ 15) mod 2 ^ 5)
      end
  | _ => None
  end.

(** ** Running a word *)
(** The run ends normally or in one of the undefined behaviours [P]. *)
Definition safe {A} (P : ub_kind -> Prop) (o : outcome A) : Prop :=
  match o with Ok _ => True | UB k => P k | Crash => False end.
(** Registers of the first operand. *)
Definition need1 (i : vinst) (strip : bool) : Z :=
  match i with
  | VAcc _ _ => 2 * nops strip
  | VNarrow _ Td Ts => ratio Td Ts * nops strip
  | _ => nops strip
  end.
(** Registers of the destination. *)
Definition need_dst (i : vinst) (strip : bool) : Z :=
  match i with
  | VWiden _ _ _ | VAcc _ _ => 2 * nops strip
  | VPerm p _ => perm_regs p (nops strip)
  | _ => nops strip
  end.
(** A 32-bit shift by -2^31 overflows (C07). *)
Definition may_overflow (i : vinst) : Prop := match i with VEl (OShift _) T => bits T = 32 | _ => False end.
Definition ovf (i : vinst) (k : ub_kind) : Prop := may_overflow i /\ k = SignedOverflow.
(** Instructions with operands for which C++ leaves the result undefined. *)
Definition word_ub (s : sem) (k : ub_kind) : Prop :=
  match s with
  | SmVec i _ _ => ovf i k
  | SmDwconv _ => k = SignedOverflow \/ k = Uninitialised
  | _ => False
  end.
Definition wstate_ok (s : wstate) : Prop :=
  wf (w_v s) /\ acc_wf (w_acc s) /\ match w_dw s with Some d => dw_wf d | None => True end.

(** Register numbers in a vector word. *)
Definition f_vd (w : Z) : Z := (w / 2 ^ 6) mod 64.
Definition f_vs1 (w : Z) : Z := (w / 2 ^ 14) mod 64.
Definition f_vs2 (w : Z) : Z := (w / 2 ^ 20) mod 64.
Definition f_xs1 (w : Z) : Z := (w / 2 ^ 15) mod 32.
Definition f_xs2 (w : Z) : Z := (w / 2 ^ 20) mod 32.
(** The second operand a word names. *)
Definition second (scalar : bool) (w : Z) (n : Z) (s : wstate) : src :=
  if scalar then SScal (xval s (f_xs2 w)) else SVec (f_vs2 w) n.
(** Everything but vector registers. *)
Definition rest_same (s s' : wstate) : Prop :=
  w_mem s' = w_mem s /\ w_x s' = w_x s /\ w_acc s' = w_acc s /\ w_dw s' = w_dw s /\ w_traps s' = w_traps s.
(** The memory operands a load or store word names: base address xs1, optional
    xs2, [n] vector registers from vd. *)
Definition mem_operands (small : bool) (w : Z) (s : wstate) (len stride strip quad two post : bool) (n : Z) : mop :=
  MO len stride strip quad (xval s (f_xs1 w)) (if two then Some (xval s (f_xs2 w)) else None)
     (VG (f_vd w) n)
     (if post then Some (if f_vs1 w =? 0 then -1 else f_xs1 w) else None) small.
(** Mnemonics of loads and stores: xx two scalar operands, p/lp/sp/tp post-increment. *)
Definition tokens (name : string) : list string := tl (split name "").
Definition has_xs2 (name : string) : bool := has (tokens name) "xx".
Definition has_post (name : string) : bool :=
  existsb (fun t => has (tokens name) t) ["p"; "lp"; "sp"; "tp"].
