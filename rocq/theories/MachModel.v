(** * The whole V1 core: one instruction word on registers and memory

    The instance of the parameter [exec] of TopModel.v: decoding (DecodeModel.v,
    V1ScalModel.v), the semantic functions modelled in VecModel.v, ConvModel.v,
    MemModel.v and LogModel.v, and the halt requests of CoralNPUTop::Initialize
    (/repo/sim/coralnpu_top.cc, "top:").

    Simplifications and contracts:
    - the scalar semantic functions of mpact-riscv do what the RISC-V manual says
      ([kinds]): RV32I computation, jumps, branches, loads, and M; fence and fence.i
      do nothing.  Those of csr, ecall and the privileged instructions, with the
      exception they raise, and the Zbb groups tried last (coralnpu_encoding.cc
      374-376), are the parameters [sys] and [zbb]; CsrModel.v has the csr ones;
    - RiscVState::LoadMemory and StoreMemory (mpact-riscv) compare the address, or
      every address of a vector access, with max_physical_address (top: 139) before
      they access anything, and on a higher one call Trap and return;
    - RiscVState::Trap calls the on_trap callback first and does nothing more if
      that returns true (top: 208-235);
    - registers by number: -1 is "X0Dest", 0 to 31 are x0 to x31, 64 + r is v<r>, a
      vector register being the number its 32 bytes form, little-endian;
    - fresh data buffers have arbitrary contents ([junk], [ljunk]), a new one for
      every instruction (counted by [k_clock]);
    - undefined behaviour or a failed CHECK of an instruction sets [k_wrong] and is
      otherwise a nop: statements are about runs that keep it false. *)
From Coq Require Import ZArith List Bool String.
From Verif Require Import CInt VecModel ConvModel MemModel DecodeTypes DecodeModel LogModel.
From Verif Require Import V2DecTypes V2DecModel V1Aux V1ScalModel TopModel.
Import ListNotations.
Open Scope string_scope.
Open Scope Z_scope.

(** ** Scalar instructions *)
Inductive kind :=
| KAlu (f : Z -> Z -> Z)        (* rd = f(source 0, source 1) *)
| KLui | KAuipc | KJal | KJalr
| KBranch (c : Z -> Z -> bool)
| KLoad (T : ity) | KStore (T : ity)
| KNop | KMpause | KLog | KSys.
Definition u32 (v : Z) : Z := v mod 2 ^ 32.
Definition s32 (v : Z) : Z := let u := u32 v in if u <? 2 ^ 31 then u else u - 2 ^ 32.
(** The manual's operations on 32-bit registers; operands are 0 .. 2^32-1. *)
Definition alu : list (string * (Z -> Z -> Z)) := [
  ("RV32::RiscVIAdd", fun a b => a + b);
  ("RV32::RiscVISub", fun a b => a - b);
  ("RV32::RiscVISlt", fun a b => if s32 a <? s32 b then 1 else 0);
  ("RV32::RiscVISltu", fun a b => if a <? b then 1 else 0);
  ("RV32::RiscVIAnd", Z.land); ("RV32::RiscVIOr", Z.lor); ("RV32::RiscVIXor", Z.lxor);
  ("RV32::RiscVISll", fun a b => a * 2 ^ (b mod 32));
  ("RV32::RiscVISrl", fun a b => a / 2 ^ (b mod 32));
  ("RV32::RiscVISra", fun a b => s32 a / 2 ^ (b mod 32));
  ("RV32::MMul", fun a b => a * b);
  ("RV32::MMulh", fun a b => s32 a * s32 b / 2 ^ 32);
  ("RV32::MMulhsu", fun a b => s32 a * b / 2 ^ 32);
  ("RV32::MMulhu", fun a b => a * b / 2 ^ 32);
  ("RV32::MDiv", fun a b => if b =? 0 then -1 else Z.quot (s32 a) (s32 b));
  ("RV32::MDivu", fun a b => if b =? 0 then -1 else a / b);
  ("RV32::MRem", fun a b => if b =? 0 then a else Z.rem (s32 a) (s32 b));
  ("RV32::MRemu", fun a b => if b =? 0 then a else a mod b) ].
Definition branches : list (string * (Z -> Z -> bool)) := [
  ("RV32::RiscVIBeq", Z.eqb); ("RV32::RiscVIBne", fun a b => negb (a =? b));
  ("RV32::RiscVIBlt", fun a b => s32 a <? s32 b); ("RV32::RiscVIBge", fun a b => s32 b <=? s32 a);
  ("RV32::RiscVIBltu", Z.ltb); ("RV32::RiscVIBgeu", fun a b => b <=? a) ].
Definition kinds : list (string * kind) :=
  map (fun p => (fst p, KAlu (snd p))) alu ++ map (fun p => (fst p, KBranch (snd p))) branches ++ [
  ("RV32::RiscVILui", KLui); ("RV32::RiscVIAuipc", KAuipc); ("RV32::RiscVIJal", KJal); ("RV32::RiscVIJalr", KJalr);
  ("RV32::RiscVILb", KLoad I8); ("RV32::RiscVILh", KLoad I16); ("RV32::RiscVILw", KLoad I32);
  ("RV32::RiscVILbu", KLoad U8); ("RV32::RiscVILhu", KLoad U16);
  ("coralnpu::CoralNPUIStore<uint8_t>", KStore U8); ("coralnpu::CoralNPUIStore<uint16_t>", KStore U16);
  ("coralnpu::CoralNPUIStore<uint32_t>", KStore U32);
  ("RiscVINop", KNop); ("RiscVIFence", KNop); ("RiscVZFencei", KNop); ("coralnpu::CoralNPUNopInstruction", KNop);
  ("coralnpu::CoralNPUIMpause", KMpause); ("coralnpu::CoralNPULogInstruction", KLog) ].
Definition act_kind (a : act) : kind :=
  match a_sem a with
  | Fn n _ :: _ => match DecodeTypes.find n kinds with Some k => k | None => KSys end
  | [] => KSys
  end.
(** The argument bound to the semantic function (log_mode). *)
Definition bound (a : act) : Z := match a_sem a with Fn _ (k :: _) :: _ => k | _ => -1 end.

(** ** Vector loads and stores that fault *)
Definition beyond (n : Z) (a : Z -> option Z) : bool :=
  existsb (fun i => match a (Z.of_nat i) with Some x => max_address <? x | None => false end) (seq 0 (Z.to_nat n)).
(** The addresses that CoralNPUVLd (coralnpu_vector_memory_instructions.cc 77-87) and
    VectorStoreHelper (200-222) hand over, compared with the limit. *)
Definition ld_fault (T : ity) (o : mop) : outcome bool :=
  n <- mcount T o ;;
  stride <- mstride T o ;;
  a <- vld_addrs T (num_ops (mo_strip o)) n stride (mbase o) ;;
  Ok (beyond n a).
Definition st_fault (T : ity) (o : mop) (rf : vregs) : outcome bool :=
  n <- mcount T o ;;
  stride <- mstride T o ;;
  c <- vst_entries T (mo_quad o) (num_ops (mo_strip o)) n stride (mbase o) (mo_v o) rf ;;
  Ok (beyond n (fun i => option_map fst (c i))).
(** What both do after the access, whether it trapped or not: 98-121, 227-250. *)
Definition post_only (T : ity) (o : mop) (s : mstate) : outcome mstate :=
  n <- mcount T o ;;
  stride <- mstride T o ;;
  p <- post_addr T o n stride ;;
  Ok (MS (m_mem s) (m_v s) (write_post o p (m_x s))).

(** CoralNPUState's own fields and, in [k_sys], the rest of the RISC-V state. *)
Record core {S : Type} := Core {
  k_acc : Z -> Z -> Z; k_dw : option (Z -> Z); k_log : lstate;
  k_clock : Z; k_wrong : bool; k_sys : S }.
Arguments core : clear implicits.

(** The on_trap callback top: 208-235: illegal instruction, load and store access
    fault request a halt; it leaves all other exceptions alone. *)
Definition on_trap (code : Z) : option reason :=
  if (code =? 2) || (code =? 5) || (code =? 7) then Some RUserRequest else None.
Definition raised (t : option Z) : option reason := match t with Some c => on_trap c | None => None end.

Section Mach.
  Context {S : Type}.
  Notation arch := (arch (C := core S)).
  Notation effect := (effect (C := core S)).
  Variable d : decoder.
  Variable zbb : Z -> option act.
  Variable sys : act -> Z -> arch -> (Z -> Z) -> arch * (Z -> Z) * Z * option Z.
  Variable junk : Z -> Z -> vbytes.
  Variable ljunk : Z -> Z.

  Definition with_core (k : core S -> core S) (s : arch) : arch := Arch (a_regs s) (k (a_csr s)).
  Definition tock (k : core S) : core S := Core S (k_acc k) (k_dw k) (k_log k) (k_clock k + 1) (k_wrong k) (k_sys k).
  Definition wrong (k : core S) : core S := Core S (k_acc k) (k_dw k) (k_log k) (k_clock k + 1) true (k_sys k).
  Definition set_log (l : lstate) (k : core S) : core S := Core S (k_acc k) (k_dw k) l (k_clock k) (k_wrong k) (k_sys k).

  Definition next (a : Z) : Z := u32 (a + 4).
  Definition normal (s : arch) (m : Z -> Z) (a : Z) : effect := Eff (with_core tock s) m (next a) None.
  Definition went_wrong (s : arch) (m : Z -> Z) (a : Z) : effect := Eff (with_core wrong s) m (next a) None.
  (** Trap(false, _, code, a, inst) by an instruction that does nothing else. *)
  Definition trapped (code : Z) (s : arch) (m : Z -> Z) (a : Z) : effect := Eff (with_core tock s) m (next a) (on_trap code).

  (** Writing a scalar destination. *)
  Definition set_dst (r : dopnd) (v : Z) (s : arch) : arch :=
    match r with
    | DX n => Arch (upd (a_regs s) n (u32 v)) (a_csr s)
    | DX0 => Arch (upd (a_regs s) (-1) (u32 v)) (a_csr s)
    | _ => s
    end.
  Definition store_addr (base off : Z) : Z :=
    Z.land (wrap U32 (wrap U32 base + wrap U32 (wrap I32 off))) 0x7fffffff.

  (** CoralNPULogInstruction, coralnpu_instructions.cc 71-114. *)
  Definition log_op (mode v : Z) (s : arch) (m : Z -> Z) : option lop :=
    let e := LE m max_address (fun x => max_address <? x) (ljunk (k_clock (a_csr s))) in
    if mode =? 0 then Some (Flog e v) else if mode =? 1 then Some (Slog v)
    else if mode =? 2 then Some (Clog v) else if mode =? 3 then Some (Klog e v) else None.
  (** The string loader's loop ends at max_address. *)
  Definition log_fuel : nat := Z.to_nat (2 ^ 20 + 2).
  (** Flog and klog trap if the first address is above the limit; later ones are not
      (instructions.cc 64). *)
  Definition log_trap (mode v : Z) : option reason :=
    if ((mode =? 0) || (mode =? 3)) && (max_address <? u32 v) then on_trap 5 else None.

  Definition exec_scalar (c : act) (a : Z) (s : arch) (m : Z -> Z) : effect :=
    let v o := u32 (value1 (a_regs s) o) in
    match act_kind c, a_src c, a_dst c with
    | KAlu f, [p; q], [r] => normal (set_dst r (f (v p) (v q)) s) m a
    | KLui, [p], [r] => normal (set_dst r (v p) s) m a
    | KAuipc, [p], [r] => normal (set_dst r (a + v p) s) m a
    | KJal, [p], [_; r] => Eff (with_core tock (set_dst r (a + 4) s)) m (u32 (a + v p)) None
    | KJalr, [p; q], [_; r] =>
        Eff (with_core tock (set_dst r (a + 4) s)) m (Z.land (u32 (v p + v q)) (2 ^ 32 - 2)) None
    | KBranch c, [p; q; o], [_] =>
        Eff (with_core tock s) m (if c (v p) (v q) then u32 (a + v o) else next a) None
    | KLoad T, [b; o], [] =>
        let x := u32 (v b + v o) in
        if max_address <? x then trapped 5 s m a
        else match a_child c with
             | Some (_, [r]) => normal (set_dst r (mem_get T m x) s) m a
             | _ => went_wrong s m a
             end
    | KStore T, [b; o; p], [] =>
        let val o := value1 (a_regs s) o in
        if max_address <? store_addr (val b) (val o) then trapped 7 s m a
        else normal s (exec_store T true (val b) (val o) (val p) m) a
    | KNop, _, _ => normal s m a
    | KMpause, _, _ => Eff (with_core tock s) m (next a) (Some RUserRequest)   (* top: 197-206 *)
    | KLog, [p], [] =>
        match log_op (bound c) (v p) s m with
        | Some op =>
            match exec_log log_fuel op (k_log (a_csr s)) with
            | Some (Ok l) => Eff (with_core tock (with_core (set_log l) s)) m (next a) (log_trap (bound c) (v p))
            | _ => went_wrong s m a
            end
        | None => normal s m a
        end
    | KSys, _, _ => let '(s', m', a', t) := sys c a s m in Eff (with_core tock s') m' a' (raised t)
    | _, _, _ => went_wrong s m a
    end.

  (** ** Vector instructions *)
  Definition vreg (r : Z) : Z := 64 + r.
  Definition to_w (s : arch) (m : Z -> Z) : wstate :=
    WS m (fun r j => a_regs s (vreg r) / 256 ^ j mod 256) (a_regs s) (k_acc (a_csr s)) (k_dw (a_csr s)) [].
  Definition of_w (s : arch) (w : wstate) : arch :=
    Arch (fun i => if i <? 64 then w_x w i else le (w_v w (i - 64)) 0 32)
         (Core S (w_acc w) (w_dw w) (k_log (a_csr s)) (k_clock (a_csr s)) (k_wrong (a_csr s)) (k_sys (a_csr s))).
  (** The operands of a load or store row, as in [exec_row]. *)
  Definition mem_row (e : entry) (w : Z) (s : wstate) : option (outcome (ity * mop * bool)) :=
    let ld T o := Some (o <- o ;; Ok (T, o, true)) in
    let st T o := Some (o <- o ;; Ok (T, o, false)) in
    let s0 := nth 0 (map (src_op e w) (e_src e)) OOther in
    match e_sem e with
    | SmLd T len stride strip _ _ =>
        ld T (mop_of true e w s len stride strip false 0 (nth 0 (map (dst_op e w) (e_child e)) OOther))
    | SmSt T len stride strip => st T (mop_of true e w s len stride strip false 1 s0)
    | SmStq T strip => st T (mop_of true e w s false true strip true 1 s0)
    | _ => None
    end.
  (** The state after the instruction, and the exception it raised. *)
  Definition vec_step (e : entry) (w a : Z) (s : wstate) (jk : Z -> vbytes) : option (outcome (wstate * option Z)) :=
    let run := option_map (fun r => s' <- r ;; Ok (s', match w_traps s' with (c, _) :: _ => Some c | [] => None end))
                          (exec_row true a jk e w s) in
    match mem_row e w s with
    | Some r =>
        match (p <- r ;; let '(T, o, load) := p in
               f <- (if load : bool then ld_fault T o else st_fault T o (w_v s)) ;; Ok (T, o, load, f)) with
        | Ok (T, o, load, f) =>
            if f : bool
            then Some (s' <- with_m s (post_only T o (to_m s)) ;; Ok (s', Some (if load : bool then 5 else 7)))
            else run
        | UB k => Some (UB k)
        | Crash => Some Crash
        end
    | None => run
    end.
  Definition exec_vector (e : entry) (w a : Z) (s : arch) (m : Z -> Z) : effect :=
    match vec_step e w a (to_w s m) (junk (k_clock (a_csr s))) with
    | Some (Ok (s', t)) =>
        Eff (with_core tock (of_w s s')) (w_mem s') (next a) (raised t)
    | _ => went_wrong s m a
    end.

  (** ** One word; ebreak is handled by CoralNPUTop itself. *)
  Definition exec1 (w a : Z) (s : arch) (m : Z -> Z) : effect :=
    match parse d w with
    | Some e => match e_sem e with
                | SmScalar _ => exec_scalar (act1 e w) a s m
                | _ => exec_vector e w a s m
                end
    | None => match zbb w with
              | Some c => exec_scalar c a s m
              | None => trapped 2 s m a   (* CoralNPUIllegalInstruction *)
              end
    end.
End Mach.
