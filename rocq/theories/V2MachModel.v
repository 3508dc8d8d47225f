(** * The V2 core: one instruction on registers and memory

    Puts together the fetch check and the access check (V2Model.v) and decoding
    (V2DecModel.v) around the semantic functions of mpact-riscv.

    Simplifications and contracts:
    - the scalar functions of mpact-riscv named by RV32I, M, fence and the loads and
      stores do what the RISC-V manual says (the table [kinds] of MachModel.v, RVLoad,
      RVStore, RiscVFSw); csr, system, Zbb, floating point and vector arithmetic
      functions are the parameter [other], which does not see memory; vector loads
      and stores are [vmem];
    - RiscVState::Trap changes csrs and the pc only ([trap]: code, epc);
    - registers by number: -1 is "X0Dest", 0 to 31 are x0 to x31, 64 + r is f<r>;
      [box] is what flw leaves in the wider register;
    - the pc is a uint32_t; a word is decoded whenever it is executed (the decode
      cache of RiscVTop is left out, so programs that change their own instructions
      are not described);
    - memory takes all addresses (no max_physical_address is set for V2). *)
From Coq Require Import ZArith List Bool String.
From Verif Require Import CInt VecModel MemModel V2DecTypes V2DecModel V2Model TopModel MachModel.
Import ListNotations.
Open Scope string_scope.
Open Scope Z_scope.

Record v2st {C : Type} := V2S { v_arch : arch (C := C); v_mem : Z -> Z; v_pc : Z }.
Arguments v2st : clear implicits.
Arguments V2S {C}.

(** The vector loads and stores, coralnpu_v2.isa 785-1126. *)
Definition vmem_fns : list string :=
  ["VlStrided"; "VlIndexed"; "VlSegment"; "VlSegmentStrided"; "VlSegmentIndexed"; "VlRegister"; "Vlm";
   "VsStrided"; "VsIndexed"; "VsSegment"; "VsSegmentStrided"; "VsSegmentIndexed"; "VsRegister"; "Vsm"].
Definition is_vmem (l : list fn2) : bool :=
  match l with Fn n _ :: _ => existsb (String.eqb n) vmem_fns | [] => false end.
(** ValueType of the instantiations of coralnpu_v2_instructions.cc 73-151; the one of
    Fsw is what RiscVFSw stores. *)
Definition ty_of (i : v2mem) : ity :=
  match i with Lw | Flw => I32 | Lh => I16 | Lhu => U16 | Lb => I8 | Lbu => U8 | Sw | Fsw => U32 | Sh => U16 | Sb => U8 end.
Definition is_st (i : v2mem) : bool := match i with Sw | Sh | Sb | Fsw => true | _ => false end.

Section V2Mach.
  Context {C : Type}.
  Notation arch := (arch (C := C)).
  Notation v2st := (v2st C).
  Variable d : decoder2.
  Variable trap : Z -> Z -> C -> C * Z.
  Variable other : act -> Z -> arch -> arch * Z.
  Variable vmem : act -> v2st -> v2st.
  Variable box : Z -> Z.
  (** The ITCM range and the load/store ranges, coralnpu_v2_state.h 44-95. *)
  Variable start len : Z.
  Variable ranges : list range.

  Definition trap2 (code epc : Z) (s : v2st) : v2st :=
    let '(c, p) := trap code epc (a_csr (v_arch s)) in V2S (Arch (a_regs (v_arch s)) c) (v_mem s) (u32 p).
  Definition next2 (x : arch) (m : Z -> Z) (s : v2st) : v2st := V2S x m (u32 (v_pc s + 4)).
  Definition set2 (r : dopnd) (v : Z) (x : arch) : arch :=
    match r with
    | DX n => Arch (upd (a_regs x) n (u32 v)) (a_csr x)
    | DX0 => Arch (upd (a_regs x) (-1) (u32 v)) (a_csr x)
    | DF n => Arch (upd (a_regs x) (64 + n) (box (u32 v))) (a_csr x)
    | _ => x
    end.
  Definition val2 (x : arch) (o : opnd) : Z := match o with PF r => a_regs x (64 + r) | _ => value2 (a_regs x) o end.
  (** RVLoad and the child, RVStore, RiscVFSw at an admitted address; rows have one
      value operand and one destination (C61). *)
  Definition perform2 (i : v2mem) (from : list opnd) (to : list dopnd) (a : Z) (s : v2st) : v2st :=
    if is_st i then
      match from with
      | [p] => next2 (v_arch s) (mem_put (ty_of i) (v_mem s) a (wrap (ty_of i) (val2 (v_arch s) p))) s
      | _ => s
      end
    else
      match to with
      | [r] => next2 (set2 r (mem_get (ty_of i) (v_mem s) a) (v_arch s)) (v_mem s) s
      | _ => s
      end.
  (** All other functions. *)
  Definition exec_act2 (c : act) (s : v2st) : v2st :=
    let x := v_arch s in
    let m := v_mem s in
    let a := v_pc s in
    let v o := u32 (value2 (a_regs x) o) in
    match act_kind c, a_src c, a_dst c with
    | KAlu f, [p; q], [r] => next2 (set2 r (f (v p) (v q)) x) m s
    | KLui, [p], [r] => next2 (set2 r (v p) x) m s
    | KAuipc, [p], [r] => next2 (set2 r (a + v p) x) m s
    | KJal, [p], [_; r] => V2S (set2 r (a + 4) x) m (u32 (a + v p))
    | KJalr, [p; q], [_; r] => V2S (set2 r (a + 4) x) m (Z.land (u32 (v p + v q)) (2 ^ 32 - 2))
    | KBranch c, [p; q; o], [_] => V2S x m (if c (v p) (v q) then u32 (a + v o) else u32 (a + 4))
    | KNop, _, _ => next2 x m s
    | _, _, _ =>
        if is_vmem (a_sem c) then vmem c s
        else let '(x', p) := other c a x in V2S x' m (u32 p)
    end.
  (** DecodeInstruction (coralnpu_v2_user_decoder.cc 62-78), decoding, execution; the
      opcode of a word without a row is RiscVIUnimplemented, coralnpu_v2.isa 1775-1777. *)
  Definition step2 (s : v2st) : v2st :=
    let a := v_pc s in
    match v2_decode start len a with
    | Invalid _ => run_invalid trap2 a s
    | Decoded _ =>
        let w := le (v_mem s) a 4 in
        match exec_mem2 perform2 trap2 d (a_regs (v_arch s)) ranges a w s with
        | Some s' => s'
        | None => match decode2 d w with
                  | Some c => exec_act2 c s
                  | None => trap2 2 a s
                  end
        end
    end.
  Fixpoint run2 (n : nat) (s : v2st) : v2st := match n with O => s | S k => run2 k (step2 s) end.
End V2Mach.
