(** * The V2 core: access checks, instruction fetch, mpause, misa

    Models /repo/sim/coralnpu_v2_state.h ("state.h"), coralnpu_v2_state.cc
    ("state.cc"), coralnpu_v2_instructions.cc ("instr.cc"), DecodeInstruction of
    coralnpu_v2_user_decoder.cc ("decoder.cc"), and CoralNPUState::MPause of
    coralnpu_state.cc 81-89.

    Simplifications:
    - the machine state is any type: the load/store itself (RVLoad, RVStore,
      RiscVFSw of mpact-riscv) and RiscVState::Trap are functions on it given as
      parameters;
    - [instruction->state()] is never null, so the LOG(ERROR) path (instr.cc
      47-50) and the null test of CoralNPUV2Mpause are left out;
    - the base for fsw is read as a 64-bit value, of which only the low 32 bits
      reach IsLsuAccessValid;
    - a handler must not register further handlers while mpause runs. *)
From Verif Require Export CInt.
Import ListNotations.

(** state.h 44-47: start_address and length, both uint32_t. *)
Definition range := (Z * Z)%type.

(** IsLsuAccessValid, state.cc 47-60: both sums are uint32_t additions. *)
Definition lsu_valid (ranges : list range) (address size : Z) : bool :=
  let rs := address in
  let re := wrap U32 (address + size) in
  existsb (fun r : range =>
    let as_ := fst r in
    let ae := wrap U32 (fst r + snd r) in
    (as_ <=? rs) && (re <=? ae)) ranges.

(** The instructions that go through AccessCheck (flw uses CoralNPUV2Lw,
    coralnpu_v2.isa 520-523). *)
Inductive v2mem := Lw | Lh | Lhu | Lb | Lbu | Sw | Sh | Sb | Flw | Fsw.
(** sizeof(ValueType), instr.cc 76-149. *)
Definition check_size (i : v2mem) : Z :=
  match i with
  | Lw | Flw | Sw => 4 | Lh | Lhu | Sh => 2 | Lb | Lbu | Sb => 1
  | Fsw => 8                                       (* uint64_t, instr.cc 143 *)
  end.
(** The exception codes kLoadAccessFault = 5 and kStoreAccessFault = 7. *)
Definition fault_code (i : v2mem) : Z :=
  match i with Lw | Lh | Lhu | Lb | Lbu | Flw => 5 | _ => 7 end.

Section Machine.
  Variable St : Type.
  (** The access of RVLoad/RVStore/RiscVFSw with its address, and Trap with its
      exception code and epc. *)
  Variable perform : v2mem -> Z -> St -> St.
  Variable trap : Z -> Z -> St -> St.

  (** AccessCheck, instr.cc 35-57, and CoralNPUV2Lw ... CoralNPUV2Fsw 75-149, of
      the instruction at address [pc]. *)
  Definition v2_exec (i : v2mem) (ranges : list range) (pc base off : Z) (s : St) : St :=
    let address := wrap U32 (wrap U32 base + wrap U32 (wrap I32 off)) in
    if lsu_valid ranges address (check_size i) then perform i address s
    else trap (fault_code i) pc s.

  (** MPause, state.cc 36-45 (and coralnpu_state.cc 81-89): [None] is a null
      instruction pointer. *)
  Definition handler := option Z -> St -> bool * St.
  Fixpoint run_handlers (hs : list handler) (inst : option Z) (s : St) : St :=
    match hs with
    | [] => trap 3 (match inst with Some a => a | None => 0 end) s
    | h :: r => let '(res, s') := h inst s in if res then s' else run_handlers r inst s'
    end.
  (** AddMpauseHandler, state.h 79-81. *)
  Definition add_handler (hs : list handler) (h : handler) : list handler := hs ++ [h].
  (** Trap and handler of the instruction at a bad address, decoder.cc 69-73:
      kInstructionAccessFault = 1. *)
  Inductive fetched := Decoded (address : Z) | Invalid (address : Z).
  Definition run_invalid (address : Z) (s : St) : St := trap 1 address s.
End Machine.
Arguments v2_exec {St}. Arguments run_handlers {St}. Arguments add_handler {St}. Arguments run_invalid {St}.

(** IsAddressInItcmRange, state.h 90-95: a uint32_t sum minus a size_t. *)
Definition in_itcm (start len address : Z) : bool :=
  (start <=? address) && (address <=? wrap U64 (wrap U32 (start + len) - 4)).
(** DecodeInstruction, decoder.cc 62-78: the uint64_t address is converted to
    uint32_t for the test only. *)
Definition v2_decode (start len address : Z) : fetched :=
  if in_itcm start len (wrap U32 address) then Decoded address else Invalid address.

(** StretchMisa32, state.h 35-39. *)
Definition stretch_misa (value : Z) : Z :=
  let v := wrap U64 (wrap U32 value) in
  Z.lor (wrap U64 (Z.shiftl (Z.land v 0xc0000000) 32)) (Z.land v 0x03ffffff).

(** CoralNPUV2StateFactory, state.h 112-165. [c_misa = None]: the misa register
    keeps the value RiscVState gives it. *)
Record factory := Fa { f_itcm : option range; f_misa : option Z; f_lsu : list range }.
Inductive fop := SetItcmRange (s l : Z) | SetInitialMisaValue (v : Z) | AddLsuAccessRange (s l : Z).
Definition fstep (f : factory) (o : fop) : factory :=
  match o with
  | SetItcmRange s l => Fa (Some (s, l)) (f_misa f) (f_lsu f)
  | SetInitialMisaValue v => Fa (f_itcm f) (Some v) (f_lsu f)
  | AddLsuAccessRange s l => Fa (f_itcm f) (f_misa f) (f_lsu f ++ [(s, l)])
  end.
Record config := Co { c_itcm : range; c_misa : option Z; c_lsu : list range }.
Definition create (f : factory) : config :=
  Co (match f_itcm f with Some r => r | None => (0, 0) end)
     (option_map stretch_misa (f_misa f)) (fold_left (fun l r => l ++ [r]) (f_lsu f) []).
Definition build (ops : list fop) : config := create (fold_left fstep ops (Fa None None [])).
