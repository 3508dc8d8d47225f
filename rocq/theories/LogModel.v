(** * Log instructions and scalar stores

    Models /repo/sim/coralnpu_instructions.cc 43-136 ("instr.cc") and
    CoralNPUState::PrintLog, /repo/sim/coralnpu_state.cc 92-138 ("state.cc").

    Simplifications:
    - characters are byte values 0..255; standard output is the list of
      characters written so far, the "incorrect format" lines on standard error
      are not recorded;
    - memory is a function from addresses to bytes.  RiscVState::LoadMemory
      (mpact-riscv) either reads the four bytes little-endian or, for the
      addresses in [fault], raises a trap and leaves the buffer as it was; the
      trap itself is outside the model;
    - absl::StrFormat of "%u", "%d" and "%x" is modelled by [digits];
    - std::string::resize(npos) throws std::length_error, which nobody catches:
      [Crash]; so is a failed CHECK. *)
From Verif Require Export CInt VecModel MemModel.
Import ListNotations.

(** The std::any log arguments: uint32_t or std::string. *)
Inductive larg := AInt (v : Z) | AStr (s : list Z).
(** log_args_, clog_string_ and the characters written to std::cout. *)
Record lstate := LS { l_args : list larg; l_clog : list Z; l_out : list Z }.

(** The bytes of a uint32_t in memory order (x86-64, little-endian). *)
Definition bytes4 (w : Z) : list Z :=
  [w mod 256; (w / 256) mod 256; (w / 65536) mod 256; (w / 16777216) mod 256].
(** WordHasZero, instr.cc 45-48. *)
Definition word_has_zero (w : Z) : bool :=
  (Z.land (Z.shiftr w 24) 255 =? 0) || (Z.land (Z.shiftr w 16) 255 =? 0) ||
  (Z.land (Z.shiftr w 8) 255 =? 0) || (Z.land w 255 =? 0).
(** std::string::find('\0'). *)
Fixpoint find0 (s : list Z) : option nat :=
  match s with
  | [] => None
  | c :: r => if c =? 0 then Some O else option_map S (find0 r)
  end.
(** s.resize(s.find('\0')). *)
Definition trim (s : list Z) : outcome (list Z) :=
  match find0 s with Some k => Ok (firstn k s) | None => Crash end.

(** What a string load sees: memory, max_physical_address(), the addresses at
    which LoadMemory traps, and the initial content of the data buffer. *)
Record lenv := LE { e_mem : Z -> Z; e_max : Z; e_fault : Z -> bool; e_junk : Z }.

(** The do-while loop of CoralNPUStringLoadHelper, instr.cc 58-64; [None] when
    the fuel runs out. *)
Fixpoint load_loop (fuel : nat) (e : lenv) (addr data : Z) (acc : list Z) : option (list Z) :=
  match fuel with
  | O => None
  | S f =>
      let data := if e_fault e addr then data else le (e_mem e) addr 4 in
      let acc := acc ++ bytes4 data in
      let addr := wrap U32 (addr + 4) in
      if negb (word_has_zero data) && (addr <? e_max e) then load_loop f e addr data acc
      else Some acc
  end.
(** CoralNPUStringLoadHelper, instr.cc 52-68, on an empty out_string. *)
Definition string_load (fuel : nat) (e : lenv) (a : Z) : option (outcome (list Z)) :=
  option_map trim (load_loop fuel e (wrap U32 a) (e_junk e) []).

(** The digits of absl::StrFormat("%u") and ("%x"). *)
Definition digit (d : Z) : Z := if d <? 10 then 48 + d else 87 + d.
Fixpoint digits (fuel : nat) (b v : Z) : list Z :=
  match fuel with
  | O => []
  | S f => (if v <? b then [] else digits f b (v / b)) ++ [digit (v mod b)]
  end.
Definition fmt_u (v : Z) : list Z := digits 10 10 v.
Definition fmt_x (v : Z) : list Z := digits 8 16 v.
(** StrFormat("%d", static_cast<int32_t>(v)). *)
Definition fmt_d (v : Z) : list Z :=
  let i := wrap I32 v in if i <? 0 then 45 :: fmt_u (- i) else fmt_u i.
(** The text appended for argument [a] and specifier [k], state.cc 101-129:
    'u' is 117, 'd' 100, 'x' 120, 's' 115. *)
Definition render (a : larg) (k : Z) : list Z :=
  match a with
  | AInt v => if k =? 117 then fmt_u v else if k =? 100 then fmt_d v
              else if k =? 120 then fmt_x v else []
  | AStr s => if k =? 115 then s else []
  end.
(** The loop of PrintLog, state.cc 96-134, on the bytes that may be read from
    print_ptr on; '%' is 37. *)
Fixpoint print_loop (buf : list Z) (args : list larg) (out : list Z) : outcome (list Z) :=
  match buf with
  | [] => UB OutOfBounds
  | c :: r =>
      if c =? 0 then Ok out
      else if c =? 37 then
        match args with
        | [] => Crash
        | a :: args' => match r with
                        | [] => UB OutOfBounds
                        | k :: r' => print_loop r' args' (out ++ render a k)
                        end
        end
      else print_loop r args (out ++ [c])
  end.
(** PrintLog, state.cc 92-138: the data of the view must be readable up to and
    including a NUL. *)
Definition print_log (buf : list Z) (s : lstate) : outcome lstate :=
  o <- print_loop buf (l_args s) [] ;; Ok (LS [] (l_clog s) (l_out s ++ o)).

(** The log instructions with the value of rs1; loads also carry what memory
    looks like when they execute. *)
Inductive lop := Flog (e : lenv) (a : Z) | Slog (v : Z) | Clog (w : Z) | Klog (e : lenv) (a : Z).
Definition set_arg (s : lstate) (a : larg) : lstate := LS (l_args s ++ [a]) (l_clog s) (l_out s).
(** CoralNPULogInstruction, instr.cc 71-114 (log_mode 0, 1, 2, 3 as bound in
    coralnpu_base.isa 391-406). *)
Definition exec_log (fuel : nat) (op : lop) (s : lstate) : option (outcome lstate) :=
  match op with
  | Flog e a => option_map (fun r => f <- r ;; print_log (f ++ [0]) s) (string_load fuel e a)
  | Slog v => Some (Ok (set_arg s (AInt (wrap U32 v))))
  | Clog w =>
      let w := wrap U32 w in
      let c := l_clog s ++ bytes4 w in
      if word_has_zero w
      then Some (t <- trim c ;; Ok (LS (l_args s ++ [AStr t]) [] (l_out s)))
      else Some (Ok (LS (l_args s) c (l_out s)))
  | Klog e a => option_map (fun r => t <- r ;; Ok (set_arg s (AStr t))) (string_load fuel e a)
  end.
Fixpoint exec_logs (fuel : nat) (ops : list lop) (s : lstate) : option (outcome lstate) :=
  match ops with
  | [] => Some (Ok s)
  | op :: r => match exec_log fuel op s with
               | Some (Ok s') => exec_logs fuel r s'
               | other => other
               end
  end.

(** CoralNPUIStore<T>, instr.cc 117-136, for T = uint8_t, uint16_t, uint32_t:
    [small] is max_physical_address() <= kCoralnpuMaxMemoryAddress; StoreMemory
    is assumed to write the sizeof(T) bytes (its own limit check is outside the
    model). kMemMask: coralnpu_state.h:44. *)
Definition exec_store (T : ity) (small : bool) (base off val : Z) (m : Z -> Z) : Z -> Z :=
  let a := wrap U32 (wrap U32 base + wrap U32 (wrap I32 off)) in
  let a := if small then Z.land a 0x7fffffff else a in
  mem_put T m a (wrap T val).
