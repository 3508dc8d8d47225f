(** * The Renode interface

    Models /repo/sim/renode/renode_mpact.cc (all; plain line numbers below refer
    to it) and the parts of /repo/sim/renode/coralnpu_renode.cc it reaches, with
    the register table of coralnpu_renode_reigster_info.cc.

    Simplifications:
    - the simulator behind CoralNPURenode (CoralNPUTop) is an abstract object
      with the operations of [ops]; a call changes only the object it is made on.
      Two objects constructed over the same memory blocks do share them, by
      design; that memory is not part of the object here (see RenodeMem.v);
    - absl::flat_hash_map is a partial function on uint32_t keys; emplace keeps an
      existing entry;
    - operator new does not return null, so the null checks on
      CreateCoralNPUSim (101, 116) never fire; a failing constructor ends the
      process ([Crash]);
    - log messages are not recorded. *)
From Verif Require Export CInt.
Import ListNotations.

(** HaltReason of CoreDebugInterface (mpact-sim) and kHaltAbort
    (coralnpu_top.h 61); [HOther] is any other value. *)
Inductive hreason := HNone | HSwBreakpoint | HHwBreakpoint | HUserRequest | HSemihost | HAbort | HOther (n : Z).
(** ExecutionResult, renode_mpact.h 87-95. *)
Definition kOk : Z := 0.
Definition kInterrupted : Z := 1.
Definition kStoppedAtBreakpoint : Z := 3.
Definition kAborted : Z := -1.
Definition int_max : Z := 2147483647.

(** DebugRegisterEnum of mpact-riscv, as far as the table uses it. *)
Inductive dbgreg := DPc | DX (n : Z).
(** RenodeCpuRegister, renode_debug_interface.h 31-36. *)
Record reginfo := RI { i_index : Z; i_width : Z; i_general : bool; i_readonly : bool }.

(** The simulator object: GetLastHaltReason, Step, Halt, register access by name,
    memory access, LoadImage, the ELF loader of mpact-sim run on the object, and
    RiscVDebugInfo's map from register ids to names with the numeric values of
    DebugRegisterEnum. [None] is an error status. *)
Record ops (Dbg File Blocks : Type) := Ops {
  create : Z -> option (Z * Z * Blocks) -> outcome Dbg;
  d_reason : Dbg -> option hreason;
  d_step : Z -> Dbg -> option Z * Dbg;
  d_halt : Dbg -> bool * Dbg;
  d_read : list Z -> Dbg -> option Z * Dbg;
  d_write : list Z -> Z -> Dbg -> bool * Dbg;
  d_rmem : Z -> Z -> Dbg -> option (list Z) * Dbg;
  d_wmem : Z -> list Z -> Dbg -> option Z * Dbg;
  d_image : File -> Z -> Dbg -> bool * Dbg;
  d_elf : File -> Dbg -> option Z * Dbg;
  enum : dbgreg -> Z;
  reg_name : Z -> option (list Z) }.
Arguments create {_ _ _}. Arguments d_reason {_ _ _}. Arguments d_step {_ _ _}. Arguments d_halt {_ _ _}.
Arguments d_read {_ _ _}. Arguments d_write {_ _ _}. Arguments d_rmem {_ _ _}. Arguments d_wmem {_ _ _}.
Arguments d_image {_ _ _}. Arguments d_elf {_ _ _}. Arguments enum {_ _ _}. Arguments reg_name {_ _ _}.

(** The calls of the C interface. [bool]s say whether the output pointer is
    non-null; [cap] is the number of bytes at the name pointer. *)
Inductive call (File Blocks : Type) :=
| Construct (max : Z) (mem : option (Z * Z * Blocks))
| Destroy (id : Z) | Reset (id : Z)
| RegInfoSize (id : Z) | RegInfo (id index cap : Z) (info : bool)
| LoadExecutable (id : Z) (f : File) (st : bool) | LoadImage (id : Z) (f : File) (a : Z)
| ReadReg (id r : Z) (val : bool) | WriteReg (id r v : Z)
| ReadMem (id a n : Z) | WriteMem (id a : Z) (bytes : list Z)
| Step (id n : Z) (st : bool) | Halt (id : Z) (st : bool).
Arguments Construct {_ _}. Arguments Destroy {_ _}. Arguments Reset {_ _}. Arguments RegInfoSize {_ _}.
Arguments RegInfo {_ _}. Arguments LoadExecutable {_ _}. Arguments LoadImage {_ _}. Arguments ReadReg {_ _}.
Arguments WriteReg {_ _}. Arguments ReadMem {_ _}. Arguments WriteMem {_ _}. Arguments Step {_ _}. Arguments Halt {_ _}.

(** Return value, what is stored through the status pointer (if anything), what
    is stored through the value, buffer or name pointer, and through info. *)
Record result := R { r_ret : Z; r_status : option Z; r_data : list Z; r_info : option reginfo }.
Definition ret (v : Z) : result := R v None [] None.
Definition ret_st (v : Z) (st : bool) (s : Z) : result := R v (if st then Some s else None) [] None.

Definition u32 (z : Z) : Z := z mod 2 ^ 32.
Definition s32 (z : Z) : Z := wrap I32 z.

(** InitializeRenodeRegisterInfo, coralnpu_renode_reigster_info.cc 25-46. *)
Definition reg_table (en : dbgreg -> Z) : list reginfo :=
  [RI (en DPc) 32 true false; RI (en (DX 0)) 32 true true;
   RI (en (DX 1)) 32 true false; RI (en (DX 2)) 32 true false;
   RI (en (DX 3)) 32 true false; RI (en (DX 4)) 32 true false;
   RI (en (DX 5)) 32 true false; RI (en (DX 6)) 32 true false;
   RI (en (DX 7)) 32 true false; RI (en (DX 8)) 32 true false;
   RI (en (DX 9)) 32 true false; RI (en (DX 10)) 32 true false;
   RI (en (DX 11)) 32 true false; RI (en (DX 12)) 32 true false;
   RI (en (DX 13)) 32 true false; RI (en (DX 14)) 32 true false;
   RI (en (DX 15)) 32 true false; RI (en (DX 16)) 32 true false;
   RI (en (DX 17)) 32 true false; RI (en (DX 18)) 32 true false;
   RI (en (DX 19)) 32 true false; RI (en (DX 20)) 32 true false;
   RI (en (DX 21)) 32 true false; RI (en (DX 22)) 32 true false;
   RI (en (DX 23)) 32 true false; RI (en (DX 24)) 32 true false;
   RI (en (DX 25)) 32 true false; RI (en (DX 26)) 32 true false;
   RI (en (DX 27)) 32 true false; RI (en (DX 28)) 32 true false;
   RI (en (DX 29)) 32 true false; RI (en (DX 30)) 32 true false;
   RI (en (DX 31)) 32 true false].

(** strncpy: the bytes it stores; a length that is negative as an int is a huge
    size_t, which stores past any buffer. *)
Definition strncpy (s : list Z) (max_len cap : Z) : outcome (list Z) :=
  if (max_len <? 0) || (cap <? max_len) then UB OutOfBounds
  else let n := Z.to_nat max_len in
       Ok (firstn n s ++ repeat 0 (n - length s)).

(** CoralNPURenode::GetRenodeRegisterInfo, coralnpu_renode.cc 167-186: [None] for
    the out-of-range error. *)
Definition register_info (en : dbgreg -> Z) (name : Z -> option (list Z)) (index max_len cap : Z)
  : outcome (option (reginfo * list Z)) :=
  let tab := reg_table en in
  if (index <? 0) || (Z.of_nat (length tab) <=? index) then Ok None
  else match nth_error tab (Z.to_nat index) with
       | None => UB OutOfBounds
       | Some info =>
           match name (i_index info) with
           | None => if cap <? 1 then UB OutOfBounds else Ok (Some (info, [0]))
           | Some s => b <- strncpy s max_len cap ;; Ok (Some (info, b))
           end
       end.

Section Agent.
  Context {Dbg File Blocks : Type}.
  Variable o : ops Dbg File Blocks.
  Notation call := (call File Blocks).

  (** RenodeAgent, renode_mpact.h 98-146: count_, core_dbg_instances_,
      name_length_map_. *)
  Record agent := A { a_count : Z; a_inst : Z -> option Dbg; a_len : Z -> option Z }.
  Definition agent0 : agent := A 0 (fun _ => None) (fun _ => None).
  Definition put {X} (k : Z) (v : option X) (f : Z -> option X) : Z -> option X :=
    fun i => if i =? k then v else f i.
  Definition emplace {X} (k : Z) (v : X) (f : Z -> option X) : Z -> option X :=
    match f k with Some _ => f | None => put k (Some v) f end.
  Definition find (id : Z) (a : agent) : option Dbg := a_inst a (u32 id).
  Definition upd (id : Z) (d : Dbg) (a : agent) : agent := A (a_count a) (put (u32 id) (Some d) (a_inst a)) (a_len a).

  (** Construct 98-107, 109-122. *)
  Definition construct (max : Z) (mem : option (Z * Z * Blocks)) (a : agent) : outcome (agent * result) :=
    d <- create o (a_count a) mem ;;
    Ok (A (u32 (a_count a + 1)) (emplace (a_count a) d (a_inst a)) (emplace (a_count a) max (a_len a)),
        ret (s32 (a_count a))).

  (** The loop of Step, 296-352, with the calls made to the simulator and their
      answers. [st] is the status to be stored. *)
  Fixpoint step_loop (fuel : nat) (n total : Z) (d : Dbg) (tr : list (Z * option Z))
    : option (Z * Z * Dbg * list (Z * option Z)) :=
    if n >? 0 then
      match fuel with
      | O => None
      | S fuel =>
          let step_count := if n >? int_max then int_max else n in
          let (res, d) := d_step o step_count d in
          let tr := tr ++ [(step_count, res)] in
          match res with
          | None => Some (total, kAborted, d, tr)
          | Some num_executed =>
              let total := u32 (total + num_executed) in
              match d_reason o d with
              | None => Some (total, kAborted, d, tr)
              | Some HSemihost => Some (total, kAborted, d, tr)
              | Some HSwBreakpoint | Some HHwBreakpoint => Some (total, kStoppedAtBreakpoint, d, tr)
              | Some HUserRequest => Some (total, kOk, d, tr)
              | Some HAbort => Some (total, kAborted, d, tr)
              | Some HNone | Some (HOther _) =>
                  if num_executed <? step_count then Some (total, kOk, d, tr)
                  else step_loop fuel ((n - num_executed) mod 2 ^ 64) total d tr
              end
          end
      end
    else Some (total, kOk, d, tr).

  (** Step 263-357, on the object found for the id. *)
  Definition step_obj (fuel : nat) (n : Z) (d : Dbg) : option (Z * Z * Dbg * list (Z * option Z)) :=
    if n =? 0 then Some (0, kOk, d, [])
    else match d_reason o d with
         | None => Some (0, kAborted, d, [])
         | Some HSemihost => Some (0, kAborted, d, [])
         | Some _ => step_loop fuel n 0 d []
         end.

  (** Halt 360-407, on the object: return value, status stored, object. *)
  Definition halt_obj (d : Dbg) : Z * option Z * Dbg :=
    let (ok, d) := d_halt o d in
    if negb ok then (-1, Some kAborted, d)
    else match d_reason o d with
         | None => (-1, Some kAborted, d)
         | Some HSemihost => (0, Some kAborted, d)
         | Some HSwBreakpoint => (0, Some kStoppedAtBreakpoint, d)
         | Some HUserRequest => (0, Some kInterrupted, d)
         | Some HNone => (0, Some kOk, d)
         | Some HAbort => (0, Some kAborted, d)
         | Some HHwBreakpoint | Some (HOther _) => (0, None, d)
         end.

  (** LoadExecutable 218-244: entry point and status. "pc" is [112; 99]. *)
  Definition load_obj (f : File) (d : Dbg) : Z * Z * Dbg :=
    let (entry, d) := d_elf o f d in
    match entry with
    | None => (0, -1, d)
    | Some e => let (ok, d) := d_write o [112; 99] e d in if ok then (e, 0, d) else (0, -1, d)
    end.

  (** One call. [None] only if [fuel] is too small for Step. *)
  Definition do_call (fuel : nat) (k : call) (a : agent) : option (outcome (agent * result)) :=
    match k with
    | Construct max mem => Some (construct max mem a)
    | Destroy id =>                                                     (* 125-132 *)
        Some (match find id a with
              | None => Ok (a, ret (-1))
              | Some _ => Ok (A (a_count a) (put (u32 id) None (a_inst a)) (a_len a), ret 0)
              end)
    | Reset id =>                                                       (* 134-140 *)
        Some (match find id a with None => Ok (a, ret (-1)) | Some _ => Ok (a, ret 0) end)
    | RegInfoSize id =>                                                 (* 142-148, coralnpu_renode.cc 163-165 *)
        Some (match find id a with
              | None => Ok (a, ret (-1))
              | Some _ => Ok (a, ret (Z.of_nat (length (reg_table (enum o)))))
              end)
    | RegInfo id index cap info =>                                      (* 59-63, 150-161 *)
        Some (if negb info then Ok (a, ret (-1))
              else match find id a with
                   | None => Ok (a, ret (-1))
                   | Some _ =>
                       match a_len a (u32 id) with
                       | None => Crash                                  (* flat_hash_map::at *)
                       | Some max_len =>
                           r <- register_info (enum o) (reg_name o) index max_len cap ;;
                           Ok (a, match r with
                                  | None => ret (-1)
                                  | Some (i, b) => R 0 None b (Some i)
                                  end)
                       end
                   end)
    | LoadExecutable id f st =>                                         (* 218-244: *status without a null check *)
        Some (match find id a with
              | None => if st then Ok (a, ret_st 0 st (-1)) else UB NullDeref
              | Some d => let '(e, s, d) := load_obj f d in
                          if st then Ok (upd id d a, ret_st e st s) else UB NullDeref
              end)
    | LoadImage id f ad =>                                              (* 246-261 *)
        Some (match find id a with
              | None => Ok (a, ret (-1))
              | Some d => let (ok, d) := d_image o f ad d in Ok (upd id d a, ret (if ok then 0 else -1))
              end)
    | ReadReg id r val =>                                               (* 164-176, coralnpu_renode.cc 143-151 *)
        Some (if negb val then Ok (a, ret (-1))
              else match find id a with
                   | None => Ok (a, ret (-1))
                   | Some d =>
                       match reg_name o (u32 r) with
                       | None => Ok (a, ret (-1))
                       | Some nm => let (v, d) := d_read o nm d in
                           Ok (upd id d a, match v with None => ret (-1) | Some v => R 0 None [v] None end)
                       end
                   end)
    | WriteReg id r v =>                                                (* 178-188, coralnpu_renode.cc 153-161 *)
        Some (match find id a with
              | None => Ok (a, ret (-1))
              | Some d =>
                  match reg_name o (u32 r) with
                  | None => Ok (a, ret (-1))
                  | Some nm => let (ok, d) := d_write o nm v d in Ok (upd id d a, ret (if ok then 0 else -1))
                  end
              end)
    | ReadMem id ad n =>                                                (* 190-202 *)
        Some (match find id a with
              | None => Ok (a, ret 0)
              | Some d => let (r, d) := d_rmem o ad n d in
                  Ok (upd id d a, match r with None => ret 0 | Some bs => R (Z.of_nat (length bs)) None bs None end)
              end)
    | WriteMem id ad bs =>                                              (* 204-216 *)
        Some (match find id a with
              | None => Ok (a, ret 0)
              | Some d => let (r, d) := d_wmem o ad bs d in
                  Ok (upd id d a, ret (match r with None => 0 | Some n => n end))
              end)
    | Step id n st =>                                                   (* 263-357 *)
        match find id a with
        | None => Some (Ok (a, ret_st 0 st kAborted))
        | Some d => match step_obj fuel n d with
                    | None => None
                    | Some (total, s, d, _) => Some (Ok (upd id d a, ret_st total st s))
                    end
        end
    | Halt id st =>                                                     (* 360-407 *)
        Some (match find id a with
              | None => Ok (a, ret (-1))
              | Some d => let '(v, s, d) := halt_obj d in
                          Ok (upd id d a, R v (if st then s else None) [] None)
              end)
    end.

  (** A history of calls, from a given agent. *)
  Fixpoint run (fuel : nat) (ks : list call) (a : agent) : option (outcome (agent * list result)) :=
    match ks with
    | [] => Some (Ok (a, []))
    | k :: ks =>
        match do_call fuel k a with
        | None => None
        | Some (UB u) => Some (UB u)
        | Some Crash => Some Crash
        | Some (Ok (a, r)) =>
            match run fuel ks a with
            | Some (Ok (a, rs)) => Some (Ok (a, r :: rs))
            | x => x
            end
        end
    end.
End Agent.
