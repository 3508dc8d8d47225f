(** * The instruction trace of a run

    Models the tracing of CoralNPUTop::Run, /repo/sim/coralnpu_top.cc 393-511 (line
    numbers refer to that file), with the flags of 61-67 and the messages of
    /repo/sim/proto/coralnpu_trace.proto.

    Simplifications and contracts, besides those of TopModel.v:
    - paths are lists of characters; no "." or ".." components, no doubled slashes,
      no links; "" names nothing.  A path without a slash is in the working
      directory.  Every directory may be written to and the disk is never full;
    - mkdir fails with EEXIST if the path names anything, with another error if its
      parent is not a directory;
    - opening a file for output empties it or creates it, and fails for a directory
      or if the parent is not a directory;
    - protobuf (outside /repo): TraceData is written as the wire format says, fields
      in the order of their numbers; fields of edition 2023 have explicit presence,
      so every field that was set is written; a message of more than INT_MAX bytes is
      not written at all;
    - the text of an instruction, inst->AsString(), is the parameter [disasm]. *)
From Coq Require Import ZArith List Bool.
From Verif Require Import CInt TopModel.
Import ListNotations.
Open Scope Z_scope.

(** ** Files *)
Inductive node := Dir | File (l : list Z).
Definition path := list Z.
Definition fs := path -> option node.
Definition slash : Z := 47.
(** The part before the last slash, if there is one: substr(0, find_last_of('/'))
    with npos when there is none. *)
Fixpoint before_slash (p : path) : option path :=
  match p with
  | [] => None
  | c :: r => match before_slash r with
              | Some q => Some (c :: q)
              | None => if c =? slash then Some [] else None
              end
  end.
(** 430-431. *)
Definition trace_dir (p : path) : path := match before_slash p with Some d => d | None => p end.
Fixpoint same (p q : path) : bool :=
  match p, q with [], [] => true | a :: p, b :: q => (a =? b) && same p q | _, _ => false end.
Definition put_node (p : path) (n : node) (f : fs) : fs := fun q => if same q p then Some n else f q.
(** Whether the directory a path lies in exists: the root and the working directory
    do. *)
Definition parent_ok (p : path) (f : fs) : bool :=
  match before_slash p with
  | None | Some [] => true
  | Some d => match f d with Some Dir => true | _ => false end
  end.
Inductive made := Made | Exists | Failed.
(** mkdir(2). *)
Definition mkdir (p : path) (f : fs) : made * fs :=
  match p with
  | [] => (Failed, f)
  | _ => match f p with
         | Some _ => (Exists, f)
         | None => if parent_ok p f then (Made, put_node p Dir f) else (Failed, f)
         end
  end.
(** std::fstream::open with out | binary; [None]: is_open() is false. *)
Definition open_out (p : path) (f : fs) : option fs :=
  match p with
  | [] => None
  | _ => match f p with
         | Some Dir => None
         | _ => if (last p 0 =? slash) || negb (parent_ok p f) then None else Some (put_node p (File []) f)
         end
  end.

(** ** Messages *)
(** TraceEntry, coralnpu_trace.proto 21-25; [None]: disasm not set. *)
Record tentry := TEntry { te_address : Z; te_opcode : Z; te_disasm : option (list Z) }.
(** A base-128 number of up to 64 bits. *)
Fixpoint varint (n : nat) (v : Z) : list Z :=
  match n with
  | O => []
  | S n => if v <? 128 then [v] else (128 + v mod 128) :: varint n (v / 128)
  end.
Definition put_varint (v : Z) : list Z := varint 10 v.
(** Tags: field number * 8 + wire type, 0 for numbers and 2 for bytes. *)
Definition put_entry (e : tentry) : list Z :=
  8 :: put_varint (te_address e) ++ 16 :: put_varint (te_opcode e) ++
  match te_disasm e with None => [] | Some t => 26 :: put_varint (Z.of_nat (length t)) ++ t end.
Definition put_data (l : list tentry) : list Z :=
  flat_map (fun e => let b := put_entry e in 10 :: put_varint (Z.of_nat (length b)) ++ b) l.
Definition int_max : Z := 2 ^ 31 - 1.
(** SerializeToOstream. *)
Definition serialize (l : list tentry) : list Z :=
  let b := put_data l in if int_max <? Z.of_nat (length b) then [] else b.

(** ** The run *)
(** The flags trace, trace_disasm and trace_path, 61-67. *)
Record flags := Flags { fl_trace : bool; fl_disasm : bool; fl_path : path }.
(** What 428-441 print: "Dump trace file at ...", "Failed to create ...". *)
Inductive said := SDump (p : path) | SFailed (d : path).
Record world := World { w_fs : fs; w_said : list said }.
Definition say (m : said) (f : fs) (w : world) : world := World f (w_said w ++ [m]).

(** 425-441: whether the trace file is open. *)
Definition open_trace (fl : flags) (w : world) : bool * world :=
  if fl_trace fl then
    let '(r, f) := mkdir (trace_dir (fl_path fl)) (w_fs w) in
    match r with
    | Failed => (false, say (SFailed (trace_dir (fl_path fl))) f w)
    | _ => match open_out (fl_path fl) f with
           | Some f => (true, say (SDump (fl_path fl)) f w)
           | None => (false, say (SDump (fl_path fl)) f w)
           end
    end
  else (false, w).

Section Trace.
  Context {C : Type}.
  Variable exec : Z -> Z -> arch (C := C) -> (Z -> Z) -> effect (C := C).
  Variable evicted : Z -> Z -> bool.
  (** Text of the instruction [word] at an address. *)
  Variable disasm : Z -> Z -> list Z.

  (** One iteration of 443-483 with the entry of 453-465, which is loaded after the
      instruction was executed: the address field has 32 bits. *)
  Definition traced_iteration (fl : flags) (next_pc : Z) (s : top (C := C)) : tentry * (bool * Z * top (C := C)) :=
    let '(w, s) := fetch evicted next_pc s in
    let s := execute exec w next_pc s in
    let e := TEntry (next_pc mod 2 ^ 32) (load32 (t_mem s) next_pc)
                    (if fl_disasm fl then Some (disasm w next_pc) else None) in
    let next_pc := t_pc s in
    (e, if negb (t_halted s) then (true, next_pc, s)
        else if reason_eqb (t_reason s) RActionPoint then
          (true, next_pc, set_reason RNone (set_halted false (step_past exec evicted s)))
        else (false, next_pc, s)).
  (** The loop 443-483 and the entries it adds; [None]: still running. *)
  Fixpoint traced_loop (fuel : nat) (fl : flags) (pc : option Z) (next_pc : Z) (s : top (C := C))
    : option (list tentry * (option Z * Z * top (C := C))) :=
    if negb (t_halted s) then
      match fuel with
      | O => None
      | S f =>
          let '(e, (go, np, s')) := traced_iteration fl next_pc s in
          if go then
            match traced_loop f fl (Some next_pc) np s' with
            | Some (l, x) => Some (e :: l, x)
            | None => None
            end
          else Some ([e], (Some next_pc, np, s'))
      end
    else Some ([], (pc, next_pc, s)).
  (** Run 393-511 up to the end of the run. *)
  Definition run_traced (fuel : nat) (fl : flags) (w : world) (s : top (C := C))
    : option (outcome (ret * top (C := C)) * world) :=
    if is_running (t_status s) then Some (Ok (RErr EFailedPrecondition, s), w)
    else
      let s := if t_need s then step_past exec evicted (set_need false s) else s in
      let s := set_halted false (set_status Running s) in
      let '(is_open, w) := open_trace fl w in
      match traced_loop fuel fl None (t_pc s) s with
      | None => None
      | Some (entries, (pc, next_pc, s)) =>
          let o := if reason_eqb (t_reason s) RSwBreakpoint
                   then match pc with
                        | Some p => Ok (ROk, set_status Halted (set_pc p s))
                        | None => UB Uninitialised
                        end
                   else Ok (ROk, set_status Halted (set_pc next_pc s)) in
          let w := if is_open
                   then World (put_node (fl_path fl) (File (serialize entries)) (w_fs w)) (w_said w) else w in
          Some (o, w)
      end.
End Trace.
