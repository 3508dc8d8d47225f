(** * Specification of the instruction trace

    A reader of the protobuf wire format that knows nothing of the writer, the
    entries a program should leave, and when a path can hold a trace. *)
From Coq Require Import ZArith List Bool.
From Verif Require Import CInt TopModel TopSpec TraceModel.
Import ListNotations.
Open Scope Z_scope.

(** A base-128 number and what follows it. *)
Fixpoint get_number (l : list Z) : option (Z * list Z) :=
  match l with
  | [] => None
  | b :: r => if b <? 128 then Some (b, r)
              else match get_number r with Some (v, r') => Some (b - 128 + 128 * v, r') | None => None end
  end.
(** A field: its number, its value and what follows. *)
Inductive value := Number (v : Z) | Bytes (l : list Z).
Definition get_field (l : list Z) : option (Z * value * list Z) :=
  match get_number l with
  | None => None
  | Some (tag, r) =>
      match get_number r with
      | None => None
      | Some (v, r) =>
          if tag mod 8 =? 0 then Some (tag / 8, Number v, r)
          else if (tag mod 8 =? 2) && (v <=? Z.of_nat (length r))
               then Some (tag / 8, Bytes (firstn (Z.to_nat v) r), skipn (Z.to_nat v) r)
               else None
      end
  end.
(** All fields of a message, at most [n]. *)
Fixpoint get_fields (n : nat) (l : list Z) : option (list (Z * value)) :=
  match l with
  | [] => Some []
  | _ => match n with
         | O => None
         | S n => match get_field l with
                  | Some (k, v, r) => match get_fields n r with Some t => Some ((k, v) :: t) | None => None end
                  | None => None
                  end
         end
  end.
Definition fields (l : list Z) : option (list (Z * value)) := get_fields (length l) l.
(** TraceEntry: address 1, opcode 2, disasm 3. *)
Definition read_entry (l : list Z) : option tentry :=
  match fields l with
  | Some [(1, Number a); (2, Number w)] => Some (TEntry a w None)
  | Some [(1, Number a); (2, Number w); (3, Bytes t)] => Some (TEntry a w (Some t))
  | _ => None
  end.
Fixpoint read_entries (l : list (Z * value)) : option (list tentry) :=
  match l with
  | [] => Some []
  | (1, Bytes b) :: r => match read_entry b, read_entries r with Some e, Some t => Some (e :: t) | _, _ => None end
  | _ => None
  end.
(** TraceData: the entries are the fields 1. *)
Definition read_trace (l : list Z) : option (list tentry) :=
  match fields l with Some fs => read_entries fs | None => None end.

(** The directory of [p] exists: the root, the working directory or one in [f]. *)
Definition in_dir (f : fs) (p : path) : Prop :=
  ~ In slash p \/ exists d n, p = d ++ slash :: n /\ ~ In slash n /\ (d = [] \/ f d = Some Dir).
(** A trace can be kept at [p]: the path of a file in a directory below the root
    that exists or can be made, or a name in the working directory that already is
    a file. *)
Definition usable (f : fs) (p : path) : Prop :=
  (p <> [] /\ ~ In slash p /\ exists l, f p = Some (File l)) \/
  exists d n, p = d ++ slash :: n /\ ~ In slash n /\ n <> [] /\ d <> [] /\ f p <> Some Dir /\
    (f d = Some Dir \/ (f d = None /\ in_dir f d)).

(** Room the entries need at most and at least. *)
Definition text_length (e : tentry) : Z := match te_disasm e with Some t => Z.of_nat (length t) | None => 0 end.
Definition room (l : list tentry) : Z := fold_right (fun e n => 24 + text_length e + n) 0 l.

Section Spec.
  Context {C : Type}.
  Variable exec : Z -> Z -> arch (C := C) -> (Z -> Z) -> effect (C := C).
  Variable disasm : Z -> Z -> list Z.
  (** The entry of the program's next instruction in state [m]. *)
  Definition entry_of (texts : bool) (m : mach (C := C)) : tentry :=
    TEntry (m_pc m) (word_at m) (if texts then Some (disasm (word_at m) (m_pc m)) else None).
  (** Entries of the instructions number [a], ..., [a + n - 1] of the program. *)
  Definition entries_of (texts : bool) (m : mach (C := C)) (a n : nat) : list tentry :=
    map (fun i => entry_of texts (ref exec i m)) (seq a n).
  Definition ebreak_entry (texts : bool) (m : mach (C := C)) : tentry :=
    TEntry (m_pc m) ebreak (if texts then Some (disasm ebreak (m_pc m)) else None).
  (** What a Run from [m] leaves that stops [n] instructions later for reason [r]:
      all instructions, except the first if it resumed from a breakpoint, and an
      ebreak for the breakpoint it stopped at. *)
  Definition trace_of (texts : bool) (m : mach (C := C)) (at_bp : bool) (n : nat) (r : reason) : list tentry :=
    let d := if at_bp then 1%nat else 0%nat in
    entries_of texts m d (n - d) ++ (if reason_eqb r RSwBreakpoint then [ebreak_entry texts (ref exec n m)] else []).
End Spec.
