(** * The simulator behind the Renode interface

    CoralNPURenode (/repo/sim/renode/coralnpu_renode.cc, line numbers below) forwards
    every call to a CoralNPUTop: the instance of [ops] of RenodeModel.v made of
    TopModel.v.

    Simplifications and contracts, beyond those of the two files:
    - an object is an [outcome]: undefined behaviour of a Step is kept in the object,
      which then refuses everything;
    - objects over shared memory blocks (39-45, 59-65) are made by the parameter
      [create_shared]; the theorems are about objects with their own memory;
    - RiscVDebugInfo's map from register ids to names (outside /repo) is [names], the
      ELF loader (outside /repo) is [elf]: its entry point, if it succeeds, and the
      memory it leaves; [files] gives the contents of image files. *)
From Coq Require Import ZArith List Bool String Ascii.
From Verif Require Import CInt TopModel RenodeModel CliModel.
Import ListNotations.
Open Scope Z_scope.

(** The string with the given characters. *)
Fixpoint text (l : list Z) : string :=
  match l with [] => EmptyString | c :: r => String (ascii_of_nat (Z.to_nat c)) (text r) end.
(** HaltReason values as renode_mpact.cc tells them apart. *)
Definition to_hreason (r : reason) : hreason :=
  match r with
  | RNone => HNone | RUserRequest => HUserRequest | RSwBreakpoint => HSwBreakpoint
  | RActionPoint => HOther 0 | RSemihost => HSemihost | RAbort => HAbort | ROther n => HOther n
  end.

Section Ops.
  Context {C : Type}.
  Variable exec : Z -> Z -> arch (C := C) -> (Z -> Z) -> effect (C := C).
  Variable evicted : Z -> Z -> bool.
  Variable reg_id : string -> option Z.
  Variable reg_size : Z -> Z.
  Variable csr_id : string -> option Z.
  Variable csr_get : Z -> C -> Z.
  Variable csr_set : Z -> Z -> C -> C.
  Variable boot : arch (C := C).
  Variable boot_pc : Z.
  Context {File Blocks : Type}.
  Variable create_shared : Z * Z * Blocks -> top (C := C).
  Variable files : File -> option (list Z).
  Variable elf : File -> (Z -> Z) -> option Z * (Z -> Z).
  Variable enums : dbgreg -> Z.
  Variable names : Z -> option string.

  Definition obj : Type := outcome (top (C := C)).
  (** A call of CoralNPUTop that cannot be undefined. *)
  Definition on {X} (f : top (C := C) -> X * top (C := C)) (none : X) (d : obj) : X * obj :=
    match d with Ok s => let (x, s') := f s in (x, Ok s') | e => (none, e) end.
  Definition is_ok (x : TopModel.ret) : bool := match x with ROk => true | _ => false end.
  Definition val_of (x : TopModel.ret) : option Z := match x with RVal v => Some v | _ => None end.
  Definition bytes_of (x : TopModel.ret) : option (list Z) := match x with RBytes l => Some l | _ => None end.
  Definition via {X} (g : TopModel.ret -> X) (f : top (C := C) -> TopModel.ret * top (C := C)) (s : top) : X * top :=
    let (x, s') := f s in (g x, s').
  (** Step 76-78. *)
  Definition obj_step (n : Z) (d : obj) : option Z * obj :=
    match d with
    | Ok s => match TopModel.step exec evicted n s with
              | Ok (x, s') => (val_of x, Ok s')
              | UB k => (None, UB k)
              | Crash => (None, Crash)
              end
    | e => (None, e)
    end.
  (** GetLastHaltReason 84-86, coralnpu_top.cc 528-531. *)
  Definition obj_reason (d : obj) : option hreason := match d with Ok s => Some (to_hreason (t_reason s)) | _ => None end.
  (** CreateCoralNPUSim 33-45, CoralNPURenode 55-65. *)
  Definition obj_new (mem : option (Z * Z * Blocks)) : obj :=
    Ok (match mem with None => fresh boot (fun _ => 0) boot_pc | Some b => create_shared b end).
  (** The ELF loader writes the object's memory. *)
  Definition obj_elf (f : File) (s : top (C := C)) : option Z * top (C := C) :=
    let (e, m) := elf f (t_mem s) in (e, set_mem m s).
  Definition top_ops : ops obj File Blocks :=
    Ops _ _ _ (fun _ mem => Ok (obj_new mem)) obj_reason obj_step
      (on (via is_ok TopModel.halt) false)                                                               (* 69 *)
      (fun n => on (via val_of (read_register reg_id reg_size csr_id csr_get (text n))) None)           (* 88-90 *)
      (fun n v => on (via is_ok (write_register reg_id reg_size csr_id csr_set (text n) v)) false)      (* 92-95 *)
      (fun a n => on (via bytes_of (read_memory a n)) None)                                             (* 97-100 *)
      (fun a l => on (via val_of (write_memory a l)) None)                                              (* 102-106 *)
      (fun f a => on (via is_ok (load_image (files f) a)) false)                                        (* 138-141 *)
      (fun f => on (obj_elf f) None) enums (fun i => option_map chars (names i)).   (* 143-161 *)
End Ops.
