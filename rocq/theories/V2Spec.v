(** * Specification of the V2 checks *)
From Coq Require Import ZArith List Bool.
From Verif Require Import CInt V2Model.
Import ListNotations.
Open Scope Z_scope.

(** Bytes the instruction reads or writes. *)
Definition width (i : v2mem) : Z :=
  match i with Lw | Flw | Sw | Fsw => 4 | Lh | Lhu | Sh => 2 | _ => 1 end.
Definition is_load (i : v2mem) : bool :=
  match i with Lw | Lh | Lhu | Lb | Lbu | Flw => true | _ => false end.
(** Some configured range contains all of the [w] bytes at [a]. *)
Definition contained (ranges : list range) (a w : Z) : Prop :=
  exists s l, In (s, l) ranges /\ forall x, a <= x < a + w -> s <= x < s + l.
Definition u32 (x : Z) : Prop := 0 <= x < 2 ^ 32.
(** Ranges of 32-bit addresses that end below 4 GiB. *)
Definition low (ranges : list range) : Prop :=
  forall s l, In (s, l) ranges -> 0 <= s /\ 0 <= l /\ s + l < 2 ^ 32.

(** Handlers called one after the other. *)
Fixpoint call_all {St} (hs : list (handler St)) (inst : option Z) (s : St) : list bool * St :=
  match hs with
  | [] => ([], s)
  | h :: r => let (b, s1) := h inst s in let (bs, s2) := call_all r inst s1 in (b :: bs, s2)
  end.

(** The configuration asked for by a list of factory calls. *)
Definition last_itcm (ops : list fop) (r : range) : Prop :=
  exists a s l b, ops = a ++ SetItcmRange s l :: b /\ r = (s, l) /\
    forall s' l', ~ In (SetItcmRange s' l') b.
Definition last_misa (ops : list fop) (v : Z) : Prop :=
  exists a b, ops = a ++ SetInitialMisaValue v :: b /\ forall v', ~ In (SetInitialMisaValue v') b.
Definition lsu_of (ops : list fop) : list range :=
  flat_map (fun o => match o with AddLsuAccessRange s l => [(s, l)] | _ => [] end) ops.
