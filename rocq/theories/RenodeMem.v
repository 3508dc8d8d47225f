(** * The memory shared with Renode

    Models /repo/sim/renode/coralnpu_renode_memory.cc (line numbers refer to it).

    Simplifications:
    - a block is a pointer with its own bytes; [h p o] is byte [o] of block [p];
      [avail p] is the number of bytes the caller allocated there;
    - a DataBuffer is its bytes and their number; the write-back of a load
      (inst->Execute, lines 61-78 and 97-114) happens afterwards and is not
      modelled;
    - DataBuffer::size and span sizes are below 2^31. *)
From Coq Require Export ZArith List Bool.
From Verif Require Import CInt.
Import ListNotations.
Open Scope Z_scope.

Definition heap := Z -> Z -> Z.
Definition buffer := Z -> Z.
(** An access ends normally, or in a failed ABSL_HARDENING_ASSERT (with the
    memory at that moment), or in undefined behaviour, or never ([Loops]: not
    within the fuel). *)
Inductive undef := DivByZero | Bounds | IntOverflow | ShiftRange.
Inductive res (A : Type) := Done (x : A) | Rejected (h : heap) | Undefined (u : undef) | Loops.
Arguments Done {A}. Arguments Rejected {A}. Arguments Undefined {A}. Arguments Loops {A}.
Definition rbind {A B} (r : res A) (f : A -> res B) : res B :=
  match r with Done x => f x | Rejected h => Rejected h | Undefined u => Undefined u | Loops => Loops end.

(** The data members, coralnpu_renode_memory.h 81-88. *)
Record rmem := RM { m_unit : Z; m_shift : Z; m_alloc : Z; m_bs : Z; m_base : Z; m_max : Z; m_blocks : list Z }.

Section Mem.
  (** Whether ABSL_HARDENING_ASSERT is active in the build. *)
  Variable checked : bool.
  Variable avail : Z -> Z.

  Definition hassert {A} (c : bool) (h : heap) (k : res A) : res A :=
    if checked && negb c then Rejected h else k.

  (** Constructor 27-47. [ptrs] is the caller's array. The loop counts with an int. *)
  Definition make (block_size memory_size : Z) (ptrs : list Z) (base unit : Z) (h : heap) : res rmem :=
    let max := wrap U64 (base + memory_size) in
    hassert (0x3fffff <? max) h
      (if block_size =? 0 then Undefined DivByZero
       else
         let num_block := wrap U64 (max + block_size - 1) / block_size in
         if 2 ^ 31 <? num_block then Undefined IntOverflow
         else if Z.of_nat (length ptrs) <? num_block then Undefined Bounds
         else Done (RM (wrap I32 unit) (Z.log2 unit) (wrap I32 (wrap U64 (block_size * unit)))
                       block_size base max (firstn (Z.to_nat num_block) ptrs))).

  Variable m : rmem.
  (** IsValidAddress 49-52. *)
  Definition valid (address high : Z) : bool := (m_base m <=? address) && (high <=? m_max m).

  (** int subtraction, and left shift of an int (undefined for negative values
      and results that do not fit). *)
  Definition int_sub (a b : Z) : res Z := if in_range I32 (a - b) then Done (a - b) else Undefined IntOverflow.
  Definition int_shl (a s : Z) : res Z :=
    if (s <? 0) || (31 <? s) then Undefined ShiftRange
    else if (a <? 0) || negb (in_range I32 (a * 2 ^ s)) then Undefined ShiftRange
    else Done (a * 2 ^ s).

  (** The two memcpy calls 166, 168, between block [p] at [ob] and the buffer
      (of [blen] bytes) at [pos]. *)
  Definition copy (load : bool) (p ob : Z) (blen pos nb : Z) (h : heap) (buf : buffer) : res (heap * buffer) :=
    if (nb <? 0) || (ob <? 0) || (avail p <? ob + nb) || (pos <? 0) || (blen <? pos + nb) then Undefined Bounds
    else if load
    then Done (h, fun i => if (pos <=? i) && (i <? pos + nb) then h p (ob + (i - pos)) else buf i)
    else Done (fun q o => if (q =? p) && (ob <=? o) && (o <? ob + nb) then buf (pos + (o - ob)) else h q o, buf).

  (** LoadStoreHelper 147-179: the do-while loop. *)
  Fixpoint ls_loop (fuel : nat) (load : bool) (address blen pos size : Z) (h : heap) (buf : buffer) : res (heap * buffer) :=
    match fuel with
    | O => Loops
    | S fuel =>
        if m_bs m =? 0 then Undefined DivByZero
        else
          let idx := address / m_bs m in
          match nth_error (m_blocks m) (Z.to_nat idx) with
          | None => Undefined Bounds
          | Some p =>
              let off := wrap I32 (address - idx * m_bs m) in
              rbind (int_sub (m_alloc m) off) (fun room =>
              let n := Z.min size room in
              rbind (int_shl n (m_shift m)) (fun nb =>
              rbind (int_shl off (m_shift m)) (fun ob =>
              rbind (copy load p ob blen pos nb h buf) (fun hb =>
              if size - n >? 0
              then ls_loop fuel load (wrap U64 (address + n)) blen (pos + nb) (size - n) (fst hb) (snd hb)
              else Done hb))))
          end
    end.
  Definition ls_helper (load : bool) (address blen pos size : Z) (h : heap) (buf : buffer) : res (heap * buffer) :=
    hassert (address <? m_max m) h (ls_loop (S (Z.to_nat size)) load address blen pos size h buf).

  (** Load 54-61 and Store 117-124. *)
  Definition access (load : bool) (address blen : Z) (h : heap) (buf : buffer) : res (heap * buffer) :=
    if m_unit m =? 0 then Undefined DivByZero
    else
      let size := Z.quot blen (m_unit m) in
      let high := wrap U64 (address + size) in
      hassert (valid address high) h (hassert (0 <? size) h (ls_helper load address blen 0 size h buf)).
  Definition rload := access true.
  Definition rstore := access false.

  (** Load 81-96 and Store 126-145 with addresses and masks: from element [i] on. *)
  Fixpoint elements (load : bool) (addrs : list Z) (masks : list bool) (i el blen size : Z) (h : heap) (buf : buffer)
    : res (heap * buffer) :=
    match masks with
    | [] => Done (h, buf)
    | b :: masks =>
        if b then
          let several := (1 <? length addrs)%nat in
          match nth_error addrs (if several then Z.to_nat i else 0%nat) with
          | None => Undefined Bounds
          | Some a0 =>
              let address := if several then a0 else wrap U64 (a0 + wrap U32 (i * el)) in
              let high := wrap U64 (address + size) in
              rbind (hassert (valid address high) h (ls_helper load address blen (wrap U32 (el * i)) size h buf)) (fun hb =>
              elements load addrs masks (i + 1) el blen size (fst hb) (snd hb))
          end
        else elements load addrs masks (i + 1) el blen size h buf
    end.
  Definition vaccess (load : bool) (addrs : list Z) (masks : list bool) (el blen : Z) (h : heap) (buf : buffer)
    : res (heap * buffer) :=
    if m_unit m =? 0 then Undefined DivByZero
    else
      let size := Z.quot el (m_unit m) in
      hassert (0 <? size) h (elements load addrs masks 0 el blen size h buf).
End Mem.
