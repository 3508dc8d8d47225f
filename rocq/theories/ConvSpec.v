(** * Specification of the convolution and accumulator instructions *)
From Coq Require Import ZArith List Bool.
From Verif Require Import CInt VecModel ConvModel VecSpec.
Import ListNotations.
Open Scope Z_scope.

(** f 0 + f 1 + ... + f (n-1). *)
Fixpoint sum (n : nat) (f : Z -> Z) : Z :=
  match n with O => 0 | S m => sum m f + f (Z.of_nat m) end.
(** [n] bits of [w] starting at bit [lo]. *)
Definition fld (w lo n : Z) : Z := (w / 2 ^ lo) mod 2 ^ n.
(** 9-bit two's complement. *)
Definition s9 (u : Z) : Z := if u <? 256 then u else u - 512.
(** Value of the byte [b] read as signed or unsigned. *)
Definition bval (sg : bool) (b : Z) : Z := if sg && (128 <=? b) then b - 256 else b.

(** ** aconv: command word
    mode[1:0] start[6:2] stop[11:7] bias1[20:12] signed1[21] bias2[30:22] signed2[31]. *)
Definition conv_legal (w : Z) : Prop :=
  fld w 0 2 = 0 /\ fld w 2 5 <= fld w 7 5 /\ fld w 7 5 < 8.
Definition conv_len (w : Z) : Z := fld w 7 5 - fld w 2 5 + 1.
(** Words 1 and 2 of each group of four are swapped. *)
Definition swap12 (x : Z) : Z := if x =? 1 then 2 else if x =? 2 then 1 else x.
(** Which narrow register and which word of the wide registers feed cell (r,c). *)
Definition row_of (r c : Z) : Z := 4 * (r / 4) + c / 2.
Definition word_of (r c : Z) : Z := swap12 (r mod 4) + 4 * (c mod 2).
(** Contribution of byte [b] of the [m]-th commanded position. *)
Definition conv_term (w : Z) (rf : vregs) (v1 v3 r c m b : Z) : Z :=
  (bval (fld w 21 1 =? 1) (rf (v1 + row_of r c) (4 * (fld w 2 5 + m) + b)) + s9 (fld w 12 9)) *
  (bval (fld w 31 1 =? 1) (rf (v3 + m) (4 * word_of r c + b)) + s9 (fld w 22 9)).
Definition conv_sum (w : Z) (rf : vregs) (v1 v3 r c : Z) : Z :=
  sum (Z.to_nat (conv_len w)) (fun m => sum 4 (fun b => conv_term w rf v1 v3 r c m b)).

(** Accumulator cells are 32-bit words. *)
Definition acc_wf (acc : Z -> Z -> Z) : Prop :=
  forall r c, 0 <= r < 8 -> 0 <= c < 8 -> 0 <= acc r c < 2 ^ 32.
Definition dw_wf (d : Z -> Z) : Prop := forall t, 0 <= t < 32 -> 0 <= d t < 2 ^ 32.

(** ** adwconv / vdwconv: command word
    sparsity[3:2] regbase[7:4] bias1[20:12] signed1[21] bias2[30:22] signed2[31]. *)
Definition dw_regs (regbase : Z) : Z * Z * Z :=
  nth (Z.to_nat regbase)
    [(0,1,2); (1,2,3); (2,3,4); (3,4,5); (4,5,6); (5,6,7); (6,7,8); (1,0,2);
     (1,2,0); (3,4,0); (5,6,0); (7,8,0); (2,0,1); (4,0,1); (6,0,1); (8,0,1)] (0,0,0).
(** Byte [i] of activation vector [r]: in mode 0 the three selected registers; in
    mode 1 the three 8-word windows of (last word of the first, second, first
    word of the third); in mode 2 the three windows of (first, second). *)
Definition dw_act (rf : vregs) (v1 w r i : Z) : Z :=
  let '(x, y, z) := dw_regs (fld w 4 4) in
  let p := 4 * r + i in
  match fld w 2 2 with
  | 0 => rf (v1 + (if r =? 0 then x else if r =? 1 then y else z)) i
  | 1 => if p <? 4 then rf (v1 + x) (28 + p)
         else if p <? 36 then rf (v1 + y) (p - 4) else rf (v1 + z) (p - 36)
  | _ => if p <? 32 then rf (v1 + x) p else rf (v1 + y) (p - 32)
  end.
Definition dw_prod (rf : vregs) (v1 v3 w r i : Z) : Z :=
  (bval (fld w 21 1 =? 1) (dw_act rf v1 w r i) + s9 (fld w 12 9)) *
  (bval (fld w 31 1 =? 1) (rf (v3 + r) i) + s9 (fld w 22 9)).
(** The accumulator word of byte lane [i]. *)
Definition dw_lane (i : Z) : Z := 8 * swap12 (i mod 4) + i / 4.
(** Signed reading of a 32-bit word. *)
Definition s32 (u : Z) : Z := if u <? 2 ^ 31 then u else u - 2 ^ 32.
Definition dw_after (rf : vregs) (v1 v3 w : Z) (d : Z -> Z) (n : nat) (i : Z) : Z :=
  s32 (d (dw_lane i)) + sum n (fun r => dw_prod rf v1 v3 w r i).
(** No accumulator lane leaves the int32 range at any of the three additions. *)
Definition dw_fits (rf : vregs) (v1 v3 w : Z) (d : Z -> Z) : Prop :=
  forall i n, 0 <= i < 32 -> (1 <= n <= 3)%nat ->
  - 2 ^ 31 <= dw_after rf v1 v3 w d n i < 2 ^ 31.

(** Word [c] of register [r]. *)
Definition rword (rf : vregs) (r c : Z) : Z := uval 4 (rf r) (4 * c).
(** Registers outside the [n] from [vd] are untouched. *)
Definition regs_outside (vd n : Z) (rf rf' : vregs) : Prop :=
  forall r, ~ (vd <= r < vd + n) -> rf' r = rf r.
