(** * Specification of a matrix product on the V1 machine *)
From Coq Require Import ZArith List Bool.
From Verif Require Import CInt VecModel VecSpec ConvModel ConvSpec.
Import ListNotations.
Open Scope Z_scope.

(** The program: [x9] holds the command of aconv, [x10] and [x11] the addresses of the two
    factors, [x12] the number of tiles, [x14] the address of the product.
<<
          vcget       v48             ; clear the accumulators
    loop: vld.b.p.x.m v0,  x10
          vld.b.p.x.m v4,  x10
          vld.b.p.x.m v32, x11
          vld.b.p.x.m v36, x11
          aconv       v48, v0, x9, v32
          addi        x12, x12, -1
          bne         x12, x0, loop
          vcget       v48
          vst.b.p.x.m v48, x14
          vst.b.p.x.m v52, x14
          mpause
>> *)
Definition mat_kernel : list Z :=
  [0x50000c1f; 0x1005003f; 0x1005013f; 0x1005883f; 0x1005893f; 0x80902c05; 0xfff60613; 0xfe0614e3;
   0x50000c1f; 0x30070c3f; 0x30070d3f; 0x08000073].
(** A command that takes all eight registers, with any biases and signs. *)
Definition mat_command (c : Z) : Prop := fld c 0 2 = 0 /\ fld c 2 5 = 0 /\ fld c 7 5 = 7.

(** The left factor: 8 rows, stored as tiles of 32 columns, each row by row. *)
Definition mat_left (c : Z) (m : Z -> Z) (a i k : Z) : Z :=
  bval (fld c 21 1 =? 1) (m (a + 256 * (k / 32) + 32 * i + k mod 32)) + s9 (fld c 12 9).
(** The right factor: 8 columns, stored as tiles of 32 rows, four rows at a time, the four
    bytes of a column together. *)
Definition mat_right (c : Z) (m : Z -> Z) (b k j : Z) : Z :=
  bval (fld c 31 1 =? 1) (m (b + 32 * (k / 4) + 4 * j + k mod 4)) + s9 (fld c 22 9).
(** Entry (i,j) of the product of [n] tiles. *)
Definition mat_cell (c : Z) (m : Z -> Z) (a b n i j : Z) : Z :=
  sum (Z.to_nat (32 * n)) (fun k => mat_left c m a i k * mat_right c m b k j).
(** Where the product has entry (i,j). *)
Definition mat_place (i j : Z) : Z := 32 * (4 * (i / 4) + swap12 (j mod 4)) + 4 * (2 * (i mod 4) + j / 4).
