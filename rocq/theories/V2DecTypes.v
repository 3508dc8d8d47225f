(** * V2 instruction encodings: formats, constraints, table rows

    Types of the formats and rows of V2Table.v, which tools/gen_v2.py transcribes
    from /repo/sim/coralnpu_v2.bin_fmt and coralnpu_v2.isa. *)
From Coq Require Export ZArith String List Bool.
Import ListNotations.
Open Scope string_scope.
Open Scope Z_scope.

(** The instruction formats, coralnpu_v2.bin_fmt 44-272. *)
Inductive fmt2 :=
| GInst32 | GR | GRS | GR4 | GI | GS | GB | GU | GJ | GFence | GA | GF12 | GZicbop
| GMopR | GMopRR | GVMem | GVArith | GVConfig.
(** Pieces of an overlay: a whole field, the bits [hi..lo] of a field, [w] literal
    bits of value [v]. *)
Inductive piece := PFld (f : string) | PSl (f : string) (hi lo : Z) | PLit (w v : Z).
(** Constraints ==, !=, > and < on a field or overlay. *)
Inductive con2 := Ceq (f : string) (v : Z) | Cne (f : string) (v : Z) | Cgt (f : string) (v : Z) | Clt (f : string) (v : Z).
(** A semantic function and its bound arguments.  Names are relative to
    mpact::sim::riscv; those of coralnpu::sim start with "coralnpu::". *)
Inductive fn2 := Fn (name : string) (args : list Z).
(** A row: opcode, format, constraints, source and destination operands, the
    operands of the child instruction, semantic functions (of the instruction and
    its child), mnemonic of the disassembly. *)
Record entry2 := E2 {
  e2_name : string; e2_fmt : fmt2; e2_cons : list con2;
  e2_src : list string; e2_dst : list string; e2_child : option (list string * list string);
  e2_sem : list fn2; e2_dis : string }.
