(** * A kernel run through the Renode interface: notions of C78 and C79 *)
From Coq Require Import ZArith List String.
From Verif Require Import CInt VecSpec MachSpec RenodeModel.
Import ListNotations.
Open Scope Z_scope.

(** A call as its documentation asks for it: name buffers of the announced length (at
    most [max]), a status pointer where one is required, unsigned 64-bit counts. *)
Definition proper_call {File Blocks} (max : Z) (k : call File Blocks) : Prop :=
  match k with
  | Construct m _ => 0 <= m <= max
  | RegInfo _ _ cap info => info = false \/ (max <= cap /\ 1 <= cap)
  | LoadExecutable _ _ st => st = true
  | Step _ n _ => 0 <= n < 2 ^ 64
  | _ => True
  end.

(** The bytes of a list of words, little-endian. *)
Definition le_bytes (l : list Z) : list Z := flat_map (fun w => map (fun j => (w / 256 ^ j) mod 256) [0; 1; 2; 3]) l.
(** A list as memory from address 0. *)
Definition listed (l : list Z) (x : Z) : Z := nth (Z.to_nat x) l 0.
(** The calls of a host that runs the kernel of C73 on the arrays [la] and [lb]:
    [va], [vb], [vo] are the pointers as the program gets them, [r10] ... [rp] the
    interface's numbers of x10, x11, x12, x14 and pc. *)
Definition job {File Blocks} (max k op p : Z) (a b out va vb vo n : Z) (la lb : list Z) (r10 r11 r12 r14 rp : Z) (count len : Z) : list (call File Blocks) :=
  [Construct max None; WriteMem 0 p (le_bytes (kernel k op)); WriteMem 0 a la; WriteMem 0 b lb;
   WriteReg 0 r10 va; WriteReg 0 r11 vb; WriteReg 0 r12 n; WriteReg 0 r14 vo; WriteReg 0 rp p;
   Step 0 count true; ReadMem 0 out len].
Section Names.
  Variable reg_id : string -> option Z.
  Variable reg_size : Z -> Z.
  Variable names : Z -> option string.
  (** Number [r] of the interface is the simulator's 32-bit register [i]. *)
  Definition numbered (r i : Z) : Prop :=
    exists n, names (r mod 2 ^ 32) = Some n /\ n <> "pc"%string /\ reg_id n = Some i /\ reg_size i = 4.
  Definition numbered_pc (r : Z) : Prop :=
    names (r mod 2 ^ 32) = Some "pc"%string /\ exists i, reg_id "pc" = Some i /\ reg_size i = 4.
End Names.
(** The bytes from [a] and those from [b] do not overlap. *)
Definition disjoint (a na b nb : Z) : Prop := a + na <= b \/ b + nb <= a.
