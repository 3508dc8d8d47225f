(** * A copy loop on the V2 core: property C92 *)
From Coq Require Import ZArith List Bool String Lia ZifyBool ZifyNat.
From Verif Require Import CInt V2DecModel V2DecSpec V2Model V2Spec TopModel V2MachModel V2MachSpec V2CopySpec PropV2Dec PropV2Mach.
From Verif Require V2Copy.
Import ListNotations.
Open Scope list_scope.
Open Scope Z_scope.

Section C92.
  Context {C : Type}.
  Notation arch := (arch (C := C)).
  Variable d : decoder2.
  Variable trap : Z -> Z -> C -> C * Z.
  Variable other : act -> Z -> arch -> arch * Z.
  Variable vmem : act -> v2st C -> v2st C.
  Variable box : Z -> Z.
  Variable start len : Z.
  Variable ranges : list range.
  Notation run := (run2 d trap other vmem box start len ranges).

  (** For any number of bytes that the ranges contain: after six instructions per
      byte, the bytes are copied, and nothing else but x5, x10, x11, x12 has changed. *)
  Theorem C92_copies : forall p s src dst n, decoder2_ok d -> itcm_ok start len -> V2Spec.low ranges -> start <= p /\ p + 24 <= start + len ->
    at_copy p src dst n s -> places p src dst n -> (forall i, 0 <= i < n -> may_copy ranges src dst i) ->
    let t := run (6 * Z.to_nat n) s in
    v_pc t = p + 24 /\ a_csr (v_arch t) = a_csr (v_arch s) /\ keeps_others s t /\ copied (v_mem s) (v_mem t) src dst n.
  Proof. intros p s src dst n A B D E. exact (V2Copy.copies d trap other vmem box start len ranges p A B D E s src dst n). Qed.
  (** At the first source byte outside: trap 5 at the load, the bytes before copied. *)
  Theorem C92_source : forall p s src dst n k, decoder2_ok d -> itcm_ok start len -> V2Spec.low ranges -> start <= p /\ p + 24 <= start + len ->
    at_copy p src dst n s -> places p src dst n -> 0 <= k < n -> (forall i, 0 <= i < k -> may_copy ranges src dst i) -> ~ contained ranges (src + k) 1 ->
    let u := run (6 * Z.to_nat k) s in
    v_pc u = p /\ a_csr (v_arch u) = a_csr (v_arch s) /\ keeps_others s u /\ copied (v_mem s) (v_mem u) src dst k /\ traps trap 5 u (run (6 * Z.to_nat k + 1) s).
  Proof. intros p s src dst n k A B D E. exact (V2Copy.stops_at_source d trap other vmem box start len ranges p A B D E s src dst n k). Qed.
  (** At the first destination byte outside: trap 7 at the store. *)
  Theorem C92_destination : forall p s src dst n k, decoder2_ok d -> itcm_ok start len -> V2Spec.low ranges -> start <= p /\ p + 24 <= start + len ->
    at_copy p src dst n s -> places p src dst n -> 0 <= k < n -> (forall i, 0 <= i < k -> may_copy ranges src dst i) ->
    contained ranges (src + k) 1 -> ~ contained ranges (dst + k) 1 ->
    let u := run (6 * Z.to_nat k + 1) s in
    v_pc u = p + 4 /\ a_csr (v_arch u) = a_csr (v_arch s) /\ keeps_others s u /\ copied (v_mem s) (v_mem u) src dst k /\ traps trap 7 u (run (6 * Z.to_nat k + 2) s).
  Proof. intros p s src dst n k A B D E. exact (V2Copy.stops_at_destination d trap other vmem box start len ranges p A B D E s src dst n k). Qed.
End C92.
Print Assumptions C92_copies.
Print Assumptions C92_source.
Print Assumptions C92_destination.

(** ** Concrete cases: the machine of C91, code at 8, data at the end of its range *)
Definition f_mem : Z -> Z := fun b => if b <? 32 then e_code copy_words 8 b else b mod 256.
Definition f_st (src dst n : Z) : v2st (Z * Z) := V2S (Arch (e_regs [(10, src); (11, dst); (12, n); (7, 77)]) (0, 0)) f_mem 8.
Lemma f_bytes b : 0 <= f_mem b < 256.
Proof.
  unfold f_mem. destruct (b <? 32); [|apply Z.mod_pos_bound; lia]. unfold copy_words. cbn [e_code].
  repeat (match goal with |- context [if ?c then _ else _] => destruct c end; [apply Z.mod_pos_bound; lia|]). lia.
Qed.
Lemma f_at src dst n : at_copy 8 src dst n (f_st src dst n).
Proof.
  split; [reflexivity|]. split; [reflexivity|]. split; [reflexivity|]. split; [reflexivity|]. split; [|exact f_bytes].
  intros i H. do 6 (destruct i as [|i]; [vm_compute; reflexivity|]). lia.
Qed.
Lemma f_in a : 0x10000 <= a < 0x11000 -> contained [(0x10000, 0x1000)] a 1.
Proof. intros H. exists 0x10000, 0x1000. split; [now left|]. intros x Hx. lia. Qed.
Lemma f_out a : ~ 0x10000 <= a < 0x11000 -> ~ contained [(0x10000, 0x1000)] a 1.
Proof. intros H (s & l & [E|[]] & K). injection E as <- <-. specialize (K a ltac:(lia)). lia. Qed.
Example C92_copies_case :
  (itcm_ok 0 64 /\ V2Spec.low [(0x10000, 0x1000)] /\ at_copy 8 0x10005 0x10ffd 3 (f_st 0x10005 0x10ffd 3) /\ places 8 0x10005 0x10ffd 3 /\
   forall i, 0 <= i < 3 -> may_copy [(0x10000, 0x1000)] 0x10005 0x10ffd i) /\
  let t := e_run 18 (f_st 0x10005 0x10ffd 3) in
  (v_pc t, xs2 t [5; 7; 10; 11; 12], map (v_mem t) [0x10ffc; 0x10ffd; 0x10ffe; 0x10fff; 0x11000]) = (32, [7; 77; 0x10008; 0x11000; 0], [0xfc; 5; 6; 7; 0]).
Proof.
  split; [|vm_compute; reflexivity]. split; [apply C91_places|]. split; [apply C91_places|]. split; [apply f_at|].
  split; [unfold places; lia|]. intros i Hi. split; apply f_in; lia.
Qed.
(** The third source byte is outside. *)
Example C92_source_case :
  (at_copy 8 0x10ffe 0x10010 3 (f_st 0x10ffe 0x10010 3) /\ places 8 0x10ffe 0x10010 3 /\
   (forall i, 0 <= i < 2 -> may_copy [(0x10000, 0x1000)] 0x10ffe 0x10010 i) /\ ~ contained [(0x10000, 0x1000)] (0x10ffe + 2) 1) /\
  let t := e_run 13 (f_st 0x10ffe 0x10010 3) in
  (v_pc t, a_csr (v_arch t), xs2 t [5; 10; 11; 12], map (v_mem t) [0x10010; 0x10011; 0x10012]) = (0x40, (5, 8), [0xff; 0x11000; 0x10012; 1], [0xfe; 0xff; 0x12]).
Proof.
  split; [|vm_compute; reflexivity]. split; [apply f_at|]. split; [unfold places; lia|]. split; [intros i Hi; split; apply f_in; lia|apply f_out; lia].
Qed.
(** The second destination byte is outside. *)
Example C92_destination_case :
  (at_copy 8 0x10010 0x10fff 3 (f_st 0x10010 0x10fff 3) /\ places 8 0x10010 0x10fff 3 /\
   (forall i, 0 <= i < 1 -> may_copy [(0x10000, 0x1000)] 0x10010 0x10fff i) /\ contained [(0x10000, 0x1000)] (0x10010 + 1) 1 /\ ~ contained [(0x10000, 0x1000)] (0x10fff + 1) 1) /\
  let t := e_run 8 (f_st 0x10010 0x10fff 3) in
  (v_pc t, a_csr (v_arch t), xs2 t [5; 10; 11; 12], map (v_mem t) [0x10fff; 0x11000]) = (0x40, (7, 12), [0x11; 0x10011; 0x11000; 2], [0x10; 0]).
Proof.
  split; [|vm_compute; reflexivity]. split; [apply f_at|]. split; [unfold places; lia|]. split; [intros i Hi; split; apply f_in; lia|]. split; [apply f_in; lia|apply f_out; lia].
Qed.
