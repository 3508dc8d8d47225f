(** * The V2 core on registers and memory: property C91 *)
From Coq Require Import ZArith List Bool String Lia ZifyBool ZifyNat.
From Verif Require Import CInt VecModel VecSpec MemModel V2DecTypes V2Table V2Model V2Spec V2DecModel V2DecSpec V1ScalSpec.
From Verif Require Import TopModel MachModel RvSpec V2MachModel V2MachSpec PropV2Dec.
From Verif Require V2MachProofs V2MachProofs2.
Import ListNotations.
Open Scope string_scope.
Open Scope list_scope.
Open Scope Z_scope.

Section C91.
  Context {C : Type}.
  Notation arch := (arch (C := C)).
  Variable d : decoder2.
  Variable trap : Z -> Z -> C -> C * Z.
  Variable other : act -> Z -> arch -> arch * Z.
  Variable vmem : act -> v2st C -> v2st C.
  Variable box : Z -> Z.
  Variable start len : Z.
  Variable ranges : list range.
  Notation step := (step2 d trap other vmem box start len ranges).
  Notation run := (run2 d trap other vmem box start len ranges).

  Definition rd (w : Z) : Z := at_ w 7 5.

  (** ** One instruction *)
  (** Computations of RV32IM write the manual's result to rd and nothing else. *)
  Theorem C91_computation : forall m s P x y, let w := word_in (v_mem s) (v_pc s) in
    decoder2_ok d -> itcm_ok start len -> inside start len (v_pc s) -> proper2 m w -> lookup (m_name m) op_specs = Some P -> values m w (a_regs (v_arch s)) [x; y] ->
    let t := step s in
    v_mem t = v_mem s /\ v_pc t = (v_pc s + 4) mod 2 ^ 32 /\ a_csr (v_arch t) = a_csr (v_arch s) /\
    writes (rd w) (P (x mod 2 ^ 32) (y mod 2 ^ 32)) (v_arch s) (v_arch t).
  Proof. exact (V2MachProofs.v2_op d trap other vmem box start len ranges). Qed.
  Theorem C91_branch : forall m s P x y i, let w := word_in (v_mem s) (v_pc s) in
    decoder2_ok d -> itcm_ok start len -> inside start len (v_pc s) -> proper2 m w -> lookup (m_name m) branch_specs = Some P -> values m w (a_regs (v_arch s)) [x; y; i] ->
    let t := step s in
    v_mem t = v_mem s /\ v_arch t = v_arch s /\
    (P (x mod 2 ^ 32) (y mod 2 ^ 32) -> v_pc t = (v_pc s + i) mod 2 ^ 32) /\ (~ P (x mod 2 ^ 32) (y mod 2 ^ 32) -> v_pc t = (v_pc s + 4) mod 2 ^ 32).
  Proof. exact (V2MachProofs.v2_branch d trap other vmem box start len ranges). Qed.
  Theorem C91_jump : forall m s vs, let w := word_in (v_mem s) (v_pc s) in let a := v_pc s in
    decoder2_ok d -> itcm_ok start len -> inside start len a -> proper2 m w -> values m w (a_regs (v_arch s)) vs ->
    forall v pc, In (m_name m, v, pc) (match vs with
      | [i] => [("jal", a + 4, a + i); ("lui", i, a + 4); ("auipc", a + i, a + 4)]
      | [x; i] => [("jalr", a + 4, (x + i) - (x + i) mod 2)]
      | _ => [] end) ->
    let t := step s in
    v_mem t = v_mem s /\ a_csr (v_arch t) = a_csr (v_arch s) /\ v_pc t = pc mod 2 ^ 32 /\ writes (rd w) (fun r => RvSpec.low r v) (v_arch s) (v_arch t).
  Proof. exact (V2MachProofs.v2_jump d trap other vmem box start len ranges). Qed.
  (** Loads and stores: the manual's effect if a range contains the bytes, else trap 5
      or 7 and nothing else. *)
  Theorem C91_load : forall m s T x i, let w := word_in (v_mem s) (v_pc s) in let at_ := (x + i) mod 2 ^ 32 in
    decoder2_ok d -> itcm_ok start len -> inside start len (v_pc s) -> proper2 m w -> lookup (m_name m) load_specs = Some T -> values m w (a_regs (v_arch s)) [x; i] ->
    (forall b, 0 <= v_mem s b < 256) -> V2Spec.low ranges -> at_ + bits T / 8 < 2 ^ 32 ->
    let t := step s in
    (contained ranges at_ (bits T / 8) -> v_mem t = v_mem s /\ goes_on s t /\ writes (rd w) (reads T (v_mem s) at_) (v_arch s) (v_arch t)) /\
    (~ contained ranges at_ (bits T / 8) -> traps trap 5 s t).
  Proof. exact (V2MachProofs.v2_load d trap other vmem box start len ranges). Qed.
  Theorem C91_store : forall m s T x i y, let w := word_in (v_mem s) (v_pc s) in let at_ := (x + i) mod 2 ^ 32 in
    decoder2_ok d -> itcm_ok start len -> inside start len (v_pc s) -> proper2 m w -> lookup (m_name m) store_specs = Some T -> values m w (a_regs (v_arch s)) [x; i; y] ->
    V2Spec.low ranges -> at_ + bits T / 8 < 2 ^ 32 ->
    let t := step s in
    (contained ranges at_ (bits T / 8) -> v_arch t = v_arch s /\ goes_on s t /\ writes_mem T at_ y (v_mem s) (v_mem t)) /\
    (~ contained ranges at_ (bits T / 8) -> traps trap 7 s t).
  Proof. exact (V2MachProofs.v2_store d trap other vmem box start len ranges). Qed.
  Theorem C91_flw : forall m s i, let w := word_in (v_mem s) (v_pc s) in let at_ := (reg_at (a_regs (v_arch s)) w 15 + i) mod 2 ^ 32 in
    decoder2_ok d -> itcm_ok start len -> inside start len (v_pc s) -> proper2 m w -> m_name m = "flw" -> operand_is Iimm w (PImm i) ->
    (forall b, 0 <= v_mem s b < 256) -> V2Spec.low ranges -> at_ + 4 < 2 ^ 32 ->
    let t := step s in
    (contained ranges at_ 4 -> v_mem t = v_mem s /\ goes_on s t /\
      (forall r, r <> 64 + rd w -> a_regs (v_arch t) r = a_regs (v_arch s) r) /\
      exists v, reads I32 (v_mem s) at_ v /\ 0 <= v < 2 ^ 32 /\ a_regs (v_arch t) (64 + rd w) = box v) /\
    (~ contained ranges at_ 4 -> traps trap 5 s t).
  Proof. exact (V2MachProofs.v2_flw d trap other vmem box start len ranges). Qed.
  (** fsw stores four bytes and wants eight in range. *)
  Theorem C91_fsw : forall m s i, let w := word_in (v_mem s) (v_pc s) in let at_ := (reg_at (a_regs (v_arch s)) w 15 + i) mod 2 ^ 32 in
    decoder2_ok d -> itcm_ok start len -> inside start len (v_pc s) -> proper2 m w -> m_name m = "fsw" -> operand_is Simm w (PImm i) ->
    V2Spec.low ranges -> at_ + 8 < 2 ^ 32 ->
    let t := step s in
    (contained ranges at_ 8 -> v_arch t = v_arch s /\ goes_on s t /\ writes_mem U32 at_ (a_regs (v_arch s) (64 + V2DecSpec.at_ w 20 5)) (v_mem s) (v_mem t)) /\
    (~ contained ranges at_ 8 -> traps trap 7 s t).
  Proof. exact (V2MachProofs.v2_fsw d trap other vmem box start len ranges). Qed.
  (** Outside the instruction memory, and for words without an instruction: traps 1, 2. *)
  Theorem C91_fetch : forall s, itcm_ok start len -> 0 <= v_pc s < 2 ^ 32 -> ~ inside start len (v_pc s) -> traps trap 1 s (step s).
  Proof. intros s A B D. rewrite (V2MachProofs.step_out d trap other vmem box start len ranges s A B D). apply V2MachProofs.trap2_traps. Qed.
  Theorem C91_illegal : forall s, itcm_ok start len -> inside start len (v_pc s) -> rejected (word_in (v_mem s) (v_pc s)) -> decoder2_ok d -> traps trap 2 s (step s).
  Proof.
    intros s A B D E. rewrite (V2MachProofs.step_illegal d trap other vmem box start len ranges s A B (D d E)). apply V2MachProofs.trap2_traps.
  Qed.

  (** ** Whole runs *)
  (** While no vector load or store is fetched, bytes outside the ranges stay.
      Missing: vector accesses, which are not checked, and the last eight bytes of
      the address space. *)
  Theorem C91_confined_partial : forall n s b, decoder2_ok d -> itcm_ok start len -> V2Spec.low ranges -> 0 <= v_pc s < 2 ^ 32 ->
    (forall k, (k < n)%nat -> inside start len (v_pc (run k s)) -> plain (word_in (v_mem (run k s)) (v_pc (run k s)))) ->
    ~ in_ranges ranges b -> b < 2 ^ 32 - 8 -> v_mem (run n s) b = v_mem s b.
  Proof. exact (V2MachProofs2.confined d trap other vmem box start len ranges). Qed.
  (** If the instruction memory is in no range, what its words are at the start decides. *)
  Theorem C91_program_partial : forall s, decoder2_ok d -> itcm_ok start len -> V2Spec.low ranges -> 0 <= v_pc s < 2 ^ 32 ->
    (forall b, start <= b < start + len -> ~ in_ranges ranges b /\ b < 2 ^ 32 - 8) ->
    (forall a, inside start len a -> plain (word_in (v_mem s) a)) ->
    forall n b, ~ in_ranges ranges b -> b < 2 ^ 32 - 8 -> v_mem (run n s) b = v_mem s b.
  Proof. exact (V2MachProofs2.confined_program d trap other vmem box start len ranges). Qed.
  (** Nor do they see bytes outside the ranges and the instruction memory. *)
  Theorem C91_isolated_partial : forall n s t, decoder2_ok d -> itcm_ok start len -> V2Spec.low ranges -> 0 <= v_pc s < 2 ^ 32 ->
    (forall k, (k < n)%nat -> inside start len (v_pc (run k s)) -> plain (word_in (v_mem (run k s)) (v_pc (run k s)))) ->
    v_arch s = v_arch t -> v_pc s = v_pc t ->
    (forall b, in_ranges ranges b \/ 2 ^ 32 - 8 <= b \/ start <= b < start + len -> v_mem s b = v_mem t b) ->
    v_arch (run n s) = v_arch (run n t) /\ v_pc (run n s) = v_pc (run n t) /\
    forall b, in_ranges ranges b \/ 2 ^ 32 - 8 <= b \/ start <= b < start + len -> v_mem (run n s) b = v_mem (run n t) b.
  Proof. exact (V2MachProofs2.isolated d trap other vmem box start len ranges). Qed.
End C91.
Print Assumptions C91_computation.
Print Assumptions C91_branch.
Print Assumptions C91_jump.
Print Assumptions C91_load.
Print Assumptions C91_store.
Print Assumptions C91_flw.
Print Assumptions C91_fsw.
Print Assumptions C91_fetch.
Print Assumptions C91_illegal.
Print Assumptions C91_confined_partial.
Print Assumptions C91_program_partial.
Print Assumptions C91_isolated_partial.

(** ** Concrete cases *)
(** 64 bytes of instruction memory at 0, one range at 0x10000; the last trap is kept. *)
Definition e_trap (code epc : Z) (_ : Z * Z) : (Z * Z) * Z := ((code, epc), 0x40).
Definition e_step := step2 first_match2 e_trap (fun _ a x => (x, a + 4)) (fun _ s => s) (fun v => v + (2 ^ 32 - 1) * 2 ^ 32) 0 64 [(0x10000, 0x1000)].
Definition e_run := run2 first_match2 e_trap (fun _ a x => (x, a + 4)) (fun _ s => s) (fun v => v + (2 ^ 32 - 1) * 2 ^ 32) 0 64 [(0x10000, 0x1000)].
Fixpoint e_code (l : list Z) (a : Z) : Z -> Z :=
  match l with
  | [] => fun _ => 0
  | w :: l => fun b => if (a <=? b) && (b <? a + 4) then (w / 2 ^ (8 * (b - a))) mod 256 else e_code l (a + 4) b
  end.
Definition e_regs (l : list (Z * Z)) : Z -> Z := fun r => match List.find (fun p => fst p =? r) l with Some p => snd p | None => 0 end.
Definition e_st (words : list Z) (l : list (Z * Z)) : v2st (Z * Z) := V2S (Arch (e_regs l) (0, 0)) (e_code words 0) 0.
Definition xs2 (s : v2st (Z * Z)) (l : list Z) : list Z := map (a_regs (v_arch s)) l.
Definition shows2 (w : Z) (name : string) : bool := existsb (fun m => meetsb w (m_pat m)) (man name) && negb (existsb (meetsb w) holes).
Lemma meetsb_iff w p : meets_pat w p -> meetsb w p = true.
Proof.
  intros [A B]. unfold meetsb. rewrite andb_true_iff, !forallb_forall. split; intros [[lo n] v] H.
  - specialize (A lo n v H). lia.
  - specialize (B lo n v H). lia.
Qed.
Lemma shows_gen (l : list ment) hs w name : existsb (fun m => meetsb w (m_pat m)) (filter (fun m => String.eqb name (m_name m)) l) && negb (existsb (meetsb w) hs) = true ->
  exists m, (In m l /\ meets_pat w (m_pat m) /\ forall p, In p hs -> ~ meets_pat w p) /\ m_name m = name.
Proof.
  rewrite andb_true_iff, negb_true_iff. intros [A B]. apply existsb_exists in A as (m & Hm & A). apply filter_In in Hm as [Hm N].
  exists m. split; [|symmetry; now apply String.eqb_eq]. split; [exact Hm|]. split; [now apply meetsb_ok|]. intros p Hp Hq.
  apply meetsb_iff in Hq. assert (K : existsb (meetsb w) hs = true) by (apply existsb_exists; eauto). rewrite K in B. discriminate B.
Qed.
Lemma shows2_ok w name : shows2 w name = true -> exists m, proper2 m w /\ m_name m = name.
Proof. exact (shows_gen manual holes w name). Qed.
Example C91_places : itcm_ok 0 64 /\ V2Spec.low [(0x10000, 0x1000)] /\ decoder2_ok first_match2.
Proof. split; [unfold itcm_ok; lia|]. split; [|exact first_ok]. intros s l [H|[]]. injection H as <- <-. lia. Qed.
(** mulhu x5, x6, x7; blt x6, x7, 8; jal x1, 16; lui x5. *)
Example C91_computation_case : shows2 0x27332b3 "mulhu" = true /\
  (let s := e_step (e_st [0x27332b3] [(6, 2 ^ 32 - 20); (7, 3)]) in (v_pc s, xs2 s [5; 6; 7])) = (4, [2; 2 ^ 32 - 20; 3]) /\
  shows2 0x734463 "blt" = true /\ v_pc (e_step (e_st [0x734463] [(6, 2 ^ 32 - 20); (7, 3)])) = 8 /\ v_pc (e_step (e_st [0x734463] [(6, 20); (7, 3)])) = 4 /\
  shows2 0x10000ef "jal" = true /\ (let s := e_step (e_st [0x10000ef] []) in (v_pc s, xs2 s [1])) = (16, [4]) /\
  shows2 0x123452b7 "lui" = true /\ xs2 (e_step (e_st [0x123452b7] [])) [5] = [0x12345000].
Proof. repeat apply conj; vm_compute; reflexivity. Qed.
(** sh x7, -2(x6) then lh x5, -2(x6); with x6 = 0x10000 both are refused; fsw f3, 0(x6)
    four bytes before the end of the range is refused. *)
Example C91_memory_case : shows2 0xfe731f23 "sh" = true /\ shows2 0xffe31283 "lh" = true /\ shows2 0x332027 "fsw" = true /\ shows2 0x32187 "flw" = true /\
  (let s := e_run 2 (e_st [0xfe731f23; 0xffe31283] [(6, 0x10002); (7, 0x1234fedc)]) in (v_pc s, a_csr (v_arch s), xs2 s [5], map (v_mem s) [0xffff; 0x10000; 0x10001; 0x10002])) =
    (8, (0, 0), [0xfffffedc], [0; 0xdc; 0xfe; 0]) /\
  (let s := e_step (e_st [0xfe731f23] [(6, 0x10001); (7, 0x1234fedc)]) in (v_pc s, a_csr (v_arch s), map (v_mem s) [0xffff; 0x10000])) = (0x40, (7, 0), [0; 0]) /\
  (let s := e_step (e_st [0xffe31283] [(6, 0x10001)]) in (v_pc s, a_csr (v_arch s))) = (0x40, (5, 0)) /\
  (let s := e_step (e_st [0x332027] [(6, 0x10ffc); (67, 9)]) in (v_pc s, a_csr (v_arch s), v_mem s 0x10ffc)) = (0x40, (7, 0), 0) /\
  (let s := e_run 2 (e_st [0x332027; 0x32187] [(6, 0x10ff8); (67, 7 * 2 ^ 32 + 9)]) in (v_pc s, v_mem s 0x10ff8, v_mem s 0x10ffc, xs2 s [67])) = (8, 9, 0, [(2 ^ 32 - 1) * 2 ^ 32 + 9]).
Proof. repeat apply conj; vm_compute; reflexivity. Qed.
(** The instruction after the last one; the all-zero word. *)
Example C91_fetch_case : (let s := e_run 2 (e_st [0x40000067] []) in (v_pc s, a_csr (v_arch s))) = (0x40, (1, 0x400)) /\
  (let s := e_step (e_st [0] []) in (v_pc s, a_csr (v_arch s))) = (0x40, (2, 0)).
Proof. split; vm_compute; reflexivity. Qed.
Lemma plain_dec w : (at_ w 12 3 =? 2) || negb (at_ w 0 7 =? 7) && negb (at_ w 0 7 =? 39) = true -> plain w.
Proof. unfold plain. intros H K. lia. Qed.
(** The program of C91_memory_case in front of zeros. *)
Lemma e_code_aligned : forallb (fun a => let w := word_in (e_code [0xfe731f23; 0xffe31283] 0) (Z.of_nat a) in
  (at_ w 12 3 =? 2) || negb (at_ w 0 7 =? 7) && negb (at_ w 0 7 =? 39)) (seq 0 61) = true.
Proof. vm_compute. reflexivity. Qed.
Example C91_program_case : let s := e_st [0xfe731f23; 0xffe31283] [(6, 0x10002); (7, 0x1234fedc)] in
  0 <= v_pc s < 2 ^ 32 /\ (forall b, 0 <= b < 0 + 64 -> ~ in_ranges [(0x10000, 0x1000)] b /\ b < 2 ^ 32 - 8) /\
  (forall a, inside 0 64 a -> plain (word_in (v_mem s) a)) /\
  v_mem (e_run 2 s) 0x10000 <> v_mem s 0x10000.
Proof.
  cbv zeta. split; [cbn; lia|]. split; [|split].
  - intros b Hb. split; [|lia]. intros (x & l & [H|[]] & K). injection H as <- <-. lia.
  - intros a [A B]. apply plain_dec. pose proof (proj1 (forallb_forall _ _) e_code_aligned (Z.to_nat a)) as K. cbv beta zeta in K.
    rewrite Z2Nat.id in K by lia. apply K. apply in_seq. lia.
  - vm_compute. discriminate.
Qed.
(** Two memories that differ at 0x5000: the same loads and stores. *)
Example C91_isolated_case : let s := e_st [0xfe731f23; 0xffe31283] [(6, 0x10002); (7, 0x1234fedc)] in
  let t := V2S (v_arch s) (fun b => if b =? 0x5000 then 1 else v_mem s b) 0 in
  v_mem s 0x5000 <> v_mem t 0x5000 /\ xs2 (e_run 2 s) [5] = xs2 (e_run 2 t) [5] /\
  (let u := e_step (V2S (Arch (e_regs [(6, 0x5002)]) (0, 0)) (v_mem t) 4) in a_csr (v_arch u)) = (5, 4).
Proof. cbv zeta. split; [vm_compute; discriminate|]. split; vm_compute; reflexivity. Qed.
(** ** What fails *)
(** A store whose last byte is the last of the address space is in no range and done. *)
Theorem C91_confined_refuted : let s := e_st [0x732023] [(6, 2 ^ 32 - 4); (7, 5)] in
  decoder2_ok first_match2 /\ itcm_ok 0 64 /\ V2Spec.low [(0x10000, 0x1000)] /\ plain (word_in (v_mem s) 0) /\
  ~ in_ranges [(0x10000, 0x1000)] (2 ^ 32 - 4) /\ v_mem s (2 ^ 32 - 4) = 0 /\ v_mem (e_run 1 s) (2 ^ 32 - 4) = 5.
Proof.
  cbv zeta. split; [exact first_ok|]. split; [unfold itcm_ok; lia|]. split; [apply C91_places|]. split; [apply plain_dec; vm_compute; reflexivity|].
  split; [|split; vm_compute; reflexivity]. intros (x & l & [H|[]] & K). injection H as <- <-. lia.
Qed.
Print Assumptions C91_confined_refuted.
