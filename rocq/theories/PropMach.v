(** * The V1 machine: properties C70-C74 *)
From Coq Require Import ZArith List Bool String Lia ZifyBool ZifyNat.
From Verif Require Import CInt LaneSpec VecModel VecSpec ConvModel ConvSpec MemModel MemSpec LogModel LogSpec.
From Verif Require Import DecodeTypes DecodeTable DecodeModel DecodeSpec V2DecTypes V2DecModel V2DecSpec V1ScalModel V1ScalSpec.
From Verif Require Import TopModel TopSpec CliSpec MachModel MachSpec RvSpec.
From Verif Require MachProofs2 MachProofs4 MachProofs5 MachProofs6 PropV2Dec PropDecode.
Import ListNotations.
Open Scope string_scope.
Open Scope list_scope.
Open Scope Z_scope.

(** ** A machine for the examples *)
Definition m_sys (c : act) (a : Z) (s : arch (C := core unit)) (m : Z -> Z) := (s, m, (a + 4) mod 2 ^ 32, @None Z).
Definition m_exec : Z -> Z -> arch (C := core unit) -> (Z -> Z) -> effect :=
  exec1 first_match (fun _ => None) m_sys (fun _ _ _ => 170) (fun _ => 0).
(** x<r> is 16 * r + 3 but x0, byte j of v<r> is 5 * r + j. *)
Definition m_regs (l : list (Z * Z)) (i : Z) : Z :=
  match List.find (fun p => fst p =? i) l with
  | Some (_, v) => v
  | None => if i <=? 0 then 0 else if i <? 64 then 16 * i + 3 else le (fun j => 5 * (i - 64) + j) 0 32
  end.
Definition m_arch0 (l : list (Z * Z)) : arch (C := core unit) := Arch (m_regs l) (Core unit (fun _ _ => 7) None (LS [] [] []) 0 false tt).
Definition m_bytes (x : Z) : Z := (13 * x + 200) mod 256.
Definition xs (f : effect (C := core unit)) (l : list Z) : list Z := map (a_regs (f_arch f)) l.
Definition properb (n : nat) (w : Z) : bool :=
  match nth_error manual1 n with
  | Some m => PropV2Dec.meetsb w (m_pat m) && ((0 <=? w) && (w <? 2 ^ 32)) && negb (w =? stray1) &&
              forallb (fun p => negb (PropV2Dec.meetsb w p)) holes1
  | None => false
  end.
Lemma meetsb_no w p : PropV2Dec.meetsb w p = false -> ~ meets_pat w p.
Proof.
  intros H [A B]. assert (PropV2Dec.meetsb w p = true); [|congruence]. unfold PropV2Dec.meetsb. apply andb_true_iff. split; apply forallb_forall; intros [[lo n] v] Hi.
  - apply Z.eqb_eq. now apply A.
  - apply negb_true_iff, Z.eqb_neq. now apply B.
Qed.
Lemma properb_ok n w m : nth_error manual1 n = Some m -> properb n w = true -> proper m w.
Proof.
  unfold properb. intros E. rewrite E. intros H. rewrite !andb_true_iff in H. destruct H as [[[H1 [H2 H3]] H4] H5].
  split; [now apply nth_error_In in E|]. split; [apply PropV2Dec.meetsb_ok; exact H1|]. split; [unfold V2DecSpec.word; lia|]. split; [lia|].
  intros p Hp. apply meetsb_no. apply negb_true_iff. exact (proj1 (forallb_forall _ _) H5 p Hp).
Qed.
(** Entry [n] of the manual takes the word; its name and the values of its operands. *)
Definition operands_are (w : Z) (x : Z -> Z) (ks : list V2DecSpec.kind) (vs : list Z) : bool :=
  (length ks =? length vs)%nat && forallb (fun p => match fst p with
    | KX lo => snd p =? reg_at x w lo
    | KImm a b z l => (a <=? snd p) && (snd p <? b) && (snd p mod 2 ^ z =? 0) && forallb (fun t => let '(i, j, n) := t in at_ (snd p) i n =? at_ w j n) l
    | _ => false end) (combine ks vs).
Lemma operands_ok m w x vs : operands_are w x (m_src m) vs = true -> values m w x vs.
Proof.
  unfold operands_are, values. generalize (m_src m) as ks. intros ks H. apply andb_true_iff in H as [L H]. apply Nat.eqb_eq in L. revert vs L H.
  induction ks as [|k ks IH]; intros [|v vs] L H; try discriminate; [constructor|]. cbn [combine forallb fst snd] in H. apply andb_true_iff in H as [H1 H2].
  constructor; [|apply IH; [now injection L|exact H2]]. destruct k; try discriminate H1; cbn [value operand_is].
  - now apply Z.eqb_eq.
  - rewrite !andb_true_iff in H1. destruct H1 as [[[A B] C] K]. exists v. split; [reflexivity|]. split; [lia|]. split; [lia|].
    intros i j n Hi. pose proof (proj1 (forallb_forall _ _) K _ Hi) as E. cbv beta iota in E. now apply Z.eqb_eq.
Qed.
Definition shows (n : nat) (w : Z) (x : Z -> Z) (name : string) (vs : list Z) : bool :=
  match nth_error manual1 n with Some m => properb n w && String.eqb (m_name m) name && operands_are w x (m_src m) vs | None => false end.
Lemma shows_ok n w x name vs : shows n w x name vs = true -> exists m, proper m w /\ m_name m = name /\ values m w x vs.
Proof.
  unfold shows. destruct (nth_error manual1 n) as [m|] eqn:E; [|discriminate]. intros H. rewrite !andb_true_iff in H. destruct H as [[H1 H2] H3].
  exists m. split; [apply (properb_ok n); assumption|]. split; [apply String.eqb_eq; exact H2|apply operands_ok; exact H3].
Qed.

Section Mach.
  Context {S : Type}.
  Notation arch := (arch (C := core S)).
  Variable d : decoder.
  Variable zbb : Z -> option act.
  Variable sys : act -> Z -> arch -> (Z -> Z) -> arch * (Z -> Z) * Z * option Z.
  Variable junk : Z -> Z -> vbytes.
  Variable ljunk : Z -> Z.
  Notation exec := (exec1 d zbb sys junk ljunk).
  (** The destination field of a scalar word. *)
  Definition rd (w : Z) : Z := at_ w 7 5.
  (** Nothing of the core changes but registers. *)
  Definition kept (s s' : arch) : Prop :=
    k_acc (a_csr s') = k_acc (a_csr s) /\ k_dw (a_csr s') = k_dw (a_csr s) /\ k_log (a_csr s') = k_log (a_csr s) /\
    k_wrong (a_csr s') = k_wrong (a_csr s) /\ k_sys (a_csr s') = k_sys (a_csr s).

  (** ** C70: scalar instructions
      [proper m w]: the word of an instruction of the manual (all but the words of C63).
      Missing: those words, and the contract that the functions of mpact-riscv compute
      what the manual says is the model's (MachModel.v). *)
  Theorem C70_computation_partial m w a s mem P x y : decoder_ok d -> proper m w -> lookup (m_name m) op_specs = Some P -> values m w (a_regs s) [x; y] ->
    let f := exec w a s mem in
    f_mem f = mem /\ f_pc f = (a + 4) mod 2 ^ 32 /\ f_halt f = None /\ kept s (f_arch f) /\
    writes (rd w) (P (x mod 2 ^ 32) (y mod 2 ^ 32)) s (f_arch f).
  Proof. exact (MachProofs5.rv_op d zbb sys junk ljunk m w a s mem P x y). Qed.
  Theorem C70_branch_partial m w a s mem P x y i : decoder_ok d -> proper m w -> lookup (m_name m) branch_specs = Some P -> values m w (a_regs s) [x; y; i] ->
    let f := exec w a s mem in
    f_mem f = mem /\ f_halt f = None /\ kept s (f_arch f) /\ a_regs (f_arch f) = a_regs s /\
    (P (x mod 2 ^ 32) (y mod 2 ^ 32) -> f_pc f = (a + i) mod 2 ^ 32) /\ (~ P (x mod 2 ^ 32) (y mod 2 ^ 32) -> f_pc f = (a + 4) mod 2 ^ 32).
  Proof. exact (MachProofs5.rv_branch d zbb sys junk ljunk m w a s mem P x y i). Qed.
  (** jal and jalr link and jump, jalr to an even address; lui and auipc. *)
  Theorem C70_jump_partial m w a s mem vs : decoder_ok d -> proper m w -> values m w (a_regs s) vs ->
    forall v pc, In (m_name m, v, pc) (match vs with
      | [i] => [("jal", a + 4, a + i); ("lui", i, a + 4); ("auipc", a + i, a + 4)]
      | [x; i] => [("jalr", a + 4, (x + i) - (x + i) mod 2)]
      | _ => [] end) ->
    let f := exec w a s mem in
    f_mem f = mem /\ f_halt f = None /\ kept s (f_arch f) /\ f_pc f = pc mod 2 ^ 32 /\ writes (rd w) (fun r => low r v) s (f_arch f).
  Proof. exact (MachProofs5.rv_jump d zbb sys junk ljunk m w a s mem vs). Qed.
  Theorem C70_load_partial m w a s mem T x i : decoder_ok d -> proper m w -> lookup (m_name m) load_specs = Some T -> values m w (a_regs s) [x; i] ->
    (forall b, 0 <= mem b < 256) ->
    let f := exec w a s mem in let at_ := (x + i) mod 2 ^ 32 in
    f_mem f = mem /\ f_pc f = (a + 4) mod 2 ^ 32 /\ kept s (f_arch f) /\
    (at_ < top_address -> f_halt f = None /\ writes (rd w) (reads T mem at_) s (f_arch f)) /\
    (top_address <= at_ -> f_halt f = Some RUserRequest /\ a_regs (f_arch f) = a_regs s).
  Proof. exact (MachProofs6.rv_load d zbb sys junk ljunk m w a s mem T x i). Qed.
  Theorem C70_store_partial m w a s mem T x i y : decoder_ok d -> proper m w -> lookup (m_name m) store_specs = Some T -> values m w (a_regs s) [x; i; y] ->
    let f := exec w a s mem in let at_ := (x + i) mod 2 ^ 31 in
    a_regs (f_arch f) = a_regs s /\ f_pc f = (a + 4) mod 2 ^ 32 /\ kept s (f_arch f) /\
    (at_ < top_address -> f_halt f = None /\ writes_mem T at_ y mem (f_mem f)) /\
    (top_address <= at_ -> f_halt f = Some RUserRequest /\ f_mem f = mem).
  Proof. exact (MachProofs6.rv_store d zbb sys junk ljunk m w a s mem T x i y). Qed.

  (** ** C71: what ends a run *)
  (** A word neither the tables nor Zbb have. *)
  Theorem C71_illegal w a s mem : decode1 d w = None -> zbb w = None ->
    let f := exec w a s mem in
    f_halt f = Some RUserRequest /\ f_mem f = mem /\ f_pc f = (a + 4) mod 2 ^ 32 /\ a_regs (f_arch f) = a_regs s /\ kept s (f_arch f).
  Proof. exact (MachProofs6.illegal_halts d zbb sys junk ljunk w a s mem). Qed.
  Theorem C71_mpause w a s mem : decoder_ok d -> w = 0x08000073 ->
    let f := exec w a s mem in
    f_halt f = Some RUserRequest /\ f_mem f = mem /\ f_pc f = (a + 4) mod 2 ^ 32 /\ a_regs (f_arch f) = a_regs s /\ kept s (f_arch f).
  Proof. exact (MachProofs6.rv_mpause d zbb sys junk ljunk w a s mem). Qed.
  (** Of the other scalar instructions only loads, stores, flog and klog can end it, and
      these only by their address. *)
  Theorem C71_quiet m w a s mem : decoder_ok d -> proper m w -> ~ In (m_name m) halting -> a_regs s 0 = 0 -> acc_wf (k_acc (a_csr s)) ->
    f_halt (exec w a s mem) = None.
  Proof. exact (MachProofs6.quiet d zbb sys junk ljunk m w a s mem). Qed.
  Theorem C71_log m w a s mem x : decoder_ok d -> proper m w -> In (m_name m) ["flog"; "klog"] -> values m w (a_regs s) [x] ->
    f_halt (exec w a s mem) <> None -> f_halt (exec w a s mem) = Some RUserRequest /\ top_address <= x mod 2 ^ 32.
  Proof. exact (MachProofs6.rv_log d zbb sys junk ljunk m w a s mem x). Qed.
  (** A string that starts beyond memory ends the run, unless the conversion of what
      was read is undefined. *)
  Theorem C71_log_beyond m w a s mem x : decoder_ok d -> proper m w -> In (m_name m) ["flog"; "klog"] -> values m w (a_regs s) [x] ->
    top_address <= x mod 2 ^ 32 ->
    let f := exec w a s mem in k_wrong (a_csr (f_arch f)) = true \/ f_halt f = Some RUserRequest.
  Proof. exact (MachProofs6.rv_log_conv d zbb sys junk ljunk m w a s mem x). Qed.
  (** A vector instruction ends it exactly if it accesses an element beyond memory or
      is an aconv with a bad command. *)
  Theorem C71_vector w e a s m : decoder_ok d -> parse d w = Some e -> ~ is_scalar_op (e_sem e) -> a_regs s 0 = 0 -> acc_wf (k_acc (a_csr s)) ->
    let f := exec w a s m in
    (faults w (e_name e) s -> f_halt f = Some RUserRequest) /\ (~ faults w (e_name e) s -> f_halt f = None).
  Proof. exact (MachProofs6.vec_halts d zbb sys junk ljunk w e a s m). Qed.
  (** The reason tells nothing about the cause: a program that finishes and one that
      faults look the same. *)
  Theorem C71_cause_refuted w a s mem r : f_halt (exec w a s mem) = Some r -> r = RUserRequest.
  Proof. exact (MachProofs6.only_request d zbb sys junk ljunk w a s mem r). Qed.

  (** ** C74: vector instructions on the machine *)
  Theorem C74_elementwise w e a s m o T sc st :
    decoder_ok d -> parse d w = Some e -> meaning (e_name e) = Some (SmVec (VEl o T) sc st) -> a_regs s 0 = 0 ->
    let N := if w_m w then 4 else 1 in
    let f := exec w a s m in
    let p k i := lane T (vbyte s (f_vs1 w + k)) i in
    let q k i := if w_form w =? 2 then trunc T (a_regs s (f_xs2 w)) else lane T (vbyte s (f_vs2 w + k)) i in
    no_hazard N (f_vd w) (f_vs1 w) -> (w_form w <> 2 -> no_hazard N (f_vd w) (f_vs2 w)) ->
    (forall k i, 0 <= k < N -> 0 <= i < nlanes T -> lane_pre o T (p k i) (q k i)) ->
    f_mem f = m /\ f_pc f = (a + 4) mod 2 ^ 32 /\ f_halt f = None /\ kept s (f_arch f) /\
    (forall i, i < 64 -> a_regs (f_arch f) i = a_regs s i) /\
    (forall r j, 0 <= r -> ~ (f_vd w <= r < f_vd w + N) -> 0 <= j < 32 -> vbyte (f_arch f) r j = vbyte s r j) /\
    forall k i, 0 <= k < N -> 0 <= i < nlanes T ->
      lane_spec o T (lane T (vbyte s (f_vd w + k)) i) (p k i) (q k i) (lane (dst_ty o T) (vbyte (f_arch f) (f_vd w + k)) i).
  Proof. exact (MachProofs2.mach_elementwise d zbb sys junk ljunk w e a s m o T sc st). Qed.
  Theorem C74_load w e a s m T len stride st Tw stw :
    decoder_ok d -> parse d w = Some e -> meaning (e_name e) = Some (SmLd T len stride st Tw stw) -> a_regs s 0 = 0 ->
    let N := if w_m w then 4 else 1 in
    let o := operands w (e_name e) s len stride false in
    let f := exec w a s m in
    f_mem f = m /\ f_pc f = (a + 4) mod 2 ^ 32 /\ kept s (f_arch f) /\
    (exists x, post_spec T o false (a_regs s) x /\ forall i, i < 64 -> a_regs (f_arch f) i = x i) /\
    (over T o false -> f_halt f = Some RUserRequest /\ forall r j, 0 <= r -> 0 <= j < 32 -> vbyte (f_arch f) r j = vbyte s r j) /\
    (~ over T o false -> f_halt f = None /\
      (forall k j, 0 <= k < N -> 0 <= j < nlanes T ->
        lane T (vbyte (f_arch f) (f_vd w + k)) j =
        let n := k * nlanes T + j in
        if n <? nsel T o then trunc T (uval (Z.to_nat (lanebytes T)) m (eaddr T o false n)) else 0) /\
      (forall r j, 0 <= r -> ~ (f_vd w <= r < f_vd w + N) -> 0 <= j < 32 -> vbyte (f_arch f) r j = vbyte s r j)).
  Proof. exact (MachProofs2.mach_load d zbb sys junk ljunk w e a s m T len stride st Tw stw). Qed.
  Theorem C74_store w e a s m T len stride st quad :
    decoder_ok d -> parse d w = Some e ->
    meaning (e_name e) = Some (if quad : bool then SmStq T st else SmSt T len stride st) ->
    (quad = true -> len = false /\ stride = true) -> a_regs s 0 = 0 ->
    let o := operands w (e_name e) s len stride quad in
    let f := exec w a s m in
    f_pc f = (a + 4) mod 2 ^ 32 /\ kept s (f_arch f) /\
    (exists x, post_spec T o quad (a_regs s) x /\ forall i, i < 64 -> a_regs (f_arch f) i = x i) /\
    (forall r j, 0 <= r -> 0 <= j < 32 -> vbyte (f_arch f) r j = vbyte s r j) /\
    (over T o quad -> f_halt f = Some RUserRequest /\ f_mem f = m) /\
    (~ over T o quad -> f_halt f = None /\ stored T o quad (vbyte s) m (f_mem f)).
  Proof. exact (MachProofs2.mach_store d zbb sys junk ljunk w e a s m T len stride st quad). Qed.
  Theorem C74_conv w e a s m : decoder_ok d -> parse d w = Some e -> meaning (e_name e) = Some SmConv -> a_regs s 0 = 0 -> acc_wf (k_acc (a_csr s)) ->
    let f := exec w a s m in let c := a_regs s (f_xs2 w) in
    f_mem f = m /\ f_pc f = (a + 4) mod 2 ^ 32 /\ (forall i, i < 64 -> a_regs (f_arch f) i = a_regs s i) /\
    (forall r j, 0 <= r -> 0 <= j < 32 -> vbyte (f_arch f) r j = vbyte s r j) /\
    k_dw (a_csr (f_arch f)) = k_dw (a_csr s) /\ k_wrong (a_csr (f_arch f)) = k_wrong (a_csr s) /\ k_sys (a_csr (f_arch f)) = k_sys (a_csr s) /\
    (~ conv_legal c -> f_halt f = Some RUserRequest /\ k_acc (a_csr (f_arch f)) = k_acc (a_csr s)) /\
    (conv_legal c -> f_halt f = None /\ acc_wf (k_acc (a_csr (f_arch f))) /\
      forall r q, 0 <= r < 8 -> 0 <= q < 8 ->
        k_acc (a_csr (f_arch f)) r q = (k_acc (a_csr s) r q + conv_sum c (vbyte s) (f_vs1 w) (f_vs3 w) r q) mod 2 ^ 32).
  Proof. exact (MachProofs6.mach_conv d zbb sys junk ljunk w e a s m). Qed.

  (** ** C72: faults leave the state alone *)
  Theorem C72_scalar m w a s mem T vs : decoder_ok d -> proper m w -> (forall b, 0 <= mem b < 256) -> values m w (a_regs s) vs ->
    match vs with
    | [x; i] => lookup (m_name m) load_specs = Some T /\ top_address <= (x + i) mod 2 ^ 32
    | [x; i; y] => lookup (m_name m) store_specs = Some T /\ top_address <= (x + i) mod 2 ^ 31
    | _ => False
    end ->
    let f := exec w a s mem in
    f_halt f = Some RUserRequest /\ f_mem f = mem /\ a_regs (f_arch f) = a_regs s /\ kept s (f_arch f).
  Proof.
    intros Hd Hp Hm HV H f. destruct vs as [|x [|i [|y [|]]]]; try (now destruct H); destruct H as [H1 H2].
    - destruct (C70_load_partial m w a s mem T x i Hd Hp H1 HV Hm) as (A & _ & B & _ & C). destruct (C H2). unfold f. auto.
    - destruct (C70_store_partial m w a s mem T x i y Hd Hp H1 HV) as (A & _ & B & _ & C). destruct (C H2). unfold f. auto.
  Qed.
  (** Vector accesses: all but the pointer of an access with post-increment. *)
  Theorem C72_vector_partial w e a s m : decoder_ok d -> parse d w = Some e -> a_regs s 0 = 0 -> acc_wf (k_acc (a_csr s)) ->
    faults w (e_name e) s ->
    let f := exec w a s m in
    f_halt f = Some RUserRequest /\ f_mem f = m /\
    (forall i, 0 <= i < 64 -> (has_post (e_name e) = true -> f_vs1 w <> 0 -> i <> f_xs1 w) -> a_regs (f_arch f) i = a_regs s i) /\
    (forall r j, 0 <= r -> 0 <= j < 32 -> vbyte (f_arch f) r j = vbyte s r j) /\ k_acc (a_csr (f_arch f)) = k_acc (a_csr s).
  Proof.
    intros Hd Hp H0 Ha HF f. unfold faults in HF. destruct (meaning (e_name e)) as [sm|] eqn:M; [|destruct HF].
    assert (Post : forall T len stride quad q x, post_spec T (operands w (e_name e) s len stride quad) q (a_regs s) x -> forall i, 0 <= i < 64 ->
      (has_post (e_name e) = true -> f_vs1 w <> 0 -> i <> f_xs1 w) -> x i = a_regs s i).
    { intros T len stride quad q x H i Hi HN. unfold post_spec in H. cbn [operands mo_post] in H. destruct (has_post (e_name e)); [|apply H].
      destruct H as [H _]. apply H. destruct (Z.eqb_spec (f_vs1 w) 0) as [E|E]; [lia|now apply HN]. }
    destruct sm; try (now destruct HF).
    - destruct (C74_load w e a s m _ _ _ _ _ _ Hd Hp M H0) as (A & _ & K & (x & P & X) & F & _). destruct (F HF) as [F1 F2]. unfold f.
      split; [exact F1|]. split; [exact A|]. split; [intros i Hi HN; rewrite X by apply Hi; exact (Post _ _ _ _ _ x P i Hi HN)|]. split; [exact F2|apply K].
    - destruct (C74_store w e a s m T len stride strip false Hd Hp M) as (_ & K & (x & P & X) & V & F & _); [discriminate|exact H0|]. destruct (F HF) as [F1 F2]. unfold f.
      split; [exact F1|]. split; [exact F2|]. split; [intros i Hi HN; rewrite X by apply Hi; exact (Post _ _ _ _ _ x P i Hi HN)|]. split; [exact V|apply K].
    - destruct (C74_store w e a s m T false true strip true Hd Hp M) as (_ & K & (x & P & X) & V & F & _); [split; reflexivity|exact H0|]. destruct (F HF) as [F1 F2]. unfold f.
      split; [exact F1|]. split; [exact F2|]. split; [intros i Hi HN; rewrite X by apply Hi; exact (Post _ _ _ _ _ x P i Hi HN)|]. split; [exact V|apply K].
    - destruct (C74_conv w e a s m Hd Hp M H0 Ha) as (A & _ & X & V & _ & _ & _ & F & _). destruct (F HF) as [F1 F2]. unfold f.
      split; [exact F1|]. split; [exact A|]. split; [intros i Hi _; apply X; apply Hi|]. split; [exact V|exact F2].
  Qed.
  (** With it, the faulting instruction still moves the pointer. *)
  Theorem C72_post_refuted w e a s m T len stride st Tw stw : decoder_ok d -> parse d w = Some e ->
    meaning (e_name e) = Some (SmLd T len stride st Tw stw) -> a_regs s 0 = 0 -> has_post (e_name e) = true -> f_vs1 w <> 0 ->
    let o := operands w (e_name e) s len stride false in
    over T o false -> nsel T o <> 0 ->
    let f := exec w a s m in
    f_halt f = Some RUserRequest /\ a_regs (f_arch f) (f_xs1 w) = (MemSpec.base_of o + increment T o false) mod 2 ^ 32.
  Proof.
    intros Hd Hp M H0 HP Hv o HO HN f. destruct (C74_load w e a s m _ _ _ _ _ _ Hd Hp M H0) as (_ & _ & _ & (x & P & X) & F & _).
    fold o in P, F. destruct (F HO) as [F1 _]. split; [exact F1|]. unfold f.
    assert (R : 0 <= f_xs1 w < 32) by (unfold f_xs1; apply Z.mod_pos_bound; lia). rewrite X by lia.
    unfold post_spec in P. assert (E : mo_post o = Some (f_xs1 w)) by (unfold o; cbn [operands mo_post]; rewrite HP; now replace (f_vs1 w =? 0) with false by lia).
    rewrite E in P. destruct P as [_ P]. apply Z.eqb_neq in HN. now rewrite HN in P.
  Qed.

  (** ** C73: a strip-mined kernel, for every element-wise operation, length and place *)
  Theorem C73_kernel k op p e o T mem0 n a b out s :
    decoder_ok d -> 0 <= k <= 2 -> parse d op = Some e -> meaning (e_name e) = Some (SmVec (VEl o T) false true) -> bits T = 8 * 2 ^ k -> ~ reads_dest o ->
    f_vd op = 8 /\ f_vs1 op = 0 /\ f_vs2 op = 4 -> 0 <= p /\ p + 32 <= top_address -> placed mem0 p (kernel k op) ->
    0 <= n < 2 ^ 32 -> 0 <= a /\ a + n * 2 ^ k <= top_address -> 0 <= b /\ b + n * 2 ^ k <= top_address -> 0 <= out /\ out + n * 2 ^ k <= top_address ->
    let window x := out <= x < out + n * 2 ^ k in
    (forall x, p <= x < p + 32 -> ~ window x) -> apart_from out a (n * 2 ^ k) -> apart_from out b (n * 2 ^ k) ->
    (forall i, 0 <= i < n -> lane_pre o T (elem T mem0 a i) (elem T mem0 b i)) ->
    a_regs s 0 = 0 -> a_regs s 12 = n -> a_regs s 10 mod 2 ^ 31 = a -> a_regs s 11 mod 2 ^ 31 = b -> a_regs s 14 mod 2 ^ 31 = out ->
    let steps := Z.to_nat (7 * Z.max 1 ((n * 2 ^ k + 127) / 128) + 1) in
    let m0 := Mach p s mem0 in
    let m' := ref exec steps m0 in
    halts_at exec m0 steps RUserRequest /\ m_pc m' = p + 32 /\ kept s (m_arch m') /\
    (forall i, i < 64 -> ~ 10 <= i <= 14 -> a_regs (m_arch m') i = a_regs s i) /\
    (forall r j, 0 <= r -> ~ r < 12 -> 0 <= j < 32 -> vbyte (m_arch m') r j = vbyte s r j) /\
    a_regs (m_arch m') 10 = a + n * 2 ^ k /\ a_regs (m_arch m') 11 = b + n * 2 ^ k /\ a_regs (m_arch m') 14 = out + n * 2 ^ k /\ a_regs (m_arch m') 12 = 0 /\
    (forall x, ~ window x -> m_mem m' x = mem0 x) /\
    (forall i old, 0 <= i < n -> lane_spec o T old (elem T mem0 a i) (elem T mem0 b i) (elem (dst_ty o T) (m_mem m') out i)).
  Proof.
    intros Hd Hk Hp Hm HT Hr Hf Hpp Hcode Hn La Lb Lo window HW Ha Hb HL H0 H12 H10 H11 H14.
    destruct (MachProofs4.kernel_runs d zbb sys junk ljunk k op p e o T Hd Hk Hp Hm HT Hr Hf Hpp mem0 n a b out Hcode Hn La Lb Lo HW Ha Hb HL s H0 H12 H10 H11 H14)
      as (A & _ & B & (G1 & G2 & G3) & C).
    split; [exact A|]. split; [exact B|]. split; [exact G1|]. split; [exact G2|]. split; [exact G3|]. exact C.
  Qed.
End Mach.
Print Assumptions C70_computation_partial.
Print Assumptions C70_branch_partial.
Print Assumptions C70_jump_partial.
Print Assumptions C70_load_partial.
Print Assumptions C70_store_partial.
Print Assumptions C71_illegal.
Print Assumptions C71_mpause.
Print Assumptions C71_quiet.
Print Assumptions C71_log.
Print Assumptions C71_log_beyond.
Print Assumptions C71_vector.
Print Assumptions C71_cause_refuted.
Print Assumptions C74_elementwise.
Print Assumptions C74_load.
Print Assumptions C74_store.
Print Assumptions C74_conv.
Print Assumptions C72_scalar.
Print Assumptions C72_vector_partial.
Print Assumptions C72_post_refuted.
Print Assumptions C73_kernel.

(** ** Cases *)
Definition m_at (w a : Z) (l : list (Z * Z)) : effect := m_exec w a (m_arch0 l) m_bytes.
Notation is_some o := (match o with Some _ => true | None => false end).

(** div x5, x6, x7 of -20 and 3: -6; mulhsu x5, x6, x7 of -20 and 2^32-1. *)
Example C70_computation_case :
  shows 45 0x27342b3 (m_regs [(6, 2 ^ 32 - 20); (7, 3)]) "div" [2 ^ 32 - 20; 3] = true /\ is_some (lookup "div" op_specs) = true /\
  xs (m_at 0x27342b3 100 [(6, 2 ^ 32 - 20); (7, 3)]) [5; 6; 7; 0] = [2 ^ 32 - 6; 2 ^ 32 - 20; 3; 0] /\
  shows 43 0x27322b3 (m_regs [(6, 2 ^ 32 - 20); (7, 2 ^ 32 - 1)]) "mulhsu" [2 ^ 32 - 20; 2 ^ 32 - 1] = true /\
  xs (m_at 0x27322b3 100 [(6, 2 ^ 32 - 20); (7, 2 ^ 32 - 1)]) [5] = [2 ^ 32 - 20].
Proof. repeat apply conj; vm_compute; reflexivity. Qed.
(** blt x6, x7, -8. *)
Example C70_branch_case :
  shows 6 0xfe734ce3 (m_regs [(6, 2 ^ 32 - 20); (7, 3)]) "blt" [2 ^ 32 - 20; 3; -8] = true /\ is_some (lookup "blt" branch_specs) = true /\
  f_pc (m_at 0xfe734ce3 100 [(6, 2 ^ 32 - 20); (7, 3)]) = 92 /\ f_pc (m_at 0xfe734ce3 100 [(6, 20); (7, 3)]) = 104.
Proof. repeat apply conj; vm_compute; reflexivity. Qed.
(** jalr x1, 5(x6). *)
Example C70_jump_case :
  shows 3 0x5300e7 (m_regs [(6, 2 ^ 32 - 2)]) "jalr" [2 ^ 32 - 2; 5] = true /\
  (let f := m_at 0x5300e7 100 [(6, 2 ^ 32 - 2)] in (f_pc f, xs f [1])) = (2, [104]).
Proof. repeat apply conj; vm_compute; reflexivity. Qed.
(** lh x5, -2(x6): bytes 98 and 111 at 0x3ffffa; beyond memory. *)
Example C70_load_case :
  shows 11 0xffe31283 (m_regs [(6, 1)]) "lh" [1; -2] = true /\ is_some (lookup "lh" load_specs) = true /\
  f_halt (m_at 0xffe31283 100 [(6, 1)]) = Some RUserRequest /\
  (let f := m_at 0xffe31283 100 [(6, 2)] in (f_halt f, xs f [5])) = (None, [2 ^ 32 + 213 * 256 + 200 - 2 ^ 16]) /\
  m_bytes 0 = 200 /\ m_bytes 1 = 213.
Proof. repeat apply conj; vm_compute; reflexivity. Qed.
(** sw x7, 4(x6) with bit 31 of the address set. *)
Example C70_store_case :
  shows 17 0x732223 (m_regs [(6, 2 ^ 31 + 100); (7, 0x12345678)]) "sw" [2 ^ 31 + 100; 4; 0x12345678] = true /\ is_some (lookup "sw" store_specs) = true /\
  (let f := m_at 0x732223 0 [(6, 2 ^ 31 + 100); (7, 0x12345678)] in (f_halt f, map (f_mem f) [103; 104; 105; 106; 107; 108])) =
  (None, [m_bytes 103; 0x78; 0x56; 0x34; 0x12; m_bytes 108]).
Proof. repeat apply conj; vm_compute; reflexivity. Qed.

(** vld.w.lp.xx.m v0, x10, x13 of five words at the end of memory. *)
Definition vldw : Z := 0x14d5003f + 2 * 2 ^ 12.
Definition top_regs (a : Z) : list (Z * Z) := [(10, a); (13, 5)].
Example C71_case :
  decode1 first_match 0xffffffff = None /\ f_halt (m_at 0xffffffff 8 []) = Some RUserRequest /\
  f_halt (m_at 0x08000073 8 []) = Some RUserRequest /\
  shows 45 0x27342b3 (m_regs []) "div" [99; 115] = true /\ forallb (fun x => negb (String.eqb "div" x)) halting = true /\
  f_halt (m_at 0x27342b3 8 []) = None /\
  f_halt (m_at vldw 8 (top_regs 0x3fffe8)) = None /\ f_halt (m_at vldw 8 (top_regs 0x3ffff0)) = Some RUserRequest.
Proof. repeat apply conj; vm_compute; reflexivity. Qed.
(** The all-zero word, illegal by the manual, is vadd.b.vv v0, v0, v0. *)
Theorem C71_zero_refuted : option_map e_name (parse first_match 0) = Some "vadd_b_vv" /\
  (let f := m_at 0 8 [] in (f_halt f, lane U8 (vbyte (f_arch f) 0) 3)) = (None, 6).
Proof. repeat apply conj; vm_compute; reflexivity. Qed.
Print Assumptions C71_zero_refuted.
Example C71_vector_case : match parse first_match vldw with Some e => e_name e = "vld_w_lp_xx_m" /\ ~ is_scalar_op (e_sem e) | None => False end.
Proof. vm_compute. split; [reflexivity|intros H; exact H]. Qed.
Example C71_faults_case : faults vldw "vld_w_lp_xx_m" (m_arch0 (top_regs 0x3ffff0)) /\ ~ faults vldw "vld_w_lp_xx_m" (m_arch0 (top_regs 0x3fffe8)).
Proof.
  split.
  - exists 4. split; [split; [vm_compute; discriminate|vm_compute; reflexivity]|vm_compute; discriminate].
  - unfold faults. replace (meaning "vld_w_lp_xx_m") with (Some (SmLd I32 true false true I32 true)) by (vm_compute; reflexivity).
    set (o := operands _ _ _ _ _ _). intros (e & He & H). replace (nsel I32 o) with 5 in He by (vm_compute; reflexivity). assert (e = 0 \/ e = 1 \/ e = 2 \/ e = 3 \/ e = 4) as D by lia.
    destruct D as [->|[->|[->|[->| ->]]]]; vm_compute in H; now apply H.
Qed.
(** klog of a text that runs past the end of memory, and of one that does not. *)
Example C71_log_case :
  shows (length manual1 - 1) 0x78033077 (m_regs [(6, 0x3ffffe)]) "klog" [0x3ffffe] = true /\
  (let f := m_at 0x78033077 8 [(6, 0x400001)] in (f_halt f, k_wrong (a_csr (f_arch f)))) = (Some RUserRequest, false) /\ f_halt (m_at 0x78033077 8 [(6, 0)]) = None.
Proof. repeat apply conj; vm_compute; reflexivity. Qed.

(** lh of C70_load_case, and vld.w.x v0, x10 beyond memory, change nothing. *)
Example C72_case :
  top_address <= (1 + -2) mod 2 ^ 32 /\ xs (m_at 0xffe31283 100 [(6, 1)]) [5; 6] = [83; 1] /\
  option_map (fun e => (e_name e, has_post (e_name e))) (parse first_match 0x5203f) = Some ("vld_w_x_m", false) /\
  (let f := m_at 0x5203f 8 (top_regs 0x3fffff) in (f_halt f, xs f [10; 64; 96])) = (Some RUserRequest, 0x3fffff :: map (m_regs []) [64; 96]).
Proof. repeat apply conj; vm_compute; congruence. Qed.
(** The faulting load of C71_faults_case moved its pointer by 5 words. *)
Example C72_post_case : has_post "vld_w_lp_xx_m" = true /\ f_vs1 vldw <> 0 /\ xs (m_at vldw 8 (top_regs 0x3ffff0)) [10; 9; 11; 12; 64; 96] = 0x3ffff0 + 20 :: map (m_regs (top_regs 0x3ffff0)) [9; 11; 12; 64; 96].
Proof. repeat apply conj; vm_compute; congruence. Qed.

(** A word stored through an address with bit 31 set cannot be loaded from there:
    sw x7, 4(x6) and lw x5, 4(x6). *)
Theorem C70_uncached_refuted :
  let f := m_at 0x732223 0 [(6, 2 ^ 31 + 100); (7, 5)] in
  shows 17 0x732223 (m_regs [(6, 2 ^ 31 + 100); (7, 5)]) "sw" [2 ^ 31 + 100; 4; 5] = true /\
  shows 12 0x432283 (m_regs [(6, 2 ^ 31 + 100); (7, 5)]) "lw" [2 ^ 31 + 100; 4] = true /\
  (f_halt f, f_halt (m_exec 0x432283 4 (f_arch f) (f_mem f))) = (None, Some RUserRequest).
Proof. repeat apply conj; vm_compute; reflexivity. Qed.
Print Assumptions C70_uncached_refuted.

(** vadd.w.vv.m v8, v0, v4: lane 2 of v9 is 0x100f0e0d + 0x24232221. *)
Definition vaddw : Z := 0x402220.
Example C74_case :
  option_map e_name (parse first_match vaddw) = Some "vadd_w_vv_m" /\ meaning "vadd_w_vv_m" = Some (SmVec (VEl OAdd I32) false true) /\
  (f_vd vaddw, f_vs1 vaddw, f_vs2 vaddw, w_m vaddw) = (8, 0, 4, true) /\
  lane I32 (vbyte (f_arch (m_at vaddw 8 [])) 9) 2 = 0x100f0e0d + 0x24232221 /\
  map (lane I32 (vbyte (f_arch (m_at vldw 8 (top_regs 64))) 0)) [0; 4; 5; 7] = [trunc I32 (uval 4 m_bytes 64); trunc I32 (uval 4 m_bytes 80); 0; 0] /\
  option_map e_name (parse first_match 0x34d7223f) = Some "vst_w_lp_xx_m" /\ meaning "vst_w_lp_xx_m" = Some (SmSt I32 true false true) /\
  (let f := m_at 0x34d7223f 8 [(13, 5); (14, 2 ^ 31 + 50)] in (map (f_mem f) [49; 50; 69; 70], xs f [14])) = ([m_bytes 49; 40; 59; m_bytes 70], [70]).
Proof. repeat apply conj; vm_compute; reflexivity. Qed.
(** aconv v48, v0, x9, v32, for two columns; and with a column past the last. *)
Example C74_conv_case :
  option_map e_name (parse first_match 0x80902c05) = Some "aconv_vxv" /\ meaning "aconv_vxv" = Some SmConv /\
  (f_vs1 0x80902c05, f_xs2 0x80902c05, f_vs3 0x80902c05) = (0, 9, 32) /\ conv_legal 128 /\ ~ conv_legal 0x400 /\
  k_acc (a_csr (f_arch (m_at 0x80902c05 8 [(9, 128)]))) 3 5 = (7 + conv_sum 128 (vbyte (m_arch0 [])) 0 32 3 5) mod 2 ^ 32 /\
  conv_sum 128 (vbyte (m_arch0 [])) 0 32 3 5 <> 0 /\
  f_halt (m_at 0x80902c05 8 [(9, 0x400)]) = Some RUserRequest.
Proof.
  split; [vm_compute; reflexivity|]. split; [vm_compute; reflexivity|]. split; [vm_compute; reflexivity|].
  split; [vm_compute; repeat split; congruence|]. split; [vm_compute; intros (_ & _ & H); discriminate H|].
  split; [vm_compute; reflexivity|]. split; [vm_compute; discriminate|vm_compute; reflexivity].
Qed.

(** c[i] = a[i] + b[i] for 40 words: two strips, 15 instructions. *)
Definition words_at (p : Z) (l : list Z) (m : Z -> Z) (x : Z) : Z :=
  if (p <=? x) && (x <? p + 4 * Z.of_nat (length l)) then (nth (Z.to_nat ((x - p) / 4)) l 0 / 2 ^ (8 * ((x - p) mod 4))) mod 256 else m x.
Definition k_mem : Z -> Z := words_at 0 (kernel 2 vaddw) m_bytes.
Definition k_regs : list (Z * Z) := [(10, 2 ^ 31 + 0x100); (11, 0x210); (12, 40); (14, 2 ^ 31 + 0x300)].
Example C73_case :
  let m := ref m_exec 15 (Mach 0 (m_arch0 k_regs) k_mem) in
  halts_at m_exec (Mach 0 (m_arch0 k_regs) k_mem) 15 RUserRequest /\
  m_pc m = 32 /\ map (a_regs (m_arch m)) [10; 11; 12; 14; 5] = [0x100 + 160; 0x210 + 160; 0; 0x300 + 160; 83] /\
  is_mod 32 true (elem I32 k_mem 0x100 39 + elem I32 k_mem 0x210 39) (elem I32 (m_mem m) 0x300 39) /\ m_mem m (0x300 + 160) = m_bytes (0x300 + 160) /\
  (elem I32 k_mem 0x100 39, elem I32 k_mem 0x210 39) = (-607206988, -1415671420).
Proof.
  assert (E : match parse first_match vaddw with Some e => Some (meaning (e_name e)) | None => None end = Some (Some (SmVec (VEl OAdd I32) false true))) by (vm_compute; reflexivity).
  destruct (parse first_match vaddw) as [e|] eqn:P; [|discriminate E]. injection E as E.
  pose proof (C73_kernel first_match (fun _ => None) m_sys (fun _ _ _ => 170) (fun _ => 0) 2 vaddw 0 e OAdd I32 k_mem 40 0x100 0x210 0x300 (m_arch0 k_regs)
    PropDecode.first_match_ok ltac:(lia) P E) as K. fold m_exec in K.
  assert (C : placed k_mem 0 (kernel 2 vaddw)).
  { intros i w H. do 8 (destruct i as [|i]; [injection H as <-; vm_compute; reflexivity|]). destruct i; discriminate H. }
  destruct K as (K1 & K2 & _ & K3 & _ & R1 & R2 & R3 & R4 & K4 & K5);
    [reflexivity|intros H; exact H|repeat apply conj; vm_compute; reflexivity|split; vm_compute; discriminate|exact C|lia
    |split; vm_compute; discriminate|split; vm_compute; discriminate|split; vm_compute; discriminate|intros x; change (40 * 2 ^ 2) with 160; lia
    |right; vm_compute; discriminate|right; vm_compute; discriminate|intros i _; exact I|reflexivity|reflexivity|reflexivity|reflexivity|reflexivity|].
  change (Z.to_nat (7 * Z.max 1 ((40 * 2 ^ 2 + 127) / 128) + 1)) with 15%nat in *. intros m. fold m in K2, K3, R1, R2, R3, R4, K4, K5.
  split; [exact K1|]. split; [exact K2|]. split; [cbn [map]; rewrite R1, R2, R3, R4, K3 by lia; reflexivity|].
  split; [exact (K5 39 0 ltac:(lia))|]. split; [rewrite K4 by (change (40 * 2 ^ 2) with 160; lia); vm_compute; reflexivity|vm_compute; reflexivity].
Qed.
