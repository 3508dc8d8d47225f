(** * The Renode interface always answers (C78); a kernel run through it (C79) *)
From Coq Require Import ZArith List Bool String Lia ZifyBool ZifyNat.
From Verif Require Import CInt LaneSpec VecModel VecSpec ConvModel MemModel MemSpec LogModel.
From Verif Require Import DecodeTypes DecodeTable DecodeModel DecodeSpec V2DecTypes V2DecModel V1ScalModel.
From Verif Require Import TopModel TopSpec CliModel RenodeModel RenodeSpec RenodeTopModel RenodeTopSpec MachModel MachSpec MachInvSpec KernSessSpec PropMach PropMachInv.
From Verif Require RenodeTotProofs KernSessProofs RenodeTopProofs PropDecode.
Import ListNotations.
Open Scope list_scope.
Open Scope Z_scope.

Section P.
  Context {C : Type}.
  Variable exec : Z -> Z -> arch (C := C) -> (Z -> Z) -> effect (C := C).
  Variable evicted : Z -> Z -> bool.
  Variable reg_id : string -> option Z.
  Variable reg_size : Z -> Z.
  Variable csr_id : string -> option Z.
  Variable csr_get : Z -> C -> Z.
  Variable csr_set : Z -> Z -> C -> C.
  Variable boot : arch (C := C).
  Variable boot_pc : Z.
  Context {File Blocks : Type}.
  Variable create_shared : Z * Z * Blocks -> top (C := C).
  Variable files : File -> option (list Z).
  Variable elf : File -> (Z -> Z) -> option Z * (Z -> Z).
  Variable enums : dbgreg -> Z.
  Variable names : Z -> option string.
  Notation ops_ := (top_ops exec evicted reg_id reg_size csr_id csr_get csr_set boot boot_pc create_shared files elf enums names).

  (** ** C78: any list of documented calls is answered, whatever the program does, and
      no instance is left in an undefined state. The instruction set does not raise the
      debugger's own halts (as C76 shows of the V1 core); shared objects start without
      breakpoints. *)
  Theorem C78_total max fuel ks :
    (forall w a s m r, f_halt (exec w a s m) = Some r -> r <> RSwBreakpoint /\ r <> RActionPoint) ->
    (forall b, exists boot m pc, create_shared b = fresh boot m pc) ->
    2 ^ 33 + 4 < Z.of_nat fuel -> Forall (proper_call max) ks ->
    exists a rs, RenodeModel.run ops_ fuel ks agent0 = Some (Ok (a, rs)) /\ length rs = length ks /\
      forall i x, a_inst a i = Some x -> exists s, x = Ok s.
  Proof.
    intros HX HS. apply (RenodeTotProofs.core_total exec evicted reg_id reg_size csr_id csr_get csr_set HX boot boot_pc create_shared).
    intros b. destruct (HS b) as (b0 & m & pc & ->). split; reflexivity.
  Qed.
End P.
Print Assumptions C78_total.

Section K.
  Context {S : Type}.
  Notation arch := (arch (C := core S)).
  Variable d : decoder.
  Variable zbb : Z -> option act.
  Variable sys : act -> Z -> arch -> (Z -> Z) -> arch * (Z -> Z) * Z * option Z.
  Variable junk : Z -> Z -> vbytes.
  Variable ljunk : Z -> Z.
  Notation exec := (exec1 d zbb sys junk ljunk).
  Variable evicted : Z -> Z -> bool.
  Variable reg_id : string -> option Z.
  Variable reg_size : Z -> Z.
  Variable csr_id : string -> option Z.
  Variable csr_get : Z -> core S -> Z.
  Variable csr_set : Z -> Z -> core S -> core S.
  Variable boot : arch.
  Variable boot_pc : Z.
  Context {File Blocks : Type}.
  Variable create_shared : Z * Z * Blocks -> top (C := core S).
  Variable files : File -> option (list Z).
  Variable elf : File -> (Z -> Z) -> option Z * (Z -> Z).
  Variable enums : dbgreg -> Z.
  Variable names : Z -> option string.
  Notation ops_ := (top_ops exec evicted reg_id reg_size csr_id csr_get csr_set boot boot_pc create_shared files elf enums names).
  Notation numbered := (numbered reg_id reg_size names).
  Notation numbered_pc := (numbered_pc reg_id reg_size names).

  (** ** C79: a host writes a kernel and two arrays of any length through the interface,
      steps, and reads back the operation of them, element by element. *)
  Theorem C79_kernel fuel max k op p e o T n a b out va vb vo la lb r10 r11 r12 r14 rp count ag rs :
    decoder_ok d -> sys_ok sys -> a_regs boot 0 = 0 ->
    0 <= k <= 2 -> 0 <= op < 2 ^ 32 -> parse d op = Some e -> meaning (e_name e) = Some (SmVec (VEl o T) false true) -> bits T = 8 * 2 ^ k -> ~ reads_dest o ->
    f_vd op = 8 /\ f_vs1 op = 0 /\ f_vs2 op = 4 ->
    let size := n * 2 ^ k in
    0 <= n -> Z.of_nat (length la) = size -> Z.of_nat (length lb) = size ->
    0 <= p /\ p + 32 <= top_address -> 0 <= a /\ a + size <= top_address -> 0 <= b /\ b + size <= top_address -> 0 <= out /\ out + size <= top_address ->
    va mod 2 ^ 31 = a -> vb mod 2 ^ 31 = b -> vo mod 2 ^ 31 = out ->
    disjoint p 32 a size -> disjoint p 32 b size -> disjoint p 32 out size -> disjoint a size b size -> apart_from out a size -> apart_from out b size ->
    (forall i, 0 <= i < n -> lane_pre o T (elem T (listed la) 0 i) (elem T (listed lb) 0 i)) ->
    numbered r10 10 -> numbered r11 11 -> numbered r12 12 -> numbered r14 14 -> numbered_pc rp ->
    let steps := 7 * Z.max 1 ((size + 127) / 128) + 1 in
    steps <= count < 2 ^ 64 ->
    RenodeModel.run ops_ fuel (job max k op p a b out va vb vo n la lb r10 r11 r12 r14 rp count size) agent0 = Some (Ok (ag, rs)) ->
    map r_ret rs = [0; 32; size; size; 0; 0; 0; 0; 0; steps; size] /\
    r_status (nth 9 rs (R 0 None [] None)) = Some 0 /\
    let data := r_data (nth 10 rs (R 0 None [] None)) in
    Z.of_nat (length data) = size /\
    forall i old, 0 <= i < n -> lane_spec o T old (elem T (listed la) 0 i) (elem T (listed lb) 0 i) (elem (dst_ty o T) (listed data) 0 i).
  Proof.
    intros Hd Hs H0 Hk Ho Hp Hm HT Hr Hf size Hn Hla Hlb Hpp La Lb Lo Va Vb Vo D1 D2 D3 D4 A1 A2 HL N1 N2 N3 N4 N5 steps Hc HR.
    assert (ES : Z.of_nat (KernSessProofs.steps k n) = steps) by (unfold KernSessProofs.steps, steps; fold size; lia).
    rewrite <- ES in *. unfold size in *. clearbody steps.
    exact (KernSessProofs.job_ok d zbb sys junk ljunk evicted reg_id reg_size csr_id csr_get csr_set boot boot_pc create_shared files elf enums names
      k op p e o T Hd Hs Hk Ho Hp Hm HT Hr Hf Hpp n a b out va vb vo la lb Hn Hla Hlb La Lb Lo Va Vb Vo D1 D2 D3 D4 A1 A2 HL r10 r11 r12 r14 rp N1 N2 N3 N4 N5 H0
      fuel max count ag rs Hc HR).
  Qed.
End K.
Print Assumptions C79_kernel.

(** ** Cases *)
(** xi has the number 0x1000 + i, pc 0x7b1. *)
Definition j_names (r : Z) : option string :=
  if r =? 0x100a then Some "a0"%string else if r =? 0x100b then Some "a1"%string else if r =? 0x100c then Some "a2"%string
  else if r =? 0x100e then Some "a4"%string else if r =? 0x7b1 then Some "pc"%string else None.
Definition j_reg (n : string) : option Z :=
  if String.eqb n "a0" then Some 10 else if String.eqb n "a1" then Some 11 else if String.eqb n "a2" then Some 12
  else if String.eqb n "a4" then Some 14 else if String.eqb n "pc" then Some 0 else None.
Definition j_list (i : Z) (n : nat) : list Z := map (fun x => (i * (Z.of_nat x + 3) * (Z.of_nat x + 5)) mod 256) (seq 0 n).
Definition j_ops (evicted : Z -> Z -> bool) : ops _ unit unit :=
  top_ops m_exec evicted j_reg (fun _ => 4) (fun _ => None) (fun _ _ => 0) (fun _ _ c => c) (m_arch0 []) 0
    (fun _ => fresh (m_arch0 []) (fun _ => 0) 0) (fun _ : unit => None) (fun _ m => (None, m)) (fun _ => 0) j_names.
(** 40 words: two strips; at 0x40, the second input in the upper half of the addresses. *)
Definition j_job : list (RenodeModel.call unit unit) :=
  job 8 2 vaddw 0x40 0x100 0x210 0x300 0x100 (2 ^ 31 + 0x210) 0x300 40 (j_list 7 160) (j_list 11 160) 0x100a 0x100b 0x100c 0x100e 0x7b1 1000 160.
Definition j_seen (r : option (outcome (@agent (obj (C := core unit)) * list result))) : list Z * option Z * list Z :=
  match r with Some (Ok (_, rs)) => (map r_ret rs, r_status (nth 9 rs (R 0 None [] None)), r_data (nth 10 rs (R 0 None [] None))) | _ => ([], None, []) end.
Example C79_case_answers :
  let x := j_seen (RenodeModel.run (j_ops (fun _ _ => false)) 3 j_job agent0) in
  fst x = ([0; 32; 160; 160; 0; 0; 0; 0; 0; 15; 160], Some 0) /\
  elem I32 (listed (snd x)) 0 39 = trunc I32 (elem I32 (listed (j_list 7 160)) 0 39 + elem I32 (listed (j_list 11 160)) 0 39) /\
  elem I32 (listed (j_list 7 160)) 0 39 <> 0.
Proof. split; [vm_compute; reflexivity|]. split; [vm_compute; reflexivity|vm_compute; discriminate]. Qed.
Example C79_case : exists ag rs, RenodeModel.run (j_ops (fun _ _ => false)) 3 j_job agent0 = Some (Ok (ag, rs)) /\
  forall i old, 0 <= i < 40 -> lane_spec OAdd I32 old (elem I32 (listed (j_list 7 160)) 0 i) (elem I32 (listed (j_list 11 160)) 0 i) (elem I32 (listed (r_data (nth 10 rs (R 0 None [] None)))) 0 i).
Proof.
  destruct (RenodeModel.run (j_ops (fun _ _ => false)) 3 j_job agent0) as [[[ag rs]|q|]|] eqn:E;
    [|assert (X := f_equal j_seen E); rewrite <- E in X; destruct C79_case_answers as (Y & _); cbv zeta in Y; rewrite E in Y; discriminate Y..].
  exists ag, rs. split; [reflexivity|].
  assert (P0 : match parse first_match vaddw with Some e => Some (meaning (e_name e)) | None => None end = Some (Some (SmVec (VEl OAdd I32) false true))) by (vm_compute; reflexivity).
  destruct (parse first_match vaddw) as [e|] eqn:P; [|discriminate P0]. injection P0 as P0.
  refine (proj2 (proj2 (proj2 (C79_kernel first_match (fun _ => None) m_sys (fun _ _ _ => 170) (fun _ => 0) (fun _ _ => false) j_reg (fun _ => 4) (fun _ => None) (fun _ _ => 0) (fun _ _ c => c) (m_arch0 []) 0
    (fun _ => fresh (m_arch0 []) (fun _ => 0) 0) (fun _ : unit => None) (fun _ m => (None, m)) (fun _ => 0) j_names 3 8 2 vaddw 0x40 e OAdd I32 40 0x100 0x210 0x300 0x100 (2 ^ 31 + 0x210) 0x300
    (j_list 7 160) (j_list 11 160) 0x100a 0x100b 0x100c 0x100e 0x7b1 1000 ag rs PropDecode.first_match_ok m_sys_ok eq_refl _ _ P P0 eq_refl _ _ _ _ _ _ _ _ _ _ _ _ _ _ _ _ _ _ _ _ _ _ _ _ _ E))));
    try (vm_compute; split; congruence); try (vm_compute; reflexivity).
  - intros [].
  - repeat apply conj; vm_compute; reflexivity.
  - discriminate.
  - left. vm_compute. discriminate.
  - left. vm_compute. discriminate.
  - left. vm_compute. discriminate.
  - left. vm_compute. discriminate.
  - right. vm_compute. discriminate.
  - right. vm_compute. discriminate.
  - exists "a0"%string. repeat split; discriminate.
  - exists "a1"%string. repeat split; discriminate.
  - exists "a2"%string. repeat split; discriminate.
  - exists "a4"%string. repeat split; discriminate.
  - split; [reflexivity|]. exists 0. split; reflexivity.
Qed.
(** Calls of C78: a step of a program that is all zeros, register information of every
    kind, and calls about an instance that does not exist. *)
Definition j_calls : list (RenodeModel.call unit unit) :=
  Construct 8 None :: RegInfo 0 33 8 true :: RegInfo 0 5 0 false :: LoadExecutable 3 tt true :: Step 0 (2 ^ 64 - 1) false :: j_job.
Example C78_case : Forall (proper_call 8) j_calls /\
  exists fuel a rs, RenodeModel.run (j_ops (fun _ _ => true)) fuel j_calls agent0 = Some (Ok (a, rs)) /\ length rs = 16%nat.
Proof.
  assert (H : Forall (proper_call 8) j_calls).
  { unfold j_calls, j_job, job. repeat constructor; cbn [proper_call]; try lia; try reflexivity; auto; right; lia. }
  split; [exact H|]. exists (Z.to_nat (2 ^ 33 + 5)).
  destruct (C78_total m_exec (fun _ _ => true) j_reg (fun _ => 4) (fun _ => None) (fun _ _ => 0) (fun _ _ c => c) (m_arch0 []) 0
    (fun _ => fresh (m_arch0 []) (fun _ => 0) 0) (fun _ : unit => None) (fun _ m => (None, m)) (fun _ => 0) j_names 8 (Z.to_nat (2 ^ 33 + 5)) j_calls) as (a & rs & E & L & _);
    [|eauto|rewrite Z2Nat.id; lia|exact H|].
  - intros w a s m r Hr. assert (r = RUserRequest) by exact (C71_cause_refuted first_match (fun _ => None) m_sys (fun _ _ _ => 170) (fun _ => 0) w a s m r Hr). subst r. split; discriminate.
  - exists a, rs. split; [exact E|exact L].
Qed.
