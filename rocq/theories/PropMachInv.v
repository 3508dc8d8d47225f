(** * What every program keeps: properties C76 and C77 *)
From Coq Require Import ZArith List Bool String Lia ZifyBool ZifyNat.
From Verif Require Import CInt LaneSpec VecModel VecSpec ConvModel ConvSpec MemModel LogModel.
From Verif Require Import DecodeTypes DecodeTable DecodeModel DecodeSpec V2DecTypes V2DecModel V1ScalModel.
From Verif Require Import TopModel TopSpec CliModel RenodeModel RenodeSpec RenodeTopModel RenodeTopSpec MachModel MachSpec MachInvSpec PropMach.
From Verif Require MachInvProofs MachInvProofs2 PropDecode PropRenodeTop.
Import ListNotations.
Open Scope list_scope.
Open Scope Z_scope.

Section P.
  Context {S : Type}.
  Notation arch := (arch (C := core S)).
  Notation mach := (mach (C := core S)).
  Variable d : decoder.
  Variable zbb : Z -> option act.
  Variable sys : act -> Z -> arch -> (Z -> Z) -> arch * (Z -> Z) * Z * option Z.
  Variable junk : Z -> Z -> vbytes.
  Variable ljunk : Z -> Z.
  Notation exec := (exec1 d zbb sys junk ljunk).

  (** ** C76: whatever the program, registers keep their sizes and memory outside the
      simulated one (and the 3 bytes behind it) is not written. *)
  Theorem C76_word w a (s : arch) m : decoder_ok d -> sys_ok sys ->
    let f := exec w a s m in
    0 <= f_pc f < 2 ^ 32 /\ (f_halt f = None \/ f_halt f = Some RUserRequest) /\ confined 3 m (f_mem f) /\
    (junk_ok junk -> sized s m -> sized (f_arch f) (f_mem f)).
  Proof.
    intros Hd Hs f. destruct (MachInvProofs.exec_keeps d zbb sys junk ljunk Hd Hs w a s m) as (A & B & C). split; [exact A|]. split; [|split; [exact B|exact C]].
    destruct (f_halt f) as [r|] eqn:E; [right|now left]. f_equal. exact (C71_cause_refuted d zbb sys junk ljunk w a s m r E).
  Qed.
  Theorem C76_run n (x : mach) : decoder_ok d -> sys_ok sys -> 0 <= m_pc x < 2 ^ 32 ->
    let y := ref exec n x in
    0 <= m_pc y < 2 ^ 32 /\ confined 3 (m_mem x) (m_mem y) /\
    (junk_ok junk -> sized (m_arch x) (m_mem x) -> sized (m_arch y) (m_mem y)).
  Proof. intros Hd Hs. exact (MachInvProofs.run_keeps d zbb sys junk ljunk Hd Hs n x). Qed.

  (** ** C77: an undefined result needs one of the instructions of [risky]. *)
  Theorem C77_word w a (s : arch) m : decoder_ok d -> sys_defined sys -> (forall w c, zbb w = Some c -> act_kind c = KSys) ->
    ~ risky d w -> sized s m -> k_wrong (a_csr (f_arch (exec w a s m))) = k_wrong (a_csr s).
  Proof. intros Hd Hs Hz. exact (MachInvProofs2.exec_defined d zbb sys junk ljunk Hd Hs Hz w a s m). Qed.
  Theorem C77_run n (x : mach) : decoder_ok d -> sys_ok sys -> sys_defined sys -> (forall w c, zbb w = Some c -> act_kind c = KSys) -> junk_ok junk ->
    0 <= m_pc x < 2 ^ 32 -> sized (m_arch x) (m_mem x) ->
    (forall i, (i < n)%nat -> ~ risky d (word_at (ref exec i x))) ->
    k_wrong (a_csr (m_arch (ref exec n x))) = k_wrong (a_csr (m_arch x)).
  Proof. intros Hd Hy Hs Hz HJ H0 HS. exact (MachInvProofs2.run_defined d zbb sys junk ljunk Hd Hs Hz x Hy HJ H0 HS n). Qed.

  (** ** C75 for the V1 core: only code that changes is left out. *)
  Variable evicted : Z -> Z -> bool.
  Variable reg_id : string -> option Z.
  Variable reg_size : Z -> Z.
  Variable csr_id : string -> option Z.
  Variable csr_get : Z -> core S -> Z.
  Variable csr_set : Z -> Z -> core S -> core S.
  Variable boot : arch.
  Variable boot_pc : Z.
  Context {File Blocks : Type}.
  Variable create_shared : Z * Z * Blocks -> top (C := core S).
  Variable files : File -> option (list Z).
  Variable elf : File -> (Z -> Z) -> option Z * (Z -> Z).
  Variable enums : dbgreg -> Z.
  Variable names : Z -> option string.
  Notation ops_ := (top_ops exec evicted reg_id reg_size csr_id csr_get csr_set boot boot_pc create_shared files elf enums names).
  Notation visited_ := (visited exec reg_id reg_size csr_id csr_get csr_set boot boot_pc files elf names).
  Theorem C75_core_session_partial fuel j ks a rs : decoder_ok d -> sys_ok sys ->
    RenodeModel.run ops_ fuel ks agent0 = Some (Ok (a, rs)) ->
    Z.of_nat (length (filter is_construct ks)) + 1 < 2 ^ 32 -> Forall arguments_ok ks ->
    (forall max b r, In (Construct max (Some b), r) (combine ks rs) -> r_ret r mod 2 ^ 32 <> j mod 2 ^ 32) ->
    (exists code, forall m, visited_ j None (combine ks rs) m -> word_at m = code (m_pc m)) ->
    exists x, session exec reg_id reg_size csr_id csr_get csr_set boot boot_pc files elf names j None (combine ks rs) x.
  Proof.
    intros Hd Hs HR HC HA HB (code & HV). apply (PropRenodeTop.C75_session_partial exec evicted reg_id reg_size csr_id csr_get csr_set boot boot_pc create_shared files elf enums names fuel j ks a rs HR HC HA HB).
    exists code. intros m Hm. split; [now apply HV|]. split.
    - unfold ref_step. destruct (_ =? _); [apply Z.mod_pos_bound; reflexivity|]. exact (proj1 (C76_word (word_at m) (m_pc m) (m_arch m) (m_mem m) Hd Hs)).
    - intros r Hr. destruct (MachInvProofs.halt_reasons d zbb sys junk ljunk m r Hr); auto.
  Qed.
End P.
Print Assumptions C76_word.
Print Assumptions C76_run.
Print Assumptions C77_word.
Print Assumptions C77_run.
Print Assumptions C75_core_session_partial.

(** ** Cases *)
Lemma m_sys_ok : sys_ok m_sys.
Proof. intros c a s m. cbn. split; [apply Z.mod_pos_bound; reflexivity|]. split; [intros x _; reflexivity|auto]. Qed.
Lemma m_sys_defined : sys_defined m_sys.
Proof. intros c a s m. reflexivity. Qed.
Lemma m_junk_ok : junk_ok (fun _ _ _ => 170).
Proof. intros t r j _. split; [lia|reflexivity]. Qed.
Definition i_arch (l : list (Z * Z)) : arch (C := core unit) :=
  Arch (fun i => m_regs l i mod (if i <? 64 then 2 ^ 32 else 2 ^ 256)) (a_csr (m_arch0 [])).
Lemma i_sized l m : (forall x, 0 <= m x < 256) -> sized (i_arch l) m.
Proof.
  intros H. unfold sized, i_arch. cbn [a_regs a_csr m_arch0 k_acc k_dw]. split; [|split; [|split; [|split; [exact I|exact H]]]].
  - intros r Hr. replace (r <? 64) with true by lia. apply Z.mod_pos_bound. reflexivity.
  - intros r Hr. replace (64 + r <? 64) with false by lia. apply Z.mod_pos_bound. reflexivity.
  - intros r c _ _. split; [lia|reflexivity].
Qed.
Lemma m_bytes_ok x : 0 <= m_bytes x < 256.
Proof. apply Z.mod_pos_bound. reflexivity. Qed.
Definition riskyb (w : Z) : bool :=
  match parse first_match w with
  | Some e => existsb (String.eqb (e_name e)) risky_names || existsb (String.eqb (e_name e)) ["acset"; "actr"; "adwinit"]%string
  | None => false
  end.
Lemma riskyb_no w : riskyb w = false -> ~ risky first_match w.
Proof.
  unfold riskyb. intros H (e & Hp & HN). rewrite Hp in H. apply orb_false_iff in H as [H1 H2].
  assert (F : forall l, existsb (String.eqb (e_name e)) l = false -> ~ In (e_name e) l).
  { intros l E Hi. assert (T : existsb (String.eqb (e_name e)) l = true); [|congruence]. apply existsb_exists. exists (e_name e). split; [exact Hi|apply String.eqb_refl]. }
  destruct HN as [HN|[HN _]]; [exact (F _ H1 HN)|exact (F _ H2 HN)].
Qed.
(** sw x2, 0(x1) at the last byte; vld.w.lp.xx.m; mpause: memory past the end changes,
    but not the fourth byte. *)
Definition i_mem : Z -> Z := words_at 0 [0x0020a023; vldw; 0x08000073] m_bytes.
Definition i_mach : mach := Mach 0 (i_arch [(1, 0x3fffff); (2, 0x55443322); (10, 2 ^ 31 + 0x100); (13, 5)]) i_mem.
Lemma i_mem_ok x : 0 <= i_mem x < 256.
Proof. unfold i_mem, words_at. destruct (_ && _); [apply Z.mod_pos_bound; reflexivity|apply m_bytes_ok]. Qed.
Example C76_case :
  let y := ref m_exec 3 i_mach in
  sized (m_arch y) (m_mem y) /\ confined 3 i_mem (m_mem y) /\ m_pc y = 12 /\ k_wrong (a_csr (m_arch y)) = false /\
  map (m_mem y) [0x3ffffe; 0x3fffff; 0x400000; 0x400001; 0x400002; 0x400003] = [i_mem 0x3ffffe; 0x22; 0x33; 0x44; 0x55; i_mem 0x400003] /\
  lane I32 (vbyte (m_arch y) 0) 4 = trunc I32 (uval 4 m_bytes 0x110) /\ a_regs (m_arch y) 10 = 0x114 /\
  ref_halt m_exec (ref m_exec 2 i_mach) = Some RUserRequest.
Proof.
  cbv zeta. destruct (C76_run first_match (fun _ => None) m_sys (fun _ _ _ => 170) (fun _ => 0) 3 i_mach PropDecode.first_match_ok m_sys_ok) as (_ & B & C);
    [split; [vm_compute; discriminate|reflexivity]|]. fold m_exec in B, C.
  split; [exact (C m_junk_ok (i_sized _ _ i_mem_ok))|]. split; [exact B|]. repeat apply conj; vm_compute; reflexivity.
Qed.
(** So memory of exactly 4 MB is not enough: a store may run over its end. *)
Theorem C76_end_refuted : exists w s, sized s m_bytes /\ ~ confined 0 m_bytes (f_mem (m_exec w 0 s m_bytes)) /\ f_halt (m_exec w 0 s m_bytes) = None.
Proof.
  exists 0x0020a023, (i_arch [(1, 0x3fffff); (2, 0x55443322)]). split; [exact (i_sized _ _ m_bytes_ok)|]. split; [|vm_compute; reflexivity].
  intros H. specialize (H 0x400002 ltac:(right; vm_compute; discriminate)). vm_compute in H. discriminate H.
Qed.
Print Assumptions C76_end_refuted.
Example C77_case :
  (forall i, (i < 3)%nat -> ~ risky first_match (word_at (ref m_exec i i_mach))) /\
  k_wrong (a_csr (m_arch (ref m_exec 3 i_mach))) = k_wrong (a_csr (m_arch i_mach)).
Proof.
  assert (R : forall i, (i < 3)%nat -> ~ risky first_match (word_at (ref m_exec i i_mach))).
  { intros i Hi. apply riskyb_no. destruct i as [|[|[|i]]]; [vm_compute; reflexivity..|lia]. }
  split; [exact R|]. apply (C77_run first_match (fun _ => None) m_sys (fun _ _ _ => 170) (fun _ => 0) 3 i_mach PropDecode.first_match_ok m_sys_ok m_sys_defined); try assumption.
  - discriminate.
  - exact m_junk_ok.
  - split; [vm_compute; discriminate|reflexivity].
  - exact (i_sized _ _ i_mem_ok).
Qed.
(** Each class of [risky] does go wrong in some sized state: vsha.w by -2^31, vdwconv
    before any adwinit, flog of a text with a conversion and no argument, acset in another
    encoding. *)
Definition goes_wrong (name : string) (w : Z) (l : list (Z * Z)) : Prop :=
  option_map e_name (parse first_match w) = Some name /\ sized (i_arch l) m_bytes /\
  k_wrong (a_csr (i_arch l)) = false /\ k_wrong (a_csr (f_arch (m_exec w 0 (i_arch l) m_bytes))) = true.
Theorem C77_any_refuted :
  goes_wrong "vsha_w_vx" (8 * 2 ^ 26 + 2 * 2 ^ 20 + 2 * 2 ^ 12 + 8 * 2 ^ 6 + 10) [(2, 2 ^ 31)] /\
  goes_wrong "vdwconv_vxv" (2 * 2 ^ 20 + 2 * 2 ^ 12 + 8 * 2 ^ 6 + 21) [] /\
  goes_wrong "flog" (15 * 2 ^ 27 + 5 * 2 ^ 15 + 119) [] /\
  goes_wrong "acset" (16 * 2 ^ 26 + 16 * 2 ^ 14 + 48 * 2 ^ 6 + 7) [].
Proof.
  split; [|split; [|split]]; (split; [vm_compute; reflexivity|]; split; [exact (i_sized _ _ m_bytes_ok)|]; split; vm_compute; reflexivity).
Qed.
Print Assumptions C77_any_refuted.
(** The shift by one more is defined, so the class is wider than the failing states. *)
Example C77_shift_case : k_wrong (a_csr (f_arch (m_exec (8 * 2 ^ 26 + 2 * 2 ^ 20 + 2 * 2 ^ 12 + 8 * 2 ^ 6 + 10) 0 (i_arch [(2, 2 ^ 31 + 1)]) m_bytes))) = false.
Proof. vm_compute. reflexivity. Qed.
