(** * C86: the csr instructions of the V1 core *)
From Coq Require Import ZArith List Bool String Lia.
From Verif Require Import CInt VecModel DecodeTypes V2DecTypes V2DecModel DecodeModel DecodeSpec V2DecSpec V1ScalModel V1ScalSpec.
From Verif Require Import VecModel ConvModel MemModel LogModel TopModel TopSpec MachModel MachSpec MachInvSpec FootSpec RvSpec CsrModel CsrSpec CsrProofs.
Import ListNotations.
Open Scope Z_scope.

Section C86.
  Context {S : Type}.
  Notation arch := (arch (C := core S)).
  Variable d : decoder.
  Variable zbb : Z -> option act.
  Variable csrs : csr_file S.
  Variable priv : act -> Z -> arch -> (Z -> Z) -> arch * (Z -> Z) * Z * option Z.
  Variable junk : Z -> Z -> vbytes.
  Variable ljunk : Z -> Z.
  Notation exec := (exec1 d zbb (csr_sys csrs priv) junk ljunk).

  (** Every csr word: memory, accumulators and log are kept, the pc moves on.  If the csr
      may be used, rd (unless x0) gets its old value and the csr is written, set or
      cleared with the operand the register had before; a write without destination does
      not read, a set or clear with x0 or 0 does not write.  Otherwise nothing changes
      and the run ends. *)
  Theorem C86_csr w a (s : arch) m : decoder_ok d -> csr_word w ->
    let f := exec w a s m in let k := k_sys (a_csr s) in let old := c_read csrs (csr_no w) k in
    f_mem f = m /\ f_pc f = (a + 4) mod 2 ^ 32 /\ csr_keeps s (f_arch f) /\
    (c_ok csrs (csr_no w) (csr_writes w) k = true ->
       f_halt f = None /\
       (csr_reads w -> writes (at_ w 7 5) (fun v => v = fst old mod 2 ^ 32) s (f_arch f) /\
                       k_sys (a_csr (f_arch f)) = csr_written csrs w (csr_operand w s) (snd old)) /\
       (~ csr_reads w -> a_regs (f_arch f) = a_regs s /\ k_sys (a_csr (f_arch f)) = csr_written csrs w (csr_operand w s) k)) /\
    (c_ok csrs (csr_no w) (csr_writes w) k = false ->
       f_halt f = Some RUserRequest /\ a_regs (f_arch f) = a_regs s /\ k_sys (a_csr (f_arch f)) = k).
  Proof. exact (csr_exec d zbb csrs priv junk ljunk w a s m). Qed.

  (** Only ten instructions depend on code outside the model. *)
  Theorem C86_rest priv' w a (s : arch) m e : decoder_ok d -> parse d w = Some e -> ~ In (e_name e) privileged ->
    exec1 d zbb (csr_sys csrs priv') junk ljunk w a s m = exec w a s m.
  Proof. exact (priv_unused d zbb csrs priv junk ljunk priv' w a s m e). Qed.

  (** What C76, C77 and C83 ask of csr instructions holds, whatever the csrs do. *)
  Theorem C86_contracts :
    (sys_ok priv -> sys_ok (csr_sys csrs priv)) /\ (sys_defined priv -> sys_defined (csr_sys csrs priv)) /\ (sys_quiet priv -> sys_quiet (csr_sys csrs priv)).
  Proof. exact (conj (csr_ok csrs priv) (conj (csr_defined csrs priv) (csr_quiet csrs priv))). Qed.
End C86.
Print Assumptions C86_csr.
Print Assumptions C86_rest.
Print Assumptions C86_contracts.

(** ** Cases: two csrs, mscratch and the read-only kisa; reads are counted. *)
From Verif Require Import PropMach DecodeModel.
Definition ex_csrs : csr_file ((Z -> Z) * Z) :=
  Csrs (fun n w _ => ((n =? 0x340) || (n =? 0xfc0)) && negb (w && (3 <=? n / 1024)))
       (fun n f => (fst f n, (fst f, snd f + 1)))
       (fun n v f => (upd (fst f) n v, snd f))
       (fun n v f => (upd (fst f) n (Z.lor (fst f n) v), snd f))
       (fun n v f => (upd (fst f) n (Z.ldiff (fst f n) v), snd f)).
Definition ex_arch : arch (C := core ((Z -> Z) * Z)) :=
  Arch (m_regs [(5, 0xf0); (6, 0x3c)]) (Core _ (fun _ _ => 7) None (LS [] [] []) 0 false (fun n => n + 1, 0)).
Definition ex_priv (c : act) (a : Z) (s : arch (C := core ((Z -> Z) * Z))) (m : Z -> Z) := (s, m, (a + 4) mod 2 ^ 32, @None Z).
Definition ex_run (w : Z) :=
  let f := exec1 DecodeModel.first_match (fun _ => None) (csr_sys ex_csrs ex_priv) (fun _ _ _ => 170) (fun _ => 0) w 100 ex_arch m_bytes in
  (f_halt f, map (a_regs (f_arch f)) [0; 5; 6], let k := k_sys (a_csr (f_arch f)) in (fst k 0x340, fst k 0xfc0, snd k)).
(** csrrw x5, mscratch, x6 swaps; csrrw x6, mscratch, x6 too; csrrs x5, mscratch, x6;
    csrrci x5, mscratch, 1; csrrw x0, mscratch, x6 does not read; csrr x5, kisa. *)
Example C86_case :
  ex_run 0x340312f3 = (None, [0; 0x341; 0x3c], (0x3c, 0xfc1, 1)) /\
  ex_run 0x34031373 = (None, [0; 0xf0; 0x341], (0x3c, 0xfc1, 1)) /\
  ex_run 0x340322f3 = (None, [0; 0x341; 0x3c], (0x37d, 0xfc1, 1)) /\
  ex_run 0x3400f2f3 = (None, [0; 0x341; 0x3c], (0x340, 0xfc1, 1)) /\
  ex_run 0x34031073 = (None, [0; 0xf0; 0x3c], (0x3c, 0xfc1, 0)) /\
  ex_run 0xfc0022f3 = (None, [0; 0xfc1; 0x3c], (0x341, 0xfc1, 1)).
Proof. repeat apply conj; vm_compute; reflexivity. Qed.
(** Refused: csrrs x5, kisa, x6 (read-only) and csrrw x5, 0x7c0, x6 (no such csr). *)
Example C86_refused_case :
  ex_run 0xfc0322f3 = (Some RUserRequest, [0; 0xf0; 0x3c], (0x341, 0xfc1, 0)) /\
  ex_run 0x7c0312f3 = (Some RUserRequest, [0; 0xf0; 0x3c], (0x341, 0xfc1, 0)).
Proof. repeat apply conj; vm_compute; reflexivity. Qed.
Example C86_words_case : csr_word 0x340312f3 /\ csr_word 0x3400f2f3 /\ csr_reads 0x340312f3 /\ ~ csr_reads 0x34031073 /\ csr_writes 0xfc0022f3 = false.
Proof.
  assert (W : forall w, 0 <= w < 2 ^ 32 -> at_ w 0 7 = 115 -> at_ w 12 2 <> 0 -> csr_word w) by (intros w A B C; split; [exact A|split; [exact B|exact C]]).
  repeat apply conj; try (apply W; [lia|reflexivity|vm_compute; discriminate]).
  - right. vm_compute. discriminate.
  - intros [H|H]; apply H; reflexivity.
  - reflexivity.
Qed.
(** ecall is left to mpact-riscv, fence is not. *)
Example C86_rest_case : option_map e_name (parse DecodeModel.first_match 0x73) = Some "ecall"%string /\ option_map e_name (parse DecodeModel.first_match 0xff0000f) = Some "fence"%string /\
  ~ In "fence"%string privileged.
Proof. repeat apply conj; try (vm_compute; reflexivity). intros H. vm_compute in H. repeat (destruct H as [H|H]; [discriminate H|]). exact H. Qed.
