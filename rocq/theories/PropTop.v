(** * Debug interface: C33-C39 and C56 *)
From Coq Require Import ZArith List Bool String Lia.
From Verif Require Import CInt TopModel TopSpec TopProofs TopProofs2 TopProofs3 TopProofs4 TopCor TopToy.
Import ListNotations.
Open Scope Z_scope.

Section P.
  Context {C : Type}.
  Variable exec : Z -> Z -> arch (C := C) -> (Z -> Z) -> effect (C := C).
  Variable evicted : Z -> Z -> bool.
  Variable reg_id : string -> option Z.
  Variable reg_size : Z -> Z.
  Variable csr_id : string -> option Z.
  Variable csr_get : Z -> C -> Z.
  Variable csr_set : Z -> Z -> C -> C.
  Notation do := (do_call exec evicted reg_id reg_size csr_id csr_get csr_set).
  Notation history := (history exec evicted reg_id reg_size csr_id csr_get csr_set).
  Notation follows := (follows exec reg_id reg_size csr_id csr_set).
  Notation clean_along := (clean_along exec reg_id reg_size csr_id csr_set).
  Notation clean := (clean exec).
  Notation ref := (ref exec).
  Notation ref_halt := (ref_halt exec).
  Notation first_stop := (first_stop exec).
  Notation start m := (fresh (m_arch m) (m_mem m) (m_pc m)).

  (** C33. Whatever the order of the allowed calls, the debugged program is in a
      state of the undebugged program under the same debugger writes, and shows it.
      Missing for the full claim: the calls excluded by [allowed], see the
      refutations below. *)
  Theorem C33_breakpoints_transparent_partial code m0 h s :
    bytes_ok (m_mem m0) -> 0 <= m_pc m0 < 2 ^ 32 ->
    history (allowed code m0) (start m0) h s -> clean_along code m0 h (t_insts s) ->
    exists k m, follows m0 h k m /\ Z.of_nat k <= t_insts s /\ shows s m /\ t_status s = Halted.
  Proof. intros H1 H2. exact (transparent exec evicted reg_id reg_size csr_id csr_get csr_set code m0 H1 H2 h s). Qed.

  (** C33. Once all breakpoints are cleared, memory is the program's own. *)
  Theorem C33_cleared_partial code m0 h s r s' :
    bytes_ok (m_mem m0) -> 0 <= m_pc m0 < 2 ^ 32 ->
    history (allowed code m0) (start m0) h s -> clean_along code m0 h (t_insts s) ->
    t_reason s <> RSwBreakpoint -> do CClearAll s = Some (Ok (r, s')) ->
    exists k m, follows m0 h k m /\ r = ROk /\ t_pc s' = m_pc m /\ t_arch s' = m_arch m /\
      (forall x, t_mem s' x = m_mem m x) /\ t_bps s' = [].
  Proof. intros H1 H2. exact (cleared exec evicted reg_id reg_size csr_id csr_get csr_set code m0 H1 H2 h s r s'). Qed.

  (** C33, C35. A Run ends at the first breakpoint or halting instruction and only
      there, and is never undefined.  When it resumes from a breakpoint the
      instruction under the breakpoint is executed first, whatever halt it asks for. *)
  Theorem C33_run_exact_partial code m0 h s :
    bytes_ok (m_mem m0) -> 0 <= m_pc m0 < 2 ^ 32 ->
    history (allowed code m0) (start m0) h s -> clean_along code m0 h (t_insts s) ->
    exists k m, follows m0 h k m /\ shows s m /\
      forall fuel,
        match run exec evicted fuel s with
        | Some (Ok (r, s')) =>
            (forall i, Z.of_nat i < t_insts s' - t_insts s -> clean code (ref i m)) ->
            exists n, r = ROk /\ shows s' (ref n m) /\ t_status s' = Halted /\ t_bps s' = t_bps s /\
              (t_reason s <> RSwBreakpoint -> first_stop (t_bps s) m 0 n (t_reason s')) /\
              (t_reason s = RSwBreakpoint -> (1 <= n)%nat /\ first_stop (t_bps s) (ref 1 m) 0 (n - 1) (t_reason s'))
        | Some _ => False
        | None =>
            (forall i, (i <= fuel)%nat -> clean code (ref i m)) ->
            let d := if reason_eqb (t_reason s) RSwBreakpoint then 1%nat else 0%nat in
            forall i, (i < fuel)%nat -> ~ In (m_pc (ref (d + i) m)) (t_bps s) /\ ref_halt (ref (d + i) m) = None
        end.
  Proof. intros H1 H2. exact (run_exact exec evicted reg_id reg_size csr_id csr_get csr_set code m0 H1 H2 h s). Qed.

  (** C34, C35. Step(n), not at a breakpoint: n instructions, or up to the first
      breakpoint (which counts as one) or halting instruction.  At a breakpoint:
      honours the halt of the instruction there; Step(1) is undefined without one. *)
  Theorem C34_step_exact_partial code m0 h s :
    bytes_ok (m_mem m0) -> 0 <= m_pc m0 < 2 ^ 32 ->
    history (allowed code m0) (start m0) h s -> clean_along code m0 h (t_insts s) ->
    exists k m, follows m0 h k m /\ shows s m /\
      (t_reason s <> RSwBreakpoint -> forall num, 0 < num ->
        match step exec evicted num s with
        | Ok (r, s') =>
            (forall i, Z.of_nat i < t_insts s' - t_insts s -> clean code (ref i m)) ->
            exists n v, r = RVal v /\ shows s' (ref n m) /\ t_status s' = Halted /\ t_bps s' = t_bps s /\
              ((v = num /\ Z.of_nat n = num /\ t_reason s' = RNone /\
                forall i, (i < n)%nat -> ~ In (m_pc (ref i m)) (t_bps s) /\ ref_halt (ref i m) = None) \/
               (v = Z.of_nat n + 1 /\ v <= num /\ t_reason s' = RSwBreakpoint /\ first_stop (t_bps s) m 0 n (t_reason s')) \/
               (v = Z.of_nat n /\ v <= num /\ t_reason s' <> RSwBreakpoint /\ first_stop (t_bps s) m 0 n (t_reason s')))
        | _ => False
        end) /\
      (t_reason s = RSwBreakpoint -> clean code m ->
        match ref_halt m with
        | Some r => forall num, 0 < num -> exists s', step exec evicted num s = Ok (RVal 1, s') /\ shows s' (ref 1 m) /\ t_reason s' = r
        | None => step exec evicted 1 s = UB Uninitialised
        end).
  Proof. intros H1 H2. exact (step_exact exec evicted reg_id reg_size csr_id csr_get csr_set code m0 H1 H2 h s). Qed.

  (** C34. Step(n) with n <= 0, or while not halted, changes nothing. *)
  Theorem C34_step_rejected num (s : top (C := C)) : num <= 0 \/ t_status s <> Halted ->
    step exec evicted num s = Ok (RErr (if num <=? 0 then EInvalidArgument else EFailedPrecondition), s).
  Proof.
    intros H. unfold step. destruct (num <=? 0) eqn:E; [reflexivity|]. destruct H as [H|H]; [lia|].
    destruct (t_status s); [contradiction|reflexivity|reflexivity].
  Qed.

  (** C33. HasBreakpoint, and the failures of setting and clearing, follow the calls
      made so far, in any history. *)
  Theorem C33_breakpoint_set P m0 (s : top (C := C)) h a : history P (start m0) h s ->
    do (CHasBp a) s = Some (Ok (RVal (if armed h a false then 1 else 0), s)) /\
    fst (set_breakpoint a s) = (if armed h a false then RErr EAlreadyExists else ROk) /\
    fst (clear_breakpoint a s) = (if armed h a false then ROk else RErr ENotFound).
  Proof. exact (bp_set_exact exec evicted reg_id reg_size csr_id csr_get csr_set (fun _ => True) m0 P s h a). Qed.

  (** C56. GetDisassembly shows the program's own instruction, also under a
      breakpoint, and changes nothing visible. *)
  Theorem C56_disassembly_partial code m0 h s a :
    bytes_ok (m_mem m0) -> 0 <= m_pc m0 < 2 ^ 32 ->
    history (allowed code m0) (start m0) h s -> clean_along code m0 h (t_insts s) ->
    0 <= a -> a mod 4 = 0 -> word_in_code code a ->
    exists k m s', follows m0 h k m /\ shows s m /\
      disassembly evicted a s = (RVal (load32 (m_mem m) a), s') /\ shows s' m /\
      t_bps s' = t_bps s /\ t_status s' = t_status s /\ t_reason s' = t_reason s /\ t_insts s' = t_insts s.
  Proof. intros H1 H2. exact (disasm_exact exec evicted reg_id reg_size csr_id csr_get csr_set code m0 H1 H2 h s a). Qed.

  (** C36. *)
  Theorem C36_write_memory a buf (s : top (C := C)) : t_status s = Halted -> 0 <= a <= max_address -> Z.of_nat (length buf) < 2 ^ 64 ->
    exists s', write_memory a buf s = (RVal (Z.min (Z.of_nat (length buf)) (max_address - a + 1)), s') /\
      (forall x, t_mem s' x = written (t_mem s) a buf x) /\ same_but_mem s s' /\
      fst (read_memory a (Z.of_nat (length buf)) s') = RBytes (firstn (Z.to_nat (max_address - a + 1)) buf).
  Proof.
    intros H1 H2 H3. destruct (write_memory_ok a buf s H1 H2 H3) as (s' & E & M & B). exists s'.
    split; [exact E|]. split; [exact M|]. split; [exact B|]. exact (read_back a buf s s' _ H1 H2 H3 E).
  Qed.
  Theorem C36_read_memory a n (s : top (C := C)) : t_status s = Halted -> 0 <= a <= max_address -> 0 <= n < 2 ^ 64 ->
    read_memory a n s =
    (RBytes (map (fun i => t_mem s (a + Z.of_nat i)) (seq 0 (Z.to_nat (Z.min n (max_address - a + 1))))), s).
  Proof. exact (read_memory_ok a n s). Qed.
  Theorem C36_rejected a n buf (s : top (C := C)) : max_address < a \/ t_status s <> Halted ->
    exists c, read_memory a n s = (RErr c, s) /\ write_memory a buf s = (RErr c, s).
  Proof.
    intros H. unfold read_memory, write_memory, guarded. destruct (is_halted (t_status s)) eqn:E; [|eexists; split; reflexivity].
    destruct H as [H|H]; [|destruct (t_status s); [contradiction|discriminate|discriminate]].
    apply Z.ltb_lt in H. rewrite H. eexists; split; reflexivity.
  Qed.

  (** C37. *)
  Theorem C37_load_image l a (s : top (C := C)) : t_status s = Halted -> 0 <= a < 2 ^ 64 ->
    exists s', load_image (Some l) a s =
        ((if (Z.of_nat (length l) =? 0) || (a + Z.of_nat (length l) <=? max_address + 1) then ROk else RErr EInternal), s') /\
      (forall x, t_mem s' x = written (t_mem s) a l x) /\ same_but_mem s s'.
  Proof. exact (load_image_ok l a s). Qed.
  Theorem C37_load_image_rejected l a (s : top (C := C)) :
    load_image None a s = (RErr EInternal, s) /\
    (t_status s <> Halted -> l <> [] -> load_image (Some l) a s = (RErr EInternal, s)).
  Proof. exact (conj eq_refl (load_image_rejected l a s)). Qed.

  (** C38. *)
  Theorem C38_register_round_trip name v (s : top (C := C)) i : t_status s = Halted -> reg_id name = Some i -> size_ok (reg_size i) = true ->
    exists s', write_register reg_id reg_size csr_id csr_set name v s = (ROk, s') /\
      read_register reg_id reg_size csr_id csr_get name s' = (RVal (v mod 2 ^ (8 * reg_size i)), s') /\
      same_but_arch s s' /\ a_csr (t_arch s') = a_csr (t_arch s) /\
      (forall j, j <> i -> a_regs (t_arch s') j = a_regs (t_arch s) j) /\
      (name <> pc_name -> t_pc s' = t_pc s /\ t_reason s' = t_reason s) /\
      (name = pc_name -> t_arch s' = t_arch s).
  Proof. exact (register_round_trip reg_id reg_size csr_id csr_get csr_set name v s i). Qed.
  (** CSRs: exactly the CSR's own write and read, of 32 bits. *)
  Theorem C38_csr name v (s : top (C := C)) c : t_status s = Halted -> reg_id name = None -> csr_id name = Some c ->
    write_register reg_id reg_size csr_id csr_set name v s =
      (ROk, set_arch (Arch (a_regs (t_arch s)) (csr_set c (v mod 2 ^ 32) (a_csr (t_arch s)))) s) /\
    read_register reg_id reg_size csr_id csr_get name s = (RVal (csr_get c (a_csr (t_arch s)) mod 2 ^ 32), s).
  Proof. exact (csr_access reg_id reg_size csr_id csr_get csr_set name v s c). Qed.
  Theorem C38_rejected name v (s : top (C := C)) :
    (t_status s <> Halted ->
       read_register reg_id reg_size csr_id csr_get name s = (RErr EFailedPrecondition, s) /\
       write_register reg_id reg_size csr_id csr_set name v s = (RErr EFailedPrecondition, s)) /\
    (t_status s = Halted -> reg_id name = None -> csr_id name = None ->
       read_register reg_id reg_size csr_id csr_get name s = (RErr ENotFound, s) /\
       write_register reg_id reg_size csr_id csr_set name v s = (RErr ENotFound, s)).
  Proof. exact (register_rejected reg_id reg_size csr_id csr_get csr_set name v s). Qed.
  (** Registers of other sizes (the 32-byte vector registers) cannot be accessed. *)
  Theorem C38_wide_register name v (s : top (C := C)) i :
    t_status s = Halted -> reg_id name = Some i -> size_ok (reg_size i) = false -> name <> pc_name ->
    read_register reg_id reg_size csr_id csr_get name s = (RErr EInternal, s) /\
    write_register reg_id reg_size csr_id csr_set name v s = (RErr EInternal, s).
  Proof. exact (wide_register reg_id reg_size csr_id csr_get csr_set name v s i). Qed.

  (** C39. *)
  Theorem C39_rejected_while_running c (s : top (C := C)) : t_status s <> Halted ->
    match c with
    | CStep n => 0 < n
    | CSetBp _ | CClearBp _ | CClearAll | CReadReg _ | CWriteReg _ _ | CReadMem _ _ | CWriteMem _ _ | CDisasm _ => True
    | CRun _ => t_status s = Running
    | _ => False
    end -> do c s = Some (Ok (RErr EFailedPrecondition, s)).
  Proof.
    intros H1 H2. destruct c; try contradiction H2; try exact (run_rejected exec evicted fuel s H2);
      (apply (rejected exec evicted reg_id reg_size csr_id csr_get csr_set _ s H1); first [reflexivity|now apply Z.ltb_lt]).
  Qed.
  Theorem C39_halted_between_calls P m0 h (s : top (C := C)) : history P (start m0) h s -> t_status s = Halted.
  Proof. intros H. exact (history_status exec evicted reg_id reg_size csr_id csr_get csr_set P _ _ _ H eq_refl). Qed.
  (** Halt is the exception: it is accepted while running, and the run loop that finds
      its request executes nothing more. *)
  Theorem C39_halt (s : top (C := C)) : exists r s', do CHalt s = Some (Ok (r, s')) /\
    (t_status s = Halted -> r = ROk /\ s' = s) /\
    (t_status s = SingleStep -> r = RErr EFailedPrecondition /\ s' = s) /\
    (t_status s = Running -> r = ROk /\ t_reason s' = RUserRequest /\ t_status s' = Running /\ t_arch s' = t_arch s /\ t_mem s' = t_mem s /\ t_pc s' = t_pc s /\
      t_bps s' = t_bps s /\ t_map s' = t_map s /\ t_need s' = t_need s /\ t_insts s' = t_insts s /\
      forall fuel pc next, run_loop exec evicted fuel pc next s' = Some (pc, next, s')).
  Proof.
    cbn [do_call]. unfold halt. destruct (t_status s) eqn:E; eexists; eexists; (split; [reflexivity|]); (split; [|split]); intros H; try discriminate H; try (split; reflexivity).
    rewrite <- E. repeat split; try reflexivity. intros fuel pc next. destruct fuel; reflexivity.
  Qed.
End P.

(** ** Cases meeting the hypotheses *)
(** Breakpoints at 4 and 8 in the loop 1 2 5 3 9, hit, disassembled, passed, one
    cleared, data written, the other hit again: the program went 1 2 5 3 9 1 2. *)
Definition case_calls : list call :=
  [CSetBp 4; CSetBp 8; CRun 50; CDisasm 4; CReadMem 4 4; CRun 50; CClearBp 4; CWriteMem 200 [1; 2]; CRun 50].
Example case_history : exists rs s, toy_history (allowed toy_code (toy_m0 toy_prog)) (toy_fresh toy_prog) (combine case_calls rs) s /\
  rs = [ROk; ROk; ROk; RVal 2; RBytes [115; 0; 16; 0]; ROk; ROk; RVal 2; ROk] /\
  t_pc s = 8 /\ a_regs (t_arch s) 1 = 1253912 /\ t_reason s = RSwBreakpoint /\ t_insts s = 10 /\ t_bps s = [8] /\
  toy_clean_along toy_code (toy_m0 toy_prog) (combine case_calls rs) (t_insts s).
Proof.
  destruct (play case_calls (toy_fresh toy_prog)) as [[[rs s]|k|]|] eqn:E;
    [|(assert (X := f_equal seen E); vm_compute in X; discriminate X)..].
  assert (S : seen (play case_calls (toy_fresh toy_prog)) = seen (Some (Ok (rs, s)))) by now rewrite E.
  vm_compute in S. injection S as S1 S2 S3 S4.
  assert (S5 : match play case_calls (toy_fresh toy_prog) with Some (Ok (_, s)) => (t_insts s, t_bps s) | _ => (0, []) end = (t_insts s, t_bps s)) by now rewrite E.
  vm_compute in S5. injection S5 as S5 S6.
  exists rs, s. split; [|clear E; split; [symmetry; exact S1|split; [symmetry; exact S2|split; [symmetry; exact S3|
    split; [symmetry; exact S4|split; [symmetry; exact S5|split; [symmetry; exact S6|]]]]]]].
  - apply (play_history _ _ _ _ _ E). intros l1 c l2 rs1 s1 EL EP.
    assert (SS : seen (play l1 (toy_fresh toy_prog)) = seen (Some (Ok (rs1, s1)))) by now rewrite EP.
    clear EP E S1 S2 S3 S4 S5 S6. unfold case_calls in EL.
    repeat (destruct l1 as [|? l1]; cbn [app] in EL;
      [injection EL as <- _; vm_compute in SS; injection SS as _ SS1 SS2 SS3; cbn [allowed];
       unfold bp_ok, word_in_code, toy_code;
       first [exact I|(repeat split; first [lia|(intros; lia)|(let X := fresh in intros X; vm_compute in X; discriminate X)])|(intros [_ X]; unfold t_pc in X; rewrite <- SS1 in X; discriminate X)]
      |injection EL as <- EL]).
    now apply app_cons_not_nil in EL.
  - apply toy_along. rewrite <- S1. cbn. intros c r H.
    repeat (destruct H as [H|H]; [injection H as <- _; cbn; lia || exact I|]). destruct H.
Qed.

(** C34. Not at a breakpoint Step(3) executes three; a breakpoint counts as one. *)
Example C34_case :
  seen (play [CStep 3] (toy_fresh toy_prog)) = Some ([RVal 3], 12, 125, RNone) /\
  seen (play [CSetBp 8; CStep 7] (toy_fresh toy_prog)) = Some ([ROk; RVal 3], 8, 12, RSwBreakpoint) /\
  seen (play [CStep 5] (toy_fresh [1; 2; 7; 3])) = Some ([RVal 3], 12, 127, ROther 1) /\
  seen (play [CSetBp 8; CRun 9; CStep 5] (toy_fresh [1; 2; 7; 3])) = Some ([ROk; ROk; RVal 1], 12, 127, ROther 1) /\
  seen (play [CStep 0] (toy_fresh toy_prog)) = Some ([RErr EInvalidArgument], 0, 0, RNone).
Proof. vm_compute. repeat split. Qed.
Example C36_case :
  seen (play [CWriteMem 0x3ffffe [5; 6; 7; 8]; CReadMem 0x3ffffe (2 ^ 64 - 1); CReadMem 0x400000 1; CWriteMem 0x400000 [1]] (toy_fresh toy_prog))
  = Some ([RVal 2; RBytes [5; 6]; RErr EInvalidArgument; RErr EInvalidArgument], 0, 0, RNone).
Proof. vm_compute. reflexivity. Qed.
Example C37_case :
  seen (play [CLoadImage (Some (repeat 3 (Z.to_nat 4099))) 0x1000; CReadMem 0x1ffe 6; CLoadImage (Some [1; 2]) 0x3fffff; CReadMem 0x3fffff 1; CLoadImage None 0]
    (toy_fresh toy_prog))
  = Some ([ROk; RBytes [3; 3; 3; 3; 3; 0]; RErr EInternal; RBytes [1]; RErr EInternal], 0, 0, RNone).
Proof. vm_compute. reflexivity. Qed.
Example C38_case :
  seen (play [CWriteReg "ra" (2 ^ 32 + 5); CReadReg "x1"; CWriteReg "pc" 8; CReadReg "pc"; CReadReg "v0"; CReadReg "nosuch"; CWriteReg "mcycle" 3; CReadReg "mcycle"]
    (toy_fresh toy_prog))
  = Some ([ROk; RVal 5; ROk; RVal 8; RErr EInternal; RErr ENotFound; ROk; RVal 0], 8, 5, RNone).
Proof. vm_compute. reflexivity. Qed.
Example C39_case :
  toy_call (CWriteMem 0 [1]) (set_status Running (toy_fresh toy_prog)) = Some (Ok (RErr EFailedPrecondition, set_status Running (toy_fresh toy_prog))).
Proof. reflexivity. Qed.
(** Halted before the first round of the loop; without the request it executes. *)
Example C39_halt_case :
  let s := set_status Running (toy_fresh toy_prog) in
  match toy_call CHalt s with
  | Some (Ok (r, s')) => r = ROk /\ option_map (fun x => t_insts (snd x)) (run_loop toy_exec never 9 None 0 s') = Some 0 /\ run_loop toy_exec never 0 None 0 s = None
  | _ => False
  end.
Proof. vm_compute. repeat split. Qed.

(** ** Where the full claims fail *)
(** C34: Step(2) right after stopping at a breakpoint executes 2 and 5 but leaves pc
    at 8, the address of the instruction just executed, so 5 runs again. *)
Theorem C34_step_at_breakpoint_refuted :
  seen (play [CSetBp 4; CRun 9] (toy_fresh toy_prog)) = Some ([ROk; ROk], 4, 1, RSwBreakpoint) /\
  seen (play [CSetBp 4; CRun 9; CStep 2] (toy_fresh toy_prog)) = Some ([ROk; ROk; RVal 2], 8, 125, RNone) /\
  m_pc (ref toy_exec 3 (toy_m0 toy_prog)) = 12 /\ a_regs (m_arch (ref toy_exec 3 (toy_m0 toy_prog))) 1 = 125 /\
  seen (play [CSetBp 4; CRun 9; CStep 2; CStep 1] (toy_fresh toy_prog)) = Some ([ROk; ROk; RVal 2; RVal 1], 12, 1255, RNone).
Proof. vm_compute. repeat split. Qed.
(** C34: Step(1) there reads the local variable pc before it is assigned. *)
Theorem C34_step_one_refuted :
  play [CSetBp 4; CRun 9; CStep 1] (toy_fresh toy_prog) = Some (UB Uninitialised).
Proof. vm_compute. reflexivity. Qed.
(** C34: a Step that meets a breakpoint reports one instruction too many. *)
Theorem C34_count_refuted :
  seen (play [CSetBp 4; CStep 5] (toy_fresh toy_prog)) = Some ([ROk; RVal 2], 4, 1, RSwBreakpoint) /\
  a_regs (m_arch (ref toy_exec 1 (toy_m0 toy_prog))) 1 = 1.
Proof. vm_compute. repeat split. Qed.
(** C35: resuming with Run from a breakpoint on a halting instruction (7 at address
    4) runs through it to the next one. *)
Theorem C35_run_at_breakpoint_refuted :
  seen (play [CRun 9] (toy_fresh [1; 7; 2; 7])) = Some ([ROk], 8, 17, ROther 1) /\
  seen (play [CSetBp 4; CRun 9; CRun 9] (toy_fresh [1; 7; 2; 7])) = Some ([ROk; ROk; ROk], 16, 1727, ROther 1).
Proof. vm_compute. repeat split. Qed.
(** C33: clearing the breakpoint the core is stopped at, then running, leaves an
    ebreak in the program although no breakpoint is set, and the program stops. *)
Theorem C33_clear_at_breakpoint_refuted :
  match play [CSetBp 4; CRun 9; CClearBp 4; CRun 20] (toy_fresh toy_prog) with
  | Some (Ok (rs, s)) => rs = [ROk; ROk; ROk; ROk] /\ t_bps s = [] /\ load32 (t_mem s) 4 = ebreak /\ t_reason s = RAbort
  | _ => False
  end.
Proof. vm_compute. repeat split. Qed.
(** C33: writing pc while stopped at a breakpoint, then running, plants an ebreak at
    the new pc. *)
Theorem C33_pc_write_at_breakpoint_refuted :
  match play [CSetBp 4; CRun 9; CWriteReg "pc" 12; CRun 9] (toy_fresh toy_prog) with
  | Some (Ok (rs, s)) => rs = [ROk; ROk; ROk; ROk] /\ t_bps s = [4] /\ load32 (t_mem s) 12 = ebreak
  | _ => False
  end.
Proof. vm_compute. repeat split. Qed.
(** C33: an instruction replaced by the debugger after its breakpoint was cleared is
    overwritten with the old one when a breakpoint is set and cleared again. *)
Theorem C33_code_write_refuted :
  match play [CSetBp 4; CClearBp 4; CWriteMem 4 [3; 0; 0; 0]; CSetBp 4; CClearBp 4] (toy_fresh toy_prog) with
  | Some (Ok (rs, s)) => rs = [ROk; ROk; RVal 4; ROk; ROk] /\ t_bps s = [] /\ load32 (t_mem s) 4 = 2
  | _ => False
  end.
Proof. vm_compute. repeat split. Qed.
(** C35: a breakpoint on the program's own ebreak hides its halt. *)
Theorem C35_ebreak_under_breakpoint_refuted :
  seen (play [CRun 9] (toy_fresh [1; ebreak; 2; 7])) = Some ([ROk], 8, 1, RAbort) /\
  seen (play [CSetBp 4; CRun 9; CRun 9] (toy_fresh [1; ebreak; 2; 7])) = Some ([ROk; ROk; ROk], 16, 127, ROther 1).
Proof. vm_compute. repeat split. Qed.
(** C36: code written by the debugger is not executed if the old instruction is
    still in the decode cache. *)
Theorem C36_code_write_refuted :
  match play [CStep 5; CWriteMem 0 [3; 0; 0; 0]; CReadMem 0 4; CStep 1] (toy_fresh toy_prog) with
  | Some (Ok (rs, s)) => rs = [RVal 5; RVal 4; RBytes [3; 0; 0; 0]; RVal 1] /\ a_regs (t_arch s) 1 = 125391
  | _ => False
  end.
Proof. vm_compute. repeat split. Qed.

Print Assumptions C33_breakpoints_transparent_partial.
Print Assumptions C33_cleared_partial.
Print Assumptions C33_run_exact_partial.
Print Assumptions C33_breakpoint_set.
Print Assumptions C34_step_exact_partial.
Print Assumptions C34_step_rejected.
Print Assumptions C56_disassembly_partial.
Print Assumptions C36_write_memory.
Print Assumptions C36_read_memory.
Print Assumptions C36_rejected.
Print Assumptions C37_load_image.
Print Assumptions C37_load_image_rejected.
Print Assumptions C38_register_round_trip.
Print Assumptions C38_csr.
Print Assumptions C38_rejected.
Print Assumptions C38_wide_register.
Print Assumptions C39_rejected_while_running.
Print Assumptions C39_halted_between_calls.
Print Assumptions C39_halt.
