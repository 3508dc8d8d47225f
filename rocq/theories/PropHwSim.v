(** * Mailbox simulator: property C54 *)
From Coq Require Import ZifyBool ZifyNat.
From Verif Require Import CInt HwSimModel HwSimSpec.
From Verif Require HwSimProofs.
Import ListNotations.

(** A toy core for the examples: (pc, executed). A word with low byte 0x13 goes
    on; low byte 0x23 stores 0x77 at address 0x100 and goes on; low byte 0x6f
    jumps to 0x4000; the words 0x73 go on; anything else fails. *)
Definition tcore := (Z * Z)%type.
Definition tstep (c : tcore) (m : Z -> Z) : bool * tcore * (Z -> Z) :=
  let b := m (fst c) in
  let next := (fst c + 4, snd c + 1) in
  if (b =? 0x13) || (b =? 0x73) then (true, next, m)
  else if b =? 0x23 then (true, next, put m 0x100 [0x77])
  else if b =? 0x6f then (true, (0x4000, snd c + 1), m)
  else (false, (fst c, snd c), m).
Definition tset (a : Z) (c : tcore) : tcore := (a, snd c).
Definition tcall := do_call true (fun _ : tcore => false) fst tset tstep 20.
Definition tzero : Z -> Z := fun _ => 0.
Definition trun (ks : list call) (s : sim tcore) := run true (fun _ : tcore => false) fst tset tstep 20 ks s.
Definition tstart : sim tcore := Sim (0, 0) tzero [0; 0; 0; 0].
Definition prog (ws : list Z) : list Z := flat_map (fun w => map (byte_of w) [0; 1; 2; 3]) ws.

Section C54.
  (** Any core whose steps keep the memory made of bytes, not running in the
      background. *)
  Context {Core : Type} (asserts : bool) (busy : Core -> bool) (pc : Core -> Z) (set_pc : Z -> Core -> Core)
    (step1 : Core -> (Z -> Z) -> bool * Core * (Z -> Z)).
  Context (free : forall c, busy c = false) (bytes : forall c m, is_bytes m -> is_bytes (snd (step1 c m))).
  Notation call_ := (do_call asserts busy pc set_pc step1).
  Notation steps := (steps step1).

  (** If [n] is the first number of instructions, at least one, after which the
      state is final, WaitForTermination returns true having executed exactly
      [n], with the mailbox read from memory. Left out: the check before the
      first instruction. *)
  Theorem C54_terminates_partial : forall n fuel t s, is_bytes (s_mem s) ->
    first_final pc step1 n (s_core s) (s_mem s) -> (n <= fuel)%nat ->
    exists c' m', steps n (s_core s) (s_mem s) = Some (c', m') /\
      call_ fuel (WaitForTermination t) s = Some (Ok (Sim c' m' (message m'), Bool true)).
  Proof.
    intros n fuel t [c m b] B F L. destruct (HwSimProofs.wait_true asserts busy pc step1 free bytes n fuel c m b B F L) as [c' [m' [E1 E2]]].
    exists c', m'. split; [exact E1|]. cbn [do_call]. rewrite E2. reflexivity.
  Qed.
  (** If it returns true, it has executed exactly up to the first final state;
      if it returns false, an instruction failed before that, nothing was executed
      after it and the mailbox was not refreshed. *)
  Theorem C54_returned_partial : forall fuel t s s' r, is_bytes (s_mem s) ->
    call_ fuel (WaitForTermination t) s = Some (Ok (s', Bool r)) ->
    if r then exists n, (n <= fuel)%nat /\ first_final pc step1 n (s_core s) (s_mem s) /\
                steps n (s_core s) (s_mem s) = Some (s_core s', s_mem s') /\ s_box s' = message (s_mem s')
    else exists n c' m', steps n (s_core s) (s_mem s) = Some (c', m') /\ step1 c' m' = (false, s_core s', s_mem s') /\
           s_box s' = s_box s /\
           forall k, (1 <= k <= n)%nat -> exists c' m', steps k (s_core s) (s_mem s) = Some (c', m') /\ ~ final pc c' m'.
  Proof.
    intros fuel t [c m b] s' r B E. cbn [do_call] in E.
    destruct (wait asserts busy pc step1 fuel (Sim c m b)) as [[[s1 r1]| |]|] eqn:W; try discriminate. cbn [bind fst snd] in E.
    injection E as <- <-. exact (HwSimProofs.wait_returns asserts busy pc step1 free bytes fuel c m b s1 r1 B W).
  Qed.
  (** A failing instruction makes it return false. *)
  Theorem C54_failure : forall n fuel t s c1 m1 c2 m2, is_bytes (s_mem s) ->
    steps n (s_core s) (s_mem s) = Some (c1, m1) -> step1 c1 m1 = (false, c2, m2) ->
    (forall k, (1 <= k <= n)%nat -> exists c' m', steps k (s_core s) (s_mem s) = Some (c', m') /\ ~ final pc c' m') ->
    (n < fuel)%nat -> call_ fuel (WaitForTermination t) s = Some (Ok (Sim c2 m2 (s_box s), Bool false)).
  Proof.
    intros n fuel t [c m b] c1 m1 c2 m2 B S1 S2 NF L. cbn [do_call].
    rewrite (HwSimProofs.wait_false asserts busy pc step1 free bytes n fuel c m b c1 m1 c2 m2 B S1 S2 NF L). reflexivity.
  Qed.
  (** A program that never gets there is run forever, whatever the timeout. *)
  Theorem C54_no_timeout : forall fuel t s, is_bytes (s_mem s) ->
    (forall k, (1 <= k)%nat -> exists c' m', steps k (s_core s) (s_mem s) = Some (c', m') /\ ~ final pc c' m') ->
    call_ fuel (WaitForTermination t) s = None.
  Proof.
    intros fuel t [c m b] B H. cbn [do_call]. rewrite (HwSimProofs.wait_never asserts busy pc step1 free bytes c m b B H fuel). reflexivity.
  Qed.

  (** A written message is read back, whatever is called in between, when the
      programs run in between do not change the mailbox. *)
  Theorem C54_mailbox : forall fuel msg ks s s' l, length msg = 4%nat -> Forall (fun w => 0 <= w < 2 ^ 32) msg ->
    (forall s1 a, call_ fuel (WriteMailbox msg) s = Some (Ok (s1, a)) -> quiet_calls step1 (call_ fuel) ks s1) ->
    run asserts busy pc set_pc step1 fuel (WriteMailbox msg :: ks ++ [ReadMailbox]) s = Some (Ok (s', l)) ->
    exists l0, l = l0 ++ [Message msg].
  Proof. exact (HwSimProofs.mailbox_kept asserts busy pc set_pc step1 free). Qed.
  (** Writing it changes the 16 bytes only; reading it changes no memory. *)
  Theorem C54_mailbox_frame : forall fuel msg s s' a, length msg = 4%nat ->
    call_ fuel (WriteMailbox msg) s = Some (Ok (s', a)) ->
    s_core s' = s_core s /\ forall x, x < addr_mailbox \/ addr_mailbox + 16 <= x -> s_mem s' x = s_mem s x.
  Proof.
    intros fuel msg s s' a L E. cbn [do_call] in E. unfold write_mailbox, write_tcm in E. rewrite free in E. cbn [bind s_core s_mem s_box] in E.
    injection E as <- <-. cbn [s_core s_mem]. split; [reflexivity|]. intros x Hx. unfold put.
    destruct (HwSimProofs.four msg L) as [w0 [w1 [w2 [w3 ->]]]]. cbn [message_bytes flat_map map app length].
    replace ((addr_mailbox <=? x) && (x <? addr_mailbox + Z.of_nat 16)) with false by lia. reflexivity.
  Qed.
  Theorem C54_read : forall fuel s, call_ fuel ReadMailbox s = Some (Ok (Sim (s_core s) (s_mem s) (message (s_mem s)), Message (message (s_mem s)))).
  Proof. intros fuel s. cbn [do_call]. unfold refresh. rewrite free. reflexivity. Qed.
  (** ReadTCM shows the bytes, WriteTCM changes them and no others, Run only sets the
      pc; so bytes written are read back. *)
  Theorem C54_tcm : forall fuel a s,
    (forall n, exists l, call_ fuel (ReadTCM a n) s = Some (Ok (s, Bytes l)) /\ length l = n /\
       forall i, (i < n)%nat -> nth i l (-1) = s_mem s (a + Z.of_nat i)) /\
    (forall l, exists s', call_ fuel (WriteTCM a l) s = Some (Ok (s', Unit)) /\ s_core s' = s_core s /\
       (forall i, (i < length l)%nat -> s_mem s' (a + Z.of_nat i) = nth i l 0) /\
       (forall x, ~ a <= x < a + Z.of_nat (length l) -> s_mem s' x = s_mem s x) /\
       call_ fuel (ReadTCM a (length l)) s' = Some (Ok (s', Bytes l))) /\
    (0 <= a < 2 ^ 32 -> exists s', call_ fuel (Run a) s = Some (Ok (s', Unit)) /\ s_core s' = set_pc a (s_core s) /\ s_mem s' = s_mem s).
  Proof.
    intros fuel a s.
    assert (N : forall m n i, (i < n)%nat -> nth i (bytes_at m a n) (-1) = m (a + Z.of_nat i)).
    { intros m n i Hi. unfold bytes_at. rewrite (nth_indep _ _ (m (a + Z.of_nat 0))) by (rewrite map_length, seq_length; exact Hi).
      rewrite (map_nth (fun i => m (a + Z.of_nat i))), seq_nth by exact Hi. reflexivity. }
    split; [|split].
    - intros n. cbn [do_call]. unfold read_tcm. rewrite free. eexists. split; [reflexivity|]. split; [unfold bytes_at; now rewrite map_length, seq_length|]. apply N.
    - intros l. cbn [do_call]. unfold write_tcm, read_tcm. rewrite free. cbn [bind]. eexists. split; [reflexivity|]. cbn [s_core s_mem]. rewrite free.
      assert (P : forall i, (i < length l)%nat -> put (s_mem s) a l (a + Z.of_nat i) = nth i l 0).
      { intros i Hi. unfold put. replace ((a <=? a + Z.of_nat i) && (a + Z.of_nat i <? a + Z.of_nat (length l))) with true by lia. f_equal. lia. }
      split; [reflexivity|]. split; [exact P|]. split.
      + intros x Hx. unfold put. replace ((a <=? x) && (x <? a + Z.of_nat (length l))) with false by lia. reflexivity.
      + cbn [bind]. do 4 f_equal. apply nth_ext with (d := -1) (d' := 0); [unfold bytes_at; now rewrite map_length, seq_length|].
        intros i Hi. unfold bytes_at in Hi. rewrite map_length, seq_length in Hi. rewrite N by exact Hi. now apply P.
    - intros Ha. cbn [do_call]. rewrite Z.mod_small by exact Ha. eexists. repeat split; reflexivity.
  Qed.
End C54.
Print Assumptions C54_terminates_partial.
Print Assumptions C54_returned_partial.
Print Assumptions C54_failure.
Print Assumptions C54_no_timeout.
Print Assumptions C54_mailbox.
Print Assumptions C54_mailbox_frame.
Print Assumptions C54_read.
Print Assumptions C54_tcm.

(** Three instructions and then wfi: the mailbox message survives, two
    instructions later the jump leaves TCM; a failing instruction. *)
Example C54_case :
  match trun [WriteMailbox [1; 0xffffffff; 3; 4]; WriteTCM 0x20 (prog [0x13; 0x23; 0x113; 0x10500073; 0x6f; 0]);
              Run 0x20; WaitForTermination 5; ReadTCM 0x100 2; WaitForTermination 5; ReadMailbox; Run 0x34; WaitForTermination 5] tstart with
  | Some (Ok (s, l)) => l = [Unit; Unit; Unit; Bool true; Bytes [0x77; 0]; Bool true; Message [1; 0xffffffff; 3; 4]; Unit; Bool false]
                        /\ s_core s = (0x34, 5)
  | _ => False
  end.
Proof. vm_compute. split; reflexivity. Qed.
Example C54_tcm_case :
  match trun [WriteTCM 0x30 [7; 8; 9]; WriteTCM 0x31 [1]; ReadTCM 0x2f 5] tstart with
  | Some (Ok (_, l)) => l = [Unit; Unit; Bytes [0; 7; 1; 9; 0]] | _ => False end.
Proof. vm_compute. reflexivity. Qed.
(** The hypotheses of the theorems at the first wait. *)
Example C54_case_first : let m := put tzero 0x20 (prog [0x13; 0x23; 0x113; 0x10500073]) in
  first_final fst tstep 3 (0x20, 0) m.
Proof.
  split; [lia|]. split.
  - do 2 eexists. split; [vm_compute; reflexivity|]. right. right. vm_compute. repeat split.
  - intros k Hk. assert (k = 1 \/ k = 2)%nat as [-> | ->] by lia;
      (do 2 eexists; split; [vm_compute; reflexivity|]; intros [X | [X | X]]; [vm_compute in X; discriminate | |];
       destruct X as [X _]; vm_compute in X; discriminate).
Qed.
Example C54_case_quiet : quiet_calls tstep tcall [Run 0x20; WaitForTermination 5] tstart.
Proof.
  split; [exact I|]. split; [exact I|]. intros s1 a E. vm_compute in E. injection E as <- <-. split; [exact I|]. split; [|intros; exact I].
  intros n c m E x Hx. unfold tstep. destruct (_ || _); [reflexivity|]. destruct (_ =? 0x23); [|destruct (_ =? 0x6f); reflexivity].
  cbn [snd]. unfold put, addr_mailbox in *. cbn [length Z.of_nat Pos.of_succ_nat].
  replace ((0x100 <=? x) && (x <? 0x100 + 1)) with false by lia. reflexivity.
Qed.

(** The check comes after the first instruction: started at a wfi, it executes
    the wfi and whatever follows it. *)
Theorem C54_start_refuted : exists s, final fst (s_core s) (s_mem s) /\
  exists s', tcall (WaitForTermination 5) s = Some (Ok (s', Bool true)) /\ snd (s_core s') = snd (s_core s) + 2.
Proof.
  exists (Sim (0x20, 0) (put tzero 0x20 (prog [0x10500073; 0x13; 0x08000073])) []). split.
  - right. right. vm_compute. repeat split.
  - eexists. split; [vm_compute; reflexivity | reflexivity].
Qed.
Print Assumptions C54_start_refuted.
(** "Returns when the core halts" (comment on Run): it executes nothing. *)
Example C54_run_executes_nothing : forall fuel a s, exists s',
  do_call true (fun _ : tcore => false) fst tset tstep fuel (Run a) s = Some (Ok (s', Unit)) /\
  s_core s' = (a mod 2 ^ 32, snd (s_core s)) /\ s_mem s' = s_mem s.
Proof. intros fuel a s. eexists. split; [reflexivity|]. split; reflexivity. Qed.
