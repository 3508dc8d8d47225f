(** * Programs that read the instruction and cycle counters: C87 *)
From Coq Require Import ZArith List Bool String Lia.
From Verif Require Import CInt LogModel LogSpec TopModel TopSpec CliModel CliSpec CntModel CntSpec CntProofs TopToy.
From Coq Require Import ZifyBool ZifyNat.
Import ListNotations.
Open Scope Z_scope.

Section P.
  Context {C : Type}.
  Variable cexec : Z -> Z -> Z -> Z -> arch (C := C) -> (Z -> Z) -> effect (C := C).
  Variable evicted : Z -> Z -> bool.
  Notation oexec := (own_exec cexec).

  (** C87. A Run that does not resume at a breakpoint is the Run of a machine with
      its own counters, which start at the simulator's and go up by one with each
      instruction it executes: same end, same registers, memory, pc and reason. *)
  Theorem C87_run fuel (s : top (C := C)) : no_action cexec -> t_need s = false ->
    match c_run cexec evicted fuel s, run oexec evicted fuel (synced s) with
    | None, None => True
    | Some x, Some y => same_end x y
    | _, _ => False
    end.
  Proof. exact (own_run cexec evicted fuel s). Qed.
  (** The same for Step. *)
  Theorem C87_step num (s : top (C := C)) : no_action cexec -> t_need s = false ->
    same_end (c_step cexec evicted num s) (step oexec evicted num (synced s)).
  Proof. exact (own_step cexec evicted num s). Qed.
  (** So the Run of a program just loaded ends in the state of that machine after
      its first halting instruction, the [n]th, having counted [n]. *)
  Theorem C87_alone fuel pc g (c : C) mem : no_action cexec -> 0 <= pc < 2 ^ 32 ->
    let m := Mach pc (Arch g (c, 0, 0)) mem in unmodified oexec m -> regular oexec m ->
    match c_run cexec evicted fuel (fresh (Arch g c) mem pc) with
    | None => reached oexec m fuel
    | Some x => exists n r s, x = Ok (ROk, s) /\ (n <= fuel)%nat /\ halts_at oexec m n r /\ t_reason s = r /\
        t_insts s = Z.of_nat n /\ t_cycles s = Z.of_nat n /\
        t_pc s = m_pc (ref oexec n m) /\ t_mem s = m_mem (ref oexec n m) /\
        a_regs (t_arch s) = a_regs (m_arch (ref oexec n m)) /\ a_csr (t_arch s) = fst (fst (a_csr (m_arch (ref oexec n m))))
    end.
  Proof. exact (own_alone cexec evicted fuel pc g c mem). Qed.
  (** In that machine the instruction after [k] others sees [k] in both counters. *)
  Theorem C87_sees pc g (c : C) mem k : let m := Mach pc (Arch g (c, 0, 0)) mem in
    (forall i, (i < k)%nat -> word_at (ref oexec i m) <> ebreak) ->
    exists c', a_csr (m_arch (ref oexec k m)) = (c', Z.of_nat k, Z.of_nat k).
  Proof. exact (own_counts cexec (fun _ _ => false) c 0 0 g pc mem k). Qed.
  (** A program that does not look at the counters is the one of the debug
      interface model. *)
  Theorem C87_blind exec : (forall fuel (s : top (C := C)), c_run (fun _ _ => exec) evicted fuel s = run exec evicted fuel s) /\
    (forall num (s : top (C := C)), c_step (fun _ _ => exec) evicted num s = step exec evicted num s).
  Proof. split; [exact (blind_run exec evicted)|exact (blind_step exec evicted)]. Qed.
End P.
Print Assumptions C87_run.
Print Assumptions C87_step.
Print Assumptions C87_alone.
Print Assumptions C87_sees.
Print Assumptions C87_blind.

(** ** Cases *)
(** Word 4 puts the instruction counter into register 2, 6 the cycle counter into
    register 3, the others are the small instruction set's. *)
Definition cnt_exec (n y w a : Z) (s : toy_arch) (m : Z -> Z) : effect (C := unit) :=
  if w =? 4 then Eff (Arch (upd1 (a_regs s) 2 n) tt) m ((a + 4) mod 2 ^ 32) None
  else if w =? 6 then Eff (Arch (upd1 (a_regs s) 3 y) tt) m ((a + 4) mod 2 ^ 32) None
  else toy_exec w a s m.
Lemma cnt_no_action : no_action cnt_exec.
Proof. intros n y w a s m. unfold cnt_exec, toy_exec. destruct (w =? 4), (w =? 6), (w =? 7); cbn; discriminate. Qed.
(** What is left of a session: pc, registers 2 and 3, reason, counter. *)
Definition cnt_seen (x : option (outcome (ret * toy_top))) : option (Z * Z * Z * reason * Z) :=
  match x with
  | Some (Ok (_, s)) => Some (t_pc s, a_regs (t_arch s) 2, a_regs (t_arch s) 3, t_reason s, t_insts s)
  | _ => None
  end.
Definition cnt_prog : list Z := [1; 2; 4; 6; 7].
Example C87_case : cnt_seen (c_run cnt_exec never 9 (toy_fresh cnt_prog)) = Some (20, 2, 3, ROther 1, 5) /\
  t_need (toy_fresh cnt_prog) = false /\ no_action cnt_exec.
Proof. split; [vm_compute; reflexivity|]. split; [reflexivity|exact cnt_no_action]. Qed.
(** A Step of 3, then a Run. *)
Example C87_step_case : match c_step cnt_exec never 3 (toy_fresh cnt_prog) with
  | Ok (r, s) => r = RVal 3 /\ a_regs (t_arch s) 2 = 2 /\ cnt_seen (c_run cnt_exec never 9 s) = Some (20, 2, 3, ROther 1, 5)
  | _ => False end.
Proof. vm_compute. auto. Qed.
(** The machine with its own counters meets what [C87_alone] asks for: its run is
    the five states of the straight line. *)
Definition cnt_m : mach (C := unit * Z * Z) := Mach 0 (Arch (fun _ => 0) (tt, 0, 0)) (toy_words cnt_prog).
Lemma cnt_reached k : reached (own_exec cnt_exec) cnt_m k -> (k <= 4)%nat.
Proof.
  intros R. destruct (Nat.le_gt_cases k 4) as [L|G]; [exact L|exfalso].
  specialize (R 4%nat G). vm_compute in R. discriminate.
Qed.
Example C87_alone_case : unmodified (own_exec cnt_exec) cnt_m /\ regular (own_exec cnt_exec) cnt_m /\
  halts_at (own_exec cnt_exec) cnt_m 5 (ROther 1) /\
  a_csr (m_arch (ref (own_exec cnt_exec) 3 cnt_m)) = (tt, 3, 3).
Proof.
  assert (K : forall j, (j <= 4)%nat -> j = 0%nat \/ j = 1%nat \/ j = 2%nat \/ j = 3%nat \/ j = 4%nat) by lia.
  split; [|split; [|split]].
  - intros i j L R E. pose proof (cnt_reached j R) as J.
    destruct (K j J) as [-> |[-> |[-> |[-> | -> ]]]], (K i (Nat.le_trans _ _ _ L J)) as [-> |[-> |[-> |[-> | -> ]]]];
      first [reflexivity|vm_compute in E; discriminate].
  - intros k R. destruct (K k (cnt_reached k R)) as [-> |[-> |[-> |[-> | -> ]]]].
    all: split; [vm_compute; split; [discriminate|reflexivity]|].
    all: intros r H; vm_compute in H; first [discriminate|injection H as <-; split; discriminate].
  - split; [lia|]. split; [|vm_compute; reflexivity].
    intros i Hi. destruct (K i ltac:(lia)) as [-> |[-> |[-> |[-> | -> ]]]]; first [vm_compute; reflexivity|lia].
  - vm_compute. reflexivity.
Qed.

(** C87 refuted in general: a breakpoint that is hit adds one to what the program
    reads after it. Same program, same end, other value in register 2. *)
Theorem C87_breakpoint_refuted :
  exists (prog : list Z) (s1 : toy_top) (s2 : toy_top),
    set_breakpoint 4 (toy_fresh prog) = (ROk, s1) /\
    (exists r, c_run cnt_exec never 9 s1 = Some (Ok (r, s2)) /\ t_pc s2 = 4 /\ t_reason s2 = RSwBreakpoint) /\
    cnt_seen (c_run cnt_exec never 9 s2) = Some (20, 3, 4, ROther 1, 6) /\
    cnt_seen (c_run cnt_exec never 9 (toy_fresh prog)) = Some (20, 2, 3, ROther 1, 5).
Proof.
  exists cnt_prog. destruct (set_breakpoint 4 (toy_fresh cnt_prog)) as [r1 s1] eqn:E1.
  destruct (c_run cnt_exec never 9 (snd (set_breakpoint 4 (toy_fresh cnt_prog)))) as [[[r2 s2]|k|]|] eqn:E2;
    [|exfalso; vm_compute in E2; discriminate..].
  exists s1, s2. rewrite E1 in E2. cbn [snd] in E2.
  assert (S1 : r1 = ROk) by (change r1 with (fst (r1, s1)); rewrite <- E1; vm_compute; reflexivity).
  split; [now rewrite S1|].
  assert (S1' : s1 = snd (set_breakpoint 4 (toy_fresh cnt_prog))) by now rewrite E1.
  assert (S2' : s2 = match c_run cnt_exec never 9 s1 with Some (Ok (_, s)) => s | _ => s2 end) by now rewrite E2.
  split; [exists r2; split; [exact E2|]|].
  - rewrite S2', S1'. split; vm_compute; reflexivity.
  - split; [rewrite S2', S1'; vm_compute; reflexivity|vm_compute; reflexivity].
Qed.
Print Assumptions C87_breakpoint_refuted.
