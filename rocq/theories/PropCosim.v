(** * Co-simulation interface: property C48 *)
From Coq Require Import ZArith List Bool Lia.
From Verif Require Import CInt CosimModel CosimSpec.
From Verif Require CosimProofs.
Import ListNotations.
Open Scope Z_scope.

(** A toy core for the examples: pc and one register; memory is the list of
    words written; mpause is 0x08000073; a word of 0 makes Step fail. *)
Definition tcore := (Z * Z)%type.
Definition tmem := list (Z * Z).
Definition t_step (c : tcore) (m : tmem) : bool * tcore * tmem * bool :=
  let w := match m with (_, w) :: _ => w | [] => 0 end in
  (negb (w =? 0), (fst c + 4, snd c + w), m, w =? 0x08000073).
Definition t_call := do_call tcore tmem Z (fun c => (fst (k_itcm c), 0)) [] (fun f m => if f =? 0 then None else Some ((f, f) :: m))
  fst (fun _ a w m => if a <? 0x2000 then Some ((a, w) :: m) else None) t_step
  (fun n c => if n =? 1 then Some (snd c) else None)
  (fun n v c => if n =? 1 then Some (fst c, v) else None)
  (fun n c => if n =? 1 then Some [snd c; 0; 0; 0] else None).
Definition t_run := run tcore tmem Z (fun c => (fst (k_itcm c), 0)) [] (fun f m => if f =? 0 then None else Some ((f, f) :: m))
  fst (fun _ a w m => if a <? 0x2000 then Some ((a, w) :: m) else None) t_step
  (fun n c => if n =? 1 then Some (snd c) else None)
  (fun n v c => if n =? 1 then Some (fst c, v) else None)
  (fun n c => if n =? 1 then Some [snd c; 0; 0; 0] else None).
Definition rets (o : outcome (gstate tcore tmem * list result)) : option (list Z) :=
  match o with Ok (_, l) => Some (map r_ret l) | _ => None end.

Section C48.
  (** Whatever the simulator behind the interface does. *)
  Variables (Core Mem Name : Type) (boot : simcfg -> Core) (empty_mem : Mem)
    (load_elf : Name -> Mem -> option Mem) (core_pc : Core -> Z)
    (write_word : Core -> Z -> Z -> Mem -> option Mem)
    (step1 : Core -> Mem -> bool * Core * Mem * bool)
    (read_reg : Name -> Core -> option Z) (write_reg : Name -> Z -> Core -> option Core)
    (reg_words : Name -> Core -> option (list Z)).
  Notation do_call := (do_call Core Mem Name boot empty_mem load_elf core_pc write_word step1 read_reg write_reg reg_words).
  Notation run := (run Core Mem Name boot empty_mem load_elf core_pc write_word step1 read_reg write_reg reg_words).

  (** Return values after any history: init, fini, reset, config and all calls
      without an instance. *)
  Theorem C48_return_values : forall ks k g rs g' r,
    run ks None = Ok (g, rs) -> do_call k g = Ok (g', r) ->
    forall v, must_return ks k = Some v -> r_ret r = v.
  Proof. exact (CosimProofs.returns_ok Core Mem Name boot empty_mem load_elf core_pc write_word step1 read_reg write_reg reg_words). Qed.
  (** An instance exists exactly when init or reset was the last of init, reset
      and fini; it has a simulator exactly when some call needed one since. *)
  Theorem C48_instance : forall ks g rs, run ks None = Ok (g, rs) ->
    (g <> None <-> alive ks = true) /\
    (forall h, g = Some h -> (h_core _ _ h <> None <-> built ks = true)).
  Proof.
    intros ks g rs E.
    pose proof (CosimProofs.run_agrees Core Mem Name boot empty_mem load_elf core_pc write_word step1 read_reg write_reg reg_words ks g rs E) as A.
    unfold alive, built. destruct g as [h|]; cbn in A.
    - destruct A as [A1 A2]. rewrite A1, A2. split; [split; [reflexivity | discriminate]|].
      intros h' H. injection H as <-. destruct (h_core Core Mem h); split; congruence.
    - rewrite A. split; [split; [congruence | discriminate] | discriminate].
  Qed.
  (** Reset always leaves a fresh instance, so what follows does not depend on
      what was before. *)
  Theorem C48_reset : forall ks ks' rest g1 rs1 g2 rs2 g3 rs3 g4 rs4,
    run ks None = Ok (g1, rs1) -> run ks' None = Ok (g2, rs2) ->
    run (ks ++ Reset _ :: rest) None = Ok (g3, rs3) -> run (ks' ++ Reset _ :: rest) None = Ok (g4, rs4) ->
    g3 = g4 /\ skipn (length rs1) rs3 = skipn (length rs2) rs4 /\
    nth (length rs1) rs3 (R 1 []) = R 0 [].
  Proof.
    intros ks ks' rest g1 rs1 g2 rs2 g3 rs3 g4 rs4 E1 E2 E3 E4.
    rewrite CosimProofs.run_app in E3, E4. rewrite E1 in E3. rewrite E2 in E4. cbn [bind fst snd CosimModel.run] in E3, E4.
    rewrite CosimProofs.reset_fresh in E3, E4. cbn [bind] in E3, E4.
    destruct (run rest (Some (new_handle Core Mem empty_mem))) as [[g l]| |]; try discriminate.
    cbn [bind fst snd] in E3, E4. injection E3 as <- <-. injection E4 as <- <-.
    split; [reflexivity|]. rewrite !skipn_app, !skipn_all, !Nat.sub_diag. split; [reflexivity|].
    rewrite app_nth2, Nat.sub_diag by lia. reflexivity.
  Qed.
  (** Once a step has executed mpause, until reset or fini every step returns 2,
      and leaves everything as if it had not been called. *)
  Theorem C48_after_mpause : forall m c w m1 ok c' m' ks g rs,
    write_word c (core_pc c mod 2 ^ 32) (w mod 2 ^ 32) m = Some m1 ->
    step1 c m1 = (ok, c', m', true) ->
    existsb ends_run ks = false ->
    run (Step _ (Some w) :: ks) (Some (H _ _ m (Some c) false)) = Ok (g, rs) ->
    Forall (fun r => r = R 2 []) (CosimProofs.step_results Name ks (tl rs)) /\
    exists rs', run (Step _ (Some w) :: filter (fun k => negb (is_step k)) ks) (Some (H _ _ m (Some c) false)) = Ok (g, rs').
  Proof.
    intros m c w m1 ok c' m' ks g rs E1 E2 Hk E. cbn [CosimModel.run] in *.
    rewrite CosimProofs.step_exact, E1, E2 in *. cbn [bind] in *.
    destruct (run ks (Some (H Core Mem m' (Some c') true))) as [[g2 l2]| |] eqn:E3; try discriminate.
    cbn [bind] in E. injection E as <- <-. cbn [tl].
    assert (Hh : CosimProofs.halted_g Core Mem (Some (H Core Mem m' (Some c') true)))
      by (split; [reflexivity | intro X; discriminate X]).
    destruct (CosimProofs.halted_run Core Mem Name boot empty_mem load_elf core_pc write_word step1 read_reg write_reg reg_words
      ks _ _ _ Hh Hk E3) as [F [rs' R']].
    split; [exact F|]. rewrite R'. cbn. eauto.
  Qed.
  (** Before that, a step writes the word at the pc and executes one instruction. *)
  Theorem C48_lockstep : forall c m ws c' m', lockstep core_pc write_word step1 c m ws c' m' ->
    run (map (fun w => Step _ (Some w)) ws) (Some (H _ _ m (Some c) false)) =
    Ok (Some (H _ _ m' (Some c') false), map (fun _ => R 0 []) ws).
  Proof. exact (CosimProofs.lockstep_run Core Mem Name boot empty_mem load_elf core_pc write_word step1 read_reg write_reg reg_words). Qed.
  (** Sequences of calls that cannot end the process. Missing: it is false for
      all sequences (below). *)
  Theorem C48_no_crash_partial : forall ks, all_safe [] ks = true -> exists g rs, run ks None = Ok (g, rs).
  Proof. exact (CosimProofs.safe_run Core Mem Name boot empty_mem load_elf core_pc write_word step1 read_reg write_reg reg_words). Qed.
  (** Loading a program without an instance dereferences a null pointer. *)
  Theorem C48_load_refuted : forall ks g rs f, run ks None = Ok (g, rs) -> alive ks = false ->
    do_call (Load _ (Some f)) g = UB NullDeref.
  Proof. exact (CosimProofs.load_dead Core Mem Name boot empty_mem load_elf core_pc write_word step1 read_reg write_reg reg_words). Qed.
  (** Configuring after any call that needed the simulator aborts. *)
  Theorem C48_config_refuted : forall ks g rs c, run ks None = Ok (g, rs) -> alive ks = true -> built ks = true ->
    do_call (Config _ (Some c)) g = Crash.
  Proof. exact (CosimProofs.config_built Core Mem Name boot empty_mem load_elf core_pc write_word step1 read_reg write_reg reg_words). Qed.
  (** Reset drops the loaded program and the configuration with the registers. *)
  Theorem C48_reset_program_refuted : forall f m c cfg,
    load_elf f empty_mem = Some m ->
    exists rs, run [Init _; Config _ (Some cfg); Load _ (Some f); Reset _] None =
                 Ok (Some (H _ _ empty_mem None false), rs) /\
               run [Init _; Config _ (Some c); Load _ (Some f)] None =
                 Ok (Some (H _ _ m (Some (boot c)) false), tl rs).
  Proof. intros f m c cfg E. exists [R 0 []; R 0 []; R 0 []; R 0 []]. cbn. rewrite E. split; reflexivity. Qed.
End C48.
Print Assumptions C48_return_values.
Print Assumptions C48_instance.
Print Assumptions C48_reset.
Print Assumptions C48_after_mpause.
Print Assumptions C48_lockstep.
Print Assumptions C48_no_crash_partial.
Print Assumptions C48_load_refuted.
Print Assumptions C48_config_refuted.
Print Assumptions C48_reset_program_refuted.

(** A session: fini without an instance, two inits, a step (lazily configured),
    register access with missing arguments, mpause, refused steps, reset, a step
    again. *)
Definition session : list (call Z) :=
  [Fini _; GetReg _ (Some 1) true; Init _; Init _; Step _ (Some 5); GetReg _ (Some 1) true; GetReg _ None true;
   GetReg _ (Some 1) false; SetReg _ (Some 7) 3; Step _ (Some 0x08000073); Step _ (Some 6); SetReg _ (Some 1) 9;
   Step _ (Some 7); IsHalted _; Reset _; Step _ (Some 8); Step _ (Some 0); Fini _; Step _ (Some 1); Config _ None].
Example C48_case :
  rets (t_run session None) =
    Some [-1; -2; 0; -1; 0; 0; -3; -1; -4; 0; 2; 0; 2; 0; 0; 0; 2; 0; -1; -1] /\
  all_safe [] session = true /\
  map (must_return (firstn 4 session)) [Init Z; Fini _; Config _ None; Step _ (Some 1)] = [Some (-1); Some 0; Some (-2); None] /\
  alive (firstn 4 session) = true /\ built (firstn 4 session) = false /\ built (firstn 5 session) = true.
Proof. vm_compute. repeat split. Qed.
Example C48_crash_case :
  t_run [Init _; IsHalted _; Config _ (Some default_cfg)] None = Crash /\
  t_run [Load _ (Some 1)] None = UB NullDeref /\ t_run [Init _; Step _ None] None = UB NullDeref /\
  t_run [Init _; GetVec _ (Some 1) (Some 3%nat)] None = UB OutOfBounds /\
  rets (t_run [Init _; Config _ (Some default_cfg); GetVec _ (Some 1) (Some 4%nat)] None) = Some [0; 0; 0].
Proof. vm_compute. repeat split. Qed.
Example C48_lockstep_case : exists c' m',
  lockstep fst (fun (_ : tcore) a w m => if a <? 0x2000 then Some ((a, w) :: m) else None) t_step (0x100, 1) [] [3; 4] c' m' /\
  c' = (0x108, 8) /\ m' = [(0x104, 4); (0x100, 3)].
Proof. eexists _, _. split; [repeat (eapply ls_step; [reflexivity | reflexivity |]); apply ls_nil | split; reflexivity]. Qed.
