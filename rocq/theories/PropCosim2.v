(** * Co-simulation sessions: property C93 *)
From Coq Require Import ZArith List Bool Lia.
From Verif Require Import CInt CosimModel CosimSpec CosimSpec2 PropCosim.
From Verif Require CosimProofs CosimProofs2.
Import ListNotations.
Open Scope Z_scope.

Section C93.
  (** Whatever the simulator behind the interface does. *)
  Variables (Core Mem Name : Type) (boot : simcfg -> Core) (empty_mem : Mem)
    (load_elf : Name -> Mem -> option Mem) (core_pc : Core -> Z)
    (write_word : Core -> Z -> Z -> Mem -> option Mem)
    (step1 : Core -> Mem -> bool * Core * Mem * bool)
    (read_reg : Name -> Core -> option Z) (write_reg : Name -> Z -> Core -> option Core)
    (reg_words : Name -> Core -> option (list Z)).
  Notation do_call := (do_call Core Mem Name boot empty_mem load_elf core_pc write_word step1 read_reg write_reg reg_words).
  Notation run := (run Core Mem Name boot empty_mem load_elf core_pc write_word step1 read_reg write_reg reg_words).

  (** A session without its queries returns what it returned with them. *)
  Theorem C93_queries : forall ks g rs, run ks None = Ok (g, rs) -> exists g0, run (acting ks) None = Ok (g0, results_of ks rs).
  Proof. exact (CosimProofs2.quiet Core Mem Name boot empty_mem load_elf core_pc write_word step1 read_reg write_reg reg_words). Qed.
  (** A session that is not configured goes as if configured as usual. *)
  Theorem C93_defaults : forall ks g rs, existsb is_config ks = false -> run (Init _ :: ks) None = Ok (g, R 0 [] :: rs) ->
    exists g', run (Init _ :: Config _ (Some usual) :: ks) None = Ok (g', R 0 [] :: R 0 [] :: rs).
  Proof. exact (CosimProofs2.defaults Core Mem Name boot empty_mem load_elf core_pc write_word step1 read_reg write_reg reg_words). Qed.
  (** In every session: a register write that succeeds is read back, one that fails
      is seen by no later call. The core's own register has to keep what is written. *)
  Theorem C93_register : forall ks g rs n v g1 r, run ks None = Ok (g, rs) -> alive ks = true -> 0 <= v < 2 ^ 32 ->
    (forall c c', write_reg n v c = Some c' -> exists x, read_reg n c' = Some x /\ x mod 2 ^ 32 = v) ->
    do_call (SetReg _ (Some n) v) g = Ok (g1, r) ->
    (r = R 0 [] /\ do_call (GetReg _ (Some n) true) g1 = Ok (g1, R 0 [v])) \/
    (r = R (-4) [] /\ forall ks g2 rs, run ks g1 = Ok (g2, rs) -> exists g3, run ks g = Ok (g3, rs)).
  Proof.
    intros ks g rs n v g1 r E A Hv W F.
    apply (CosimProofs2.set_get Core Mem Name boot empty_mem load_elf core_pc write_word step1 read_reg write_reg reg_words n v g g1 r Hv); [|exact W|exact F].
    apply (C48_instance Core Mem Name boot empty_mem load_elf core_pc write_word step1 read_reg write_reg reg_words ks g rs E). exact A.
  Qed.
  (** What the calls of a session write for their caller. *)
  Theorem C93_outputs : forall k g g' r, do_call k g = Ok (g', r) -> outputs_ok k r.
  Proof. exact (CosimProofs2.outputs Core Mem Name boot empty_mem load_elf core_pc write_word step1 read_reg write_reg reg_words). Qed.
End C93.
Print Assumptions C93_queries.
Print Assumptions C93_defaults.
Print Assumptions C93_register.
Print Assumptions C93_outputs.

(** ** Concrete cases: the core of C48 *)
Definition t_asked : list (call Z) := [IsHalted _; Init _; GetReg _ (Some 1) true; Step _ (Some 7); IsHalted _; GetVec _ (Some 1) (Some 4%nat); SetReg _ (Some 2) 5; Step _ (Some 8); GetReg _ (Some 1) true].
Example C93_queries_case :
  (match t_run t_asked None with Ok (_, rs) => Some rs | _ => None end) =
    Some [R 0 []; R 0 []; R 0 [0]; R 0 []; R 0 []; R 0 [7; 0; 0; 0]; R (-4) []; R 0 []; R 0 [15]] /\
  acting t_asked = [Init _; Step _ (Some 7); SetReg _ (Some 2) 5; Step _ (Some 8)] /\
  (match t_run (acting t_asked) None with Ok (_, rs) => Some rs | _ => None end) = Some [R 0 []; R 0 []; R (-4) []; R 0 []].
Proof. repeat split; vm_compute; reflexivity. Qed.
Example C93_defaults_case : usual = SC (0, 0x2000) 0x40201120 (0x10000, 0x8000) /\
  existsb is_config t_asked = false /\
  match t_run [Init _; Step _ (Some 7); GetReg _ (Some 1) true] None with Ok (_, rs) => rs = [R 0 []; R 0 []; R 0 [7]] | _ => False end.
Proof. repeat split; vm_compute; reflexivity. Qed.
Example C93_register_case :
  (forall (c c' : tcore), (if 1 =? 1 then Some (fst c, 9) else None) = Some c' -> exists x, (if 1 =? 1 then Some (snd c') else None) = Some x /\ x mod 2 ^ 32 = 9) /\
  match t_run [Init _; SetReg _ (Some 1) 9; GetReg _ (Some 1) true; SetReg _ (Some 3) 9] None with Ok (_, rs) => rs = [R 0 []; R 0 []; R 0 [9]; R (-4) []] | _ => False end.
Proof. split; [|vm_compute; reflexivity]. intros [p x] c' E. cbn in E. injection E as <-. exists 9. split; reflexivity. Qed.
Example C93_outputs_case :
  match t_run [Init _; GetReg _ (Some 3) true; GetReg _ (Some 1) false; GetVec _ (Some 3) (Some 4%nat); GetVec _ (Some 1) (Some 5%nat)] None with
  | Ok (_, rs) => rs = [R 0 []; R (-4) [0]; R (-1) []; R (-4) []; R 0 [0; 0; 0; 0]] | _ => False end.
Proof. vm_compute. reflexivity. Qed.
