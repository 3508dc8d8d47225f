(** * The counters of executed opcodes: property C89 *)
From Coq Require Import ZArith List Bool String Lia ZifyBool ZifyNat.
From Verif Require Import CInt LogModel LogSpec DecodeTypes DecodeModel V2DecTypes V2DecModel V1ScalModel TopModel TopSpec CliModel CliSpec MachModel TopToy TallyModel TallySpec.
From Verif Require TallyProofs TallyProofs2 TallyProofs3 CliProofs PropTop PropCli.
Import ListNotations.
Open Scope string_scope.
Open Scope Z_scope.
Open Scope list_scope.

Section P.
  Context {C : Type}.
  Variable exec : Z -> Z -> arch (C := C) -> (Z -> Z) -> effect (C := C).
  Variable evicted : Z -> Z -> bool.
  Variable reg_id : string -> option Z.
  Variable reg_size : Z -> Z.
  Variable csr_id : string -> option Z.
  Variable csr_get : Z -> C -> Z.
  Variable csr_set : Z -> Z -> C -> C.
  Variable op : Z -> string.
  Notation q_call := (q_call exec evicted reg_id reg_size csr_id csr_get csr_set op).
  Notation do := (do_call exec evicted reg_id reg_size csr_id csr_get csr_set).
  Notation q_history := (q_history exec evicted reg_id reg_size csr_id csr_get csr_set op).
  Notation history := (history exec evicted reg_id reg_size csr_id csr_get csr_set).
  Notation start m := (fresh (m_arch m) (m_mem m) (m_pc m)).

  (** The calls that count are the calls of the other theorems, in every state; those
      that execute nothing leave the counters alone. *)
  Theorem C89_same c q (s : top (C := C)) : snd (q_call c q s) = do c s /\ (goes c = false -> fst (q_call c q s) = q).
  Proof. split; [exact (TallyProofs.call_erase exec evicted reg_id reg_size csr_id csr_get csr_set op c q s)|]. destruct c; cbn [goes]; (discriminate || reflexivity). Qed.
  Theorem C89_histories P (s s' : top (C := C)) h : (forall q q', q_history P q s h q' s' -> history P s h s') /\
    (history P s h s' -> forall q, exists q', q_history P q s h q' s').
  Proof.
    split; [intros q q'; exact (TallyProofs.history_erase exec evicted reg_id reg_size csr_id csr_get csr_set op P q s h q' s')|].
    exact (TallyProofs.history_exists exec evicted reg_id reg_size csr_id csr_get csr_set op P s h s').
  Qed.
  (** Whatever calls are made, also at breakpoints and on programs that change their
      code: the counters of the opcodes add up to the instruction counter. *)
  Theorem C89_total P m0 h q (s : top (C := C)) names : q_history P (fun _ => 0) (start m0) h q s ->
    NoDup names -> (forall w, In (op w) names) -> total q names = t_insts s.
  Proof. exact (TallyProofs2.total_insts exec evicted reg_id reg_size csr_id csr_get csr_set op P m0 h q s names). Qed.
  (** The counter of an opcode that no word has stays at zero. *)
  Theorem C89_unused P m0 h q (s : top (C := C)) n : q_history P (fun _ => 0) (start m0) h q s -> (forall w, op w <> n) -> q n = 0.
  Proof. exact (TallyProofs2.never_used exec evicted reg_id reg_size csr_id csr_get csr_set op P m0 h q s n). Qed.
  (** A Run of a program just loaded: each counter is the number of the program's
      instructions with the opcode, up to and with the first that halts; or, while it
      runs, the number so far. *)
  Theorem C89_run fuel boot mem pc : let m := Mach pc boot mem in unmodified exec m -> regular exec m ->
    match q_run exec evicted op fuel (fun _ => 0) (fresh boot mem pc) with
    | (q, None) => reached exec m fuel /\ forall n, q n = of_opcode op n (words exec m fuel)
    | (q, Some _) => exists k r, (k <= fuel)%nat /\ halts_at exec m k r /\ forall n, q n = of_opcode op n (words exec m k)
    end.
  Proof.
    apply (TallyProofs.q_run_ok exec evicted reg_id reg_size csr_id csr_get csr_set op boot fuel (fresh boot mem pc)).
    unfold CliProofs.loaded. cbn [fresh t_arch t_status t_reason t_halted t_need t_bps t_cache t_insts t_cycles]. repeat (split; [reflexivity|]). reflexivity.
  Qed.
  (** With breakpoints, in the histories of C33: each counter is the number of the
      program's instructions with the opcode. Missing for the full claim: the counter of
      ebreak, which counts the breakpoints that were hit as well; and the calls that
      [allowed] excludes. *)
  Theorem C89_each_partial code m0 h q (s : top (C := C)) : bytes_ok (m_mem m0) -> 0 <= m_pc m0 < 2 ^ 32 ->
    q_history (allowed code m0) (fun _ => 0) (start m0) h q s ->
    clean_along exec reg_id reg_size csr_id csr_set code m0 h (t_insts s) ->
    exists l m, ran exec reg_id reg_size csr_id csr_set m0 h l m /\ shows s m /\ Z.of_nat (length l) <= t_insts s /\
      (forall n, n <> op 0x00100073 -> q n = of_opcode op n l) /\
      q (op 0x00100073) = of_opcode op (op 0x00100073) l + (t_insts s - Z.of_nat (length l)).
  Proof.
    intros B Hp H K. destruct (TallyProofs2.each exec evicted reg_id reg_size csr_id csr_get csr_set op code m0 h q s B Hp H K) as (l & m & H1 & H2 & H3 & H4).
    exists l, m. split; [exact H1|]. split; [exact H2|]. split; [exact H3|]. split.
    - intros n N. rewrite (H4 n). apply String.eqb_neq in N. change ebreak with 0x00100073. rewrite N. lia.
    - rewrite (H4 (op 0x00100073)). change ebreak with 0x00100073. now rewrite String.eqb_refl.
  Qed.
End P.
Print Assumptions C89_same.
Print Assumptions C89_histories.
Print Assumptions C89_total.
Print Assumptions C89_unused.
Print Assumptions C89_run.
Print Assumptions C89_each_partial.

(** ** The V1 counters *)
(** The names are accepted exactly when they differ from each other and from the
    instruction counter. *)
Theorem C89_register names :
  (NoDup names -> ~ In "instructions" names -> counters names = Ok (map (fun n => "num_" ++ n)%string names ++ ["num_instructions"])) /\
  (~ (NoDup names /\ ~ In "instructions" names) -> counters names = Crash).
Proof. split; [exact (TallyProofs3.counters_good names)|exact (TallyProofs3.counters_bad names)]. Qed.
(** So are the names of the V1 opcodes, and every word has one of them. [zbb_names] are
    the names of the Zbb opcodes, [zbb_op] their decoders. *)
Theorem C89_opcodes d zbb_op zbb_names : decoder_ok d -> NoDup zbb_names ->
  (forall n, In n zbb_names -> ~ In n ("instructions" :: opcode_names [])) -> (forall w n, zbb_op w = Some n -> In n zbb_names) ->
  NoDup (opcode_names zbb_names) /\ (forall w, In (op1 d zbb_op w) (opcode_names zbb_names)) /\
  counters (opcode_names zbb_names) = Ok (map (fun n => "num_" ++ n)%string (opcode_names zbb_names) ++ ["num_instructions"]).
Proof.
  intros D Z N O. destruct (TallyProofs3.opcode_names_ok zbb_names Z N) as [A B]. split; [exact A|].
  split; [intros w; exact (TallyProofs3.op1_in d zbb_op zbb_names w D O)|exact (TallyProofs3.counters_good _ A B)].
Qed.
(** A V1 machine's opcode counters add up to its instruction counter. *)
Theorem C89_v1_total {S} d zbb zbb_op zbb_names sys junk ljunk evicted reg_id reg_size csr_id csr_get csr_set P m0 h q (s : top (C := core S)) :
  decoder_ok d -> NoDup zbb_names -> (forall n, In n zbb_names -> ~ In n ("instructions" :: opcode_names [])) -> (forall w n, zbb_op w = Some n -> In n zbb_names) ->
  q_history (exec1 d zbb sys junk ljunk) evicted reg_id reg_size csr_id csr_get csr_set (op1 d zbb_op) P (fun _ => 0) (fresh (m_arch m0) (m_mem m0) (m_pc m0)) h q s ->
  total q (opcode_names zbb_names) = t_insts s.
Proof. intros D Z N O H. destruct (C89_opcodes d zbb_op zbb_names D Z N O) as (A & B & _). exact (C89_total _ _ _ _ _ _ _ _ _ _ _ _ _ _ H A B). Qed.
Print Assumptions C89_register.
Print Assumptions C89_opcodes.
Print Assumptions C89_v1_total.

(** ** Cases *)
(** The opcodes of the small instruction set, by number. *)
Definition toy_op (w : Z) : string :=
  if w =? ebreak then "ebreak" else if w =? 1 then "one" else if w =? 2 then "two" else if w =? 9 then "loop" else "other".
Definition toy_names : list string := ["ebreak"; "one"; "two"; "loop"; "other"].
Lemma toy_names_ok : NoDup toy_names /\ forall w, In (toy_op w) toy_names.
Proof.
  split; [repeat (constructor; [cbn; intuition discriminate|]); constructor|].
  intros w. unfold toy_op, toy_names. destruct (w =? ebreak), (w =? 1), (w =? 2), (w =? 9); cbn; auto 10.
Qed.
Notation toy_q_call := (q_call toy_exec never toy_reg toy_size toy_csr (fun _ _ => 0) (fun _ _ c => c) toy_op).
Fixpoint q_play (l : list call) (q : tally) (s : toy_top) : option (list ret * tally * toy_top) :=
  match l with
  | [] => Some ([], q, s)
  | c :: t =>
      match toy_q_call c q s with
      | (q1, Some (Ok (r, s1))) => match q_play t q1 s1 with Some (rs, q2, s2) => Some (r :: rs, q2, s2) | None => None end
      | _ => None
      end
  end.
Lemma q_play_history l : forall q s rs q' s', q_play l q s = Some (rs, q', s') ->
  q_history toy_exec never toy_reg toy_size toy_csr (fun _ _ => 0) (fun _ _ c => c) toy_op (fun _ _ => True) q s (combine l rs) q' s'.
Proof.
  induction l as [|c l IH]; intros q s rs q' s' E; cbn [q_play] in E.
  - injection E as <- <- <-. constructor.
  - destruct (toy_q_call c q s) as [q1 [[[r s1]| |]|]] eqn:Ec; try discriminate. destruct (q_play l q1 s1) as [[[rs2 q2] s2]|] eqn:El; try discriminate.
    injection E as <- <- <-. cbn [combine]. econstructor; [exact I|exact Ec|exact (IH _ _ _ _ _ El)].
Qed.
Definition q_seen (x : option (list ret * tally * toy_top)) : option (list ret * list Z * Z) :=
  match x with Some (rs, q, s) => Some (rs, map q toy_names, t_insts s) | None => None end.
(** The loop 1 2 5 3 9: twelve instructions without breakpoints, then with one at 4. *)
Example C89_case :
  q_seen (q_play [CStep 12] (fun _ => 0) (toy_fresh toy_prog)) = Some ([RVal 12], [0; 3; 3; 2; 4], 12) /\
  q_seen (q_play [CStep 7; CWriteMem 100 [1]; CStep 5] (fun _ => 0) (toy_fresh toy_prog)) = Some ([RVal 7; RVal 1; RVal 5], [0; 3; 3; 2; 4], 12) /\
  q_seen (q_play [CSetBp 4; CRun 30; CRun 30; CRun 30; CDisasm 4] (fun _ => 0) (toy_fresh toy_prog)) = Some ([ROk; ROk; ROk; ROk; RVal 2], [3; 3; 2; 2; 4], 14).
Proof. split; [|split]; vm_compute; reflexivity. Qed.
Example C89_total_case : exists rs q s, q_play [CSetBp 4; CRun 30; CRun 30; CClearBp 4; CStep 9] (fun _ => 0) (toy_fresh toy_prog) = Some (rs, q, s) /\ total q toy_names = t_insts s /\ t_insts s = 14.
Proof.
  destruct (q_play [CSetBp 4; CRun 30; CRun 30; CClearBp 4; CStep 9] (fun _ => 0) (toy_fresh toy_prog)) as [[[rs q] s]|] eqn:E; [|assert (X := f_equal q_seen E); vm_compute in X; discriminate X].
  exists rs, q, s. split; [reflexivity|]. split.
  - apply (C89_total toy_exec never toy_reg toy_size toy_csr (fun _ _ => 0) (fun _ _ c => c) toy_op (fun _ _ => True) (toy_m0 toy_prog) _ q s toy_names (q_play_history _ _ _ _ _ _ E)); apply toy_names_ok.
  - assert (F : option_map (fun x => t_insts (snd x)) (Some (rs, q, s)) = Some 14) by (rewrite <- E; vm_compute; reflexivity). now injection F.
Qed.
(** The premises of [C89_each_partial] hold of the session of C33's case: seven
    instructions of the program and three hits of a breakpoint. *)
Example C89_each_case : exists rs q s,
  q_history toy_exec never toy_reg toy_size toy_csr (fun _ _ => 0) (fun _ _ c => c) toy_op (allowed toy_code (toy_m0 toy_prog)) (fun _ => 0)
    (toy_fresh toy_prog) (combine PropTop.case_calls rs) q s /\
  toy_clean_along toy_code (toy_m0 toy_prog) (combine PropTop.case_calls rs) (t_insts s) /\ bytes_ok (m_mem (toy_m0 toy_prog)) /\ t_insts s = 10 /\
  words toy_exec (toy_m0 toy_prog) 7 = [1; 2; 5; 3; 9; 1; 2] /\
  q_seen (q_play PropTop.case_calls (fun _ => 0) (toy_fresh toy_prog)) =
    Some ([ROk; ROk; ROk; RVal 2; RBytes [115; 0; 16; 0]; ROk; ROk; RVal 2; ROk], [3; 2; 2; 1; 2], 10).
Proof.
  destruct PropTop.case_history as (rs & s & H & _ & _ & _ & _ & N & _ & K).
  destruct (proj2 (C89_histories toy_exec never toy_reg toy_size toy_csr (fun _ _ => 0) (fun _ _ c => c) toy_op _ _ _ _) H (fun _ => 0)) as (q & Q).
  exists rs, q, s. split; [exact Q|]. split; [exact K|]. split; [apply toy_bytes|]. split; [exact N|]. split; vm_compute; reflexivity.
Qed.
(** The premises of [C89_run] hold of the program 1 2 7: it ends, each opcode counted
    once; with fuel for two instructions it still runs. *)
Example C89_run_case : let m := Mach 0x100 toy_regs (PropCli.toy_mem 0x100) in
  (unmodified toy_exec m /\ regular toy_exec m) /\ words toy_exec m 3 = [1; 2; 7] /\
  (let (q, o) := q_run toy_exec never toy_op 9 (fun _ => 0) (fresh toy_regs (PropCli.toy_mem 0x100) 0x100) in
   map q toy_names = [0; 1; 1; 0; 1] /\ match o with Some (Ok (ROk, s)) => t_reason s = ROther 1 | _ => False end) /\
  (let (q, o) := q_run toy_exec never toy_op 2 (fun _ => 0) (fresh toy_regs (PropCli.toy_mem 0x100) 0x100) in
   map q toy_names = [0; 1; 1; 0; 0] /\ o = None).
Proof.
  split; [exact (PropCli.toy_program 0x100 (or_introl eq_refl))|]. split; [vm_compute; reflexivity|]. split; [|vm_compute; split; reflexivity].
  vm_compute. split; reflexivity.
Qed.
(** V1 words: add x3, x1, x2; vadd.b.vv v0, v0, v0 (the zero word); ebreak; a word no
    decoder accepts; a Zbb word. *)
Example C89_opcodes_case :
  map (op1 first_match (fun w => if w =? 0x40007033 then Some "andn" else None)) [0x002081b3; 0; 0x00100073; 0xffffffff; 0x40007033] = ["add"; "vadd_b_vv"; "ebreak"; "none"; "andn"] /\
  (forall n, In n ["andn"; "orn"; "clz"] -> ~ In n ("instructions" :: opcode_names [])) /\ NoDup ["andn"; "orn"; "clz"].
Proof.
  split; [vm_compute; reflexivity|]. split.
  - intros n H I. assert (E : forallb (fun n => negb (existsb (String.eqb n) ("instructions" :: opcode_names []))) ["andn"; "orn"; "clz"] = true) by (vm_compute; reflexivity).
    pose proof (proj1 (forallb_forall _ _) E n H) as F. cbv beta in F. apply negb_true_iff in F.
    rewrite (proj2 (existsb_exists (String.eqb n) _)) in F; [discriminate|]. exists n. split; [exact I|apply String.eqb_refl].
  - repeat (constructor; [cbn; intuition discriminate|]). constructor.
Qed.
Example C89_register_case : counters ["none"; "add"; "sub"] = Ok ["num_none"; "num_add"; "num_sub"; "num_instructions"] /\
  counters ["none"; "add"; "add"] = Crash /\ counters ["instructions"] = Crash.
Proof. repeat split. Qed.

(** C89: a breakpoint that is hit counts as an execution of ebreak, although the program
    has none. *)
Theorem C89_breakpoint_refuted :
  q_seen (q_play [CStep 5] (fun _ => 0) (toy_fresh toy_prog)) = Some ([RVal 5], [0; 1; 1; 1; 2], 5) /\
  q_seen (q_play [CSetBp 4; CRun 9; CRun 3] (fun _ => 0) (toy_fresh toy_prog)) = None /\
  q_seen (q_play [CSetBp 4; CRun 9] (fun _ => 0) (toy_fresh toy_prog)) = Some ([ROk; ROk], [1; 1; 0; 0; 0], 2) /\
  ~ In ebreak toy_prog.
Proof. split; [vm_compute; reflexivity|]. split; [vm_compute; reflexivity|]. split; [vm_compute; reflexivity|]. cbn. intuition discriminate. Qed.
Print Assumptions C89_breakpoint_refuted.
