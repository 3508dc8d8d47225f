(** * The instruction trace: C82 *)
From Coq Require Import ZArith List Bool String Lia.
From Verif Require Import CInt TopModel TopSpec TopProofs TopProofs2 TopProofs3 TopCor TopToy TraceModel TraceSpec TraceProofs TraceProofs2.
Import ListNotations.
Open Scope Z_scope.

Section P.
  Context {C : Type}.
  Variable exec : Z -> Z -> arch (C := C) -> (Z -> Z) -> effect (C := C).
  Variable evicted : Z -> Z -> bool.
  Variable reg_id : string -> option Z.
  Variable reg_size : Z -> Z.
  Variable csr_id : string -> option Z.
  Variable csr_get : Z -> C -> Z.
  Variable csr_set : Z -> Z -> C -> C.
  Variable disasm : Z -> Z -> list Z.
  Notation history := (history exec evicted reg_id reg_size csr_id csr_get csr_set).
  Notation follows := (follows exec reg_id reg_size csr_id csr_set).
  Notation clean_along := (clean_along exec reg_id reg_size csr_id csr_set).
  Notation clean := (clean exec).
  Notation ref := (ref exec).
  Notation first_stop := (first_stop exec).
  Notation start m := (fresh (m_arch m) (m_mem m) (m_pc m)).
  Notation run_traced := (run_traced exec evicted disasm).

  (** C82. Tracing changes nothing about the run. *)
  Theorem C82_same_run fuel fl w (s : top (C := C)) :
    option_map fst (run_traced fuel fl w s) = run exec evicted fuel s.
  Proof. exact (run_traced_same exec evicted disasm fuel fl w s). Qed.

  (** C82. The file at a usable path holds, in the protobuf wire format, the address
      and the word of every instruction of the run in program order, with its text
      if asked for; no other file changes.  If the trace needs more than INT_MAX
      bytes the file is empty.
      Missing for the full claim: the instruction resumed at and the ebreak stopped
      at, and programs that write to their own code, see the refutations below. *)
  Theorem C82_trace_partial code m0 h s :
    bytes_ok (m_mem m0) -> 0 <= m_pc m0 < 2 ^ 32 ->
    history (allowed code m0) (start m0) h s -> clean_along code m0 h (t_insts s) ->
    exists k m, follows m0 h k m /\ shows s m /\
      forall fuel fl w r s' w',
        run_traced fuel fl w s = Some (Ok (r, s'), w') ->
        (forall i, Z.of_nat i < t_insts s' - t_insts s -> clean code (ref i m)) ->
        exists n, r = ROk /\ shows s' (ref n m) /\
          (t_reason s <> RSwBreakpoint -> first_stop (t_bps s) m 0 n (t_reason s')) /\
          (t_reason s = RSwBreakpoint -> (1 <= n)%nat /\ first_stop (t_bps s) (ref 1 m) 0 (n - 1) (t_reason s')) /\
          let l := trace_of exec disasm (fl_disasm fl) m (reason_eqb (t_reason s) RSwBreakpoint) n (t_reason s') in
          (fl_trace fl = true -> usable (w_fs w) (fl_path fl) ->
             exists b, w_fs w' (fl_path fl) = Some (File b) /\ w_said w' = w_said w ++ [SDump (fl_path fl)] /\
               (room l <= 2 ^ 31 - 1 -> read_trace b = Some l) /\ (2 ^ 31 <= 6 * Z.of_nat (List.length l) -> b = []) /\
               (read_trace b = Some l \/ b = []) /\ Z.of_nat (List.length b) <= 2 ^ 31 - 1) /\
          (forall q, w_fs w q <> None -> w_fs w' q = w_fs w q \/
             (q = fl_path fl /\ fl_trace fl = true /\ usable (w_fs w) (fl_path fl))) /\
          (fl_trace fl = false -> w' = w).
  Proof.
    intros H1 H2 HH HC. destruct (reach_inv exec evicted reg_id reg_size csr_id csr_get csr_set code m0 H1 H2 h s HH HC) as (k & m & F & T & I).
    exists k, m. split; [exact F|]. split; [apply (Inv_shows _ _ _ _ I)|]. intros fuel fl w r s' w' E CL.
    destruct (run_traced_ok exec evicted disasm code m0 H1 fuel fl w m s r s' w' I E CL) as (n & -> & I' & B & F1 & F2 & L).
    exists n. split; [reflexivity|]. split; [apply (Inv_shows _ _ _ _ I')|]. split; [exact F1|]. split; [exact F2|].
    exact (left_ok _ _ _ _ L).
  Qed.
End P.

(** ** Cases *)
Definition t_path : path := [47; 116; 47; 97].
Definition t_fs : fs := fun p => if same p [47; 116] then Some Dir else if same p [98] then Some (File [1]) else None.
Definition t_text (w a : Z) : list Z := [w; a].
Definition t_flags : flags := Flags true true t_path.
(** The traced runs of a session: the calls [l], then a traced Run. *)
Definition t_run (prog : list Z) (fl : flags) (f : fs) (l : list call) : option (Z * reason * option (list tentry) * list said) :=
  match play l (toy_fresh prog) with
  | Some (Ok (_, s)) =>
      match run_traced toy_exec never t_text 50 fl (World f []) s with
      | Some (Ok (ROk, s'), w) =>
          Some (a_regs (t_arch s') 1, t_reason s', match w_fs w (fl_path fl) with Some (File b) => read_trace b | _ => None end, w_said w)
      | _ => None
      end
  | _ => None
  end.
(** Instructions 1, 2 and the halting 7. *)
Example C82_case :
  usable t_fs t_path /\
  t_run [1; 2; 7; 3] t_flags t_fs [] =
    Some (127, ROther 1, Some [TEntry 0 1 (Some [1; 0]); TEntry 4 2 (Some [2; 4]); TEntry 8 7 (Some [7; 8])], [SDump t_path]) /\
  t_run [1; 2; 7; 3] (Flags true false t_path) t_fs [] =
    Some (127, ROther 1, Some [TEntry 0 1 None; TEntry 4 2 None; TEntry 8 7 None], [SDump t_path]) /\
  t_run [1; 2; 7; 3] (Flags true false [98]) t_fs [] =
    Some (127, ROther 1, Some [TEntry 0 1 None; TEntry 4 2 None; TEntry 8 7 None], [SDump [98]]) /\
  t_run [1; 2; 7; 3] (Flags false false t_path) t_fs [] = Some (127, ROther 1, None, []).
Proof.
  split; [|vm_compute; repeat split]. right. exists [47; 116], [97]. split; [reflexivity|]. split; [intros [H|[]]; discriminate|].
  split; [discriminate|]. split; [discriminate|]. split; [discriminate|]. now left.
Qed.
(** The premises of [C82_trace_partial] hold of a session stopped at a breakpoint
    and run on to another one. *)
Example C82_session_case :
  let l := [CSetBp 4; CSetBp 12; CRun 50] in
  exists rs s, toy_history (allowed toy_code (toy_m0 toy_prog)) (toy_fresh toy_prog) (combine l rs) s /\
    t_reason s = RSwBreakpoint /\ t_insts s = 2 /\
    toy_clean_along toy_code (toy_m0 toy_prog) (combine l rs) (t_insts s) /\
    option_map (fun p => match p with (Ok (r, s'), w) => (r, t_pc s', match w_fs w t_path with Some (File b) => read_trace b | _ => None end) | _ => (RErr EInternal, 0, None) end)
      (run_traced toy_exec never t_text 50 (Flags true false t_path) (World t_fs []) s) =
      Some (ROk, 12, Some [TEntry 8 5 None; TEntry 12 ebreak None]).
Proof.
  intros l. destruct (play l (toy_fresh toy_prog)) as [[[rs s]|k|]|] eqn:E;
    [|(assert (X := f_equal seen E); vm_compute in X; discriminate X)..].
  pose (look := fun x : option (outcome (list ret * toy_top)) => match x with Some (Ok (rs, s)) => (rs, t_reason s, t_insts s,
     option_map (fun p => match p with (Ok (r, s'), w) => (r, t_pc s', match w_fs w t_path with Some (File b) => read_trace b | _ => None end) | _ => (RErr EInternal, 0, None) end)
      (run_traced toy_exec never t_text 50 (Flags true false t_path) (World t_fs []) s)) | _ => ([], RNone, 0, None) end).
  assert (S : look (play l (toy_fresh toy_prog)) = ([ROk; ROk; ROk], RSwBreakpoint, 2, Some (ROk, 12, Some [TEntry 8 5 None; TEntry 12 ebreak None])))
    by (vm_compute; reflexivity).
  rewrite E in S. cbv beta iota delta [look] in S. clear look. injection S as S1 S2 S3 S4.
  exists rs, s. split; [|clear E; split; [exact S2|split; [exact S3|split; [|exact S4]]]].
  - apply (play_history _ _ _ _ _ E). intros l1 c l2 rs1 s1 EL EP. clear - EL. unfold l in EL.
    repeat (destruct l1 as [|? l1]; cbn [app] in EL;
      [injection EL as <- _; cbn [allowed]; unfold bp_ok, word_in_code, toy_code;
       first [exact I|(repeat split; first [lia|(intros; lia)|(let X := fresh in intros X; vm_compute in X; discriminate X)])]
      |injection EL as <- EL]).
    now apply app_cons_not_nil in EL.
  - apply toy_along. rewrite S1. cbn. intros c r H.
    repeat (destruct H as [H|H]; [injection H as <- _; cbn; lia || exact I|]). destruct H.
Qed.

(** ** Where the full claim fails *)
(** A program stopped at a breakpoint on 2 and resumed: 1 and an ebreak, then 7
    alone.  The instruction 2 is in neither trace, the ebreak is no instruction of
    the program, and the second trace replaces the first. *)
Theorem C82_breakpoint_refuted :
  t_run [1; 2; 7; 3] (Flags true false t_path) t_fs [CSetBp 4] =
    Some (1, RSwBreakpoint, Some [TEntry 0 1 None; TEntry 4 ebreak None], [SDump t_path]) /\
  t_run [1; 2; 7; 3] (Flags true false t_path) t_fs [CSetBp 4; CRun 50] =
    Some (127, ROther 1, Some [TEntry 8 7 None], [SDump t_path]).
Proof. vm_compute. split; reflexivity. Qed.
(** A name in the working directory: the simulator makes a directory of that name,
    says that it dumps the trace there, and writes none. *)
Theorem C82_plain_name_refuted :
  t_run [1; 2; 7; 3] (Flags true false [97]) t_fs [] = Some (127, ROther 1, None, [SDump [97]]) /\
  (forall s w, run_traced toy_exec never t_text 50 (Flags true false [97]) (World t_fs []) (toy_fresh [1; 2; 7; 3]) = Some (Ok (ROk, s), w) ->
     w_fs w [97] = Some Dir).
Proof.
  split; [vm_compute; reflexivity|]. intros s w H.
  assert (X : option_map (fun p => w_fs (snd p) [97]) (run_traced toy_exec never t_text 50 (Flags true false [97]) (World t_fs []) (toy_fresh [1; 2; 7; 3])) = Some (w_fs w [97]))
    by now rewrite H.
  vm_compute in X. injection X as X. now symmetry.
Qed.
(** A file in the root directory, or two directories below an existing one: no
    trace. *)
Theorem C82_directory_refuted :
  t_run [1; 2; 7; 3] (Flags true false [47; 97]) t_fs [] = Some (127, ROther 1, None, [SFailed []]) /\
  t_run [1; 2; 7; 3] (Flags true false [47; 116; 47; 98; 47; 99; 47; 97]) t_fs [] =
    Some (127, ROther 1, None, [SFailed [47; 116; 47; 98; 47; 99]]) /\
  t_run [1; 2; 7; 3] (Flags true false [47; 116; 47; 98; 47; 97]) t_fs [] =
    Some (127, ROther 1, Some [TEntry 0 1 None; TEntry 4 2 None; TEntry 8 7 None], [SDump [47; 116; 47; 98; 47; 97]]).
Proof. vm_compute. repeat split. Qed.
(** An instruction that overwrites itself is listed as what it became: 5 at address
    100 stores register 1, then 1, over itself. *)
Definition t_self (x : Z) : Z := if x =? 96 then 1 else if x =? 100 then 5 else if x =? 104 then 7 else 0.
Theorem C82_own_code_refuted :
  match run_traced toy_exec never t_text 50 (Flags true false t_path) (World t_fs []) (fresh toy_regs t_self 96) with
  | Some (Ok (ROk, s), w) =>
      a_regs (t_arch s) 1 = 157 /\
      option_map (fun n => match n with File b => read_trace b | Dir => None end) (w_fs w t_path) =
        Some (Some [TEntry 96 1 None; TEntry 100 1 None; TEntry 104 7 None])
  | _ => False
  end.
Proof. vm_compute. split; reflexivity. Qed.

Print Assumptions C82_same_run.
Print Assumptions C82_trace_partial.
Print Assumptions C82_breakpoint_refuted.
Print Assumptions C82_plain_name_refuted.
Print Assumptions C82_directory_refuted.
Print Assumptions C82_own_code_refuted.
