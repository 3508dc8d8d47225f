(** * Semihosting: property C90 *)
From Coq Require Import ZArith List Bool String Lia ZifyBool ZifyNat.
From Verif Require Import CInt LogModel LogSpec DecodeTypes DecodeModel V2DecTypes V2DecModel V2DecSpec V1ScalModel V1ScalSpec RvSpec TopModel TopSpec MachModel HostModel HostSpec TopToy.
From Verif Require HostProofs HostProofs2 HostProofs3 PropMach.
Import ListNotations.
Open Scope string_scope.
Open Scope Z_scope.
Open Scope list_scope.

Section P.
  Context {C H : Type}.
  Variable exec : Z -> Z -> arch (C := C) -> (Z -> Z) -> effect (C := C).
  Variable evicted : Z -> Z -> bool.
  Variable reg_id : string -> option Z.
  Variable reg_size : Z -> Z.
  Variable csr_id : string -> option Z.
  Variable csr_get : Z -> C -> Z.
  Variable csr_set : Z -> Z -> C -> C.
  Variable serve : H -> arch (C := C) -> (Z -> Z) -> served C H.
  Notation h_call := (h_call exec evicted reg_id reg_size csr_id csr_get csr_set).
  Notation do := (do_call exec evicted reg_id reg_size csr_id csr_get csr_set).
  Notation h_history := (h_history exec evicted reg_id reg_size csr_id csr_get csr_set).
  Notation history := (history exec evicted reg_id reg_size csr_id csr_get csr_set).
  Notation path := (path exec).
  Notation plain := (plain exec).

  (** Without the flag every call does what the other theorems say, in every state, and
      the host serves nothing. *)
  Theorem C90_off c h (s : top (C := C)) : h_call false serve c h s = (h, do c s).
  Proof. destruct (HostProofs.call_agrees exec evicted reg_id reg_size csr_id csr_get csr_set false serve c h s) as (_ & A & B). exact (B (A eq_refl)). Qed.
  (** With it, so does every sequence of calls in which the host serves nothing; the
      number of served calls never falls. *)
  Theorem C90_silent use P h (s : top (C := C)) l h' s' : h_history use serve P h s l h' s' ->
    h_calls h <= h_calls h' /\ (h_calls h' = h_calls h -> h' = h /\ history P s l s').
  Proof. intros K. destruct (HostProofs.history_agrees exec evicted reg_id reg_size csr_id csr_get csr_set use serve P h s l h' s' K) as (A & _ & B). split; [exact A|exact B]. Qed.
  (** A Run of a program just loaded, without breakpoints: it goes the program's path,
      on which every ebreak between the marks is served by the host and is followed by
      the next instruction, up to the first instruction that asks for a halt, also the
      host's exit. *)
  Theorem C90_run use fuel h (boot : arch (C := C)) mem pc : let x := (Mach pc boot mem, h) in plain use serve x ->
    match h_run exec evicted use serve fuel h (fresh boot mem pc) with
    | (h', None) => exists t y, length t = fuel /\ path use serve x t None y /\ h' = snd y
    | (h', Some o) => exists t r y s', (length t <= fuel)%nat /\ path use serve x t (Some r) y /\ h' = snd y /\ o = Ok (ROk, s') /\
        t_pc s' = m_pc (fst y) /\ t_arch s' = m_arch (fst y) /\ t_mem s' = m_mem (fst y) /\ t_reason s' = r /\ t_status s' = Halted /\ t_insts s' = Z.of_nat (length t)
    end.
  Proof. exact (HostProofs2.run_ok exec evicted use serve fuel h (fresh boot mem pc) eq_refl eq_refl eq_refl eq_refl eq_refl (fun _ => eq_refl) eq_refl). Qed.
  (** There is one path. *)
  Theorem C90_path use x t r y t' r' y' : path use serve x t r y -> path use serve x t' r' y' -> length t = length t' -> t = t' /\ r = r' /\ y = y'.
  Proof. intros A B. exact (HostProofs2.path_fun exec use serve x t r y A t' r' y' B). Qed.
  (** A program that makes no semihosting call runs with the flag as without. *)
  Theorem C90_unused use fuel h (boot : arch (C := C)) mem pc : let x := (Mach pc boot mem, h) in plain use serve x ->
    (forall t y, path use serve x t None y -> ~ is_call use (fst y)) ->
    h_run exec evicted use serve fuel h (fresh boot mem pc) = (h, run exec evicted fuel (fresh boot mem pc)).
  Proof.
    intros x PL N. assert (K : forall t r y, path use serve x t r y -> snd y = h).
    { induction 1 as [|t y r z P IH O]; [reflexivity|]. destruct O as [(A & _)|(_ & -> & _)]; [destruct (N _ _ P A)|exact IH]. }
    destruct (HostProofs.run_agrees exec evicted reg_size csr_get csr_set use serve fuel h (fresh boot mem pc)) as (_ & _ & B). apply B.
    pose proof (C90_run use fuel h boot mem pc PL) as R. destruct (h_run exec evicted use serve fuel h (fresh boot mem pc)) as [h' [o|]]; cbn [fst].
    - destruct R as (t & r & y & s' & _ & P & -> & _). now rewrite (K _ _ _ P).
    - destruct R as (t & y & _ & P & ->). now rewrite (K _ _ _ P).
  Qed.
  (** Step(1) at an ebreak between the marks serves the call, whether or not there is a
      breakpoint. *)
  Theorem C90_step h (s : top (C := C)) : t_status s = Halted -> t_need s = false -> 0 <= t_pc s < 2 ^ 32 ->
    (t_cache s (t_pc s) = None \/ t_cache s (t_pc s) = Some ebreak) -> load32 (t_mem s) (t_pc s) = ebreak -> marked (t_mem s) (t_pc s) ->
    t_reason s <> RSwBreakpoint ->
    let v := serve (h_state h) (t_arch s) (t_mem s) in
    exists s', h_call true serve (CStep 1) h s = (Host _ (h_calls h + 1) (v_state v), Some (Ok (RVal 1, s'))) /\
      t_pc s' = (t_pc s + 4) mod 2 ^ 32 /\ t_arch s' = v_arch v /\ t_mem s' = v_mem v /\ t_reason s' = (if v_exit v then RSemihost else RNone) /\
      t_status s' = Halted /\ t_bps s' = t_bps s /\ t_map s' = t_map s /\ t_insts s' = t_insts s + 1.
  Proof.
    intros H1 H2 H3 H4 H5 H6 H7 v. destruct (HostProofs3.step_one exec evicted serve h s H1 H2 H3 H4 H5 H6 H7) as (s' & E & F). exists s'. split; [|exact F].
    cbn [HostModel.h_call]. rewrite E. reflexivity.
  Qed.
  (** Run and Step from a breakpoint on an ebreak that is between the marks serve it. *)
  Theorem C90_resume fuel num h (s : top (C := C)) : t_status s = Halted -> t_need s = true -> 4 <= t_pc s < 2 ^ 32 -> t_map s (t_pc s) = Some ebreak -> marked (t_mem s) (t_pc s) ->
    h_calls h < h_calls (fst (h_call true serve (CRun fuel) h s)) /\ (0 < num -> h_calls h < h_calls (fst (h_call true serve (CStep num) h s))).
  Proof.
    intros H1 H2 H3 H4 H5. destruct (HostProofs3.resume exec evicted serve fuel num h s H1 H2 H3 H4 H5) as [A B]. split; [exact A|]. intros N. specialize (B N). cbn [HostModel.h_call].
    destruct (h_step exec evicted true serve num h s) as [h' x]. exact B.
  Qed.
End P.
Print Assumptions C90_step.
Print Assumptions C90_resume.
Print Assumptions C90_off.
Print Assumptions C90_silent.
Print Assumptions C90_run.
Print Assumptions C90_path.
Print Assumptions C90_unused.

(** On a V1 core the marks around a call do nothing. *)
Theorem C90_marks {S} d zbb sys junk ljunk w a (s : arch (C := core S)) m : decoder_ok d -> w = mark_before \/ w = mark_behind ->
  let f := exec1 d zbb sys junk ljunk w a s m in
  f_mem f = m /\ f_pc f = (a + 4) mod 2 ^ 32 /\ f_halt f = None /\ PropMach.kept s (f_arch f) /\ forall i, 0 <= i -> a_regs (f_arch f) i = a_regs s i.
Proof.
  intros D W f.
  assert (K : exists e P y, proper e w /\ lookup (m_name e) op_specs = Some P /\ values e w (a_regs s) [0; y] /\ PropMach.rd w = 0).
  { destruct W as [-> | ->].
    - destruct (PropMach.shows_ok 24 mark_before (a_regs s) "slli" [0; 31]) as (e & A & B & V); [vm_compute; reflexivity|]. exists e. eexists. exists 31. rewrite B. split; [exact A|]. split; [reflexivity|]. split; [exact V|reflexivity].
    - destruct (PropMach.shows_ok 26 mark_behind (a_regs s) "srai" [0; 7]) as (e & A & B & V); [vm_compute; reflexivity|]. exists e. eexists. exists 7. rewrite B. split; [exact A|]. split; [reflexivity|]. split; [exact V|reflexivity]. }
  destruct K as (e & P & y & A & L & V & R0). destruct (PropMach.C70_computation_partial d zbb sys junk ljunk e w a s m P 0 y D A L V) as (F1 & F2 & F3 & F4 & F5).
  rewrite R0 in F5. unfold f. split; [exact F1|]. split; [exact F2|]. split; [exact F3|]. split; [exact F4|].
  intros i Hi. apply F5; [exact Hi|now right].
Qed.
Print Assumptions C90_marks.

(** ** Cases *)
(** The host notes register 1 and answers 4 in it; the third call is exit. *)
Definition toy_serve (h : list Z) (s : toy_arch) (m : Z -> Z) : served unit (list Z) :=
  Served _ _ (h ++ [a_regs s 1]) (Arch (upd1 (a_regs s) 1 4) (a_csr s)) m (Nat.leb 2 (length h)).
Definition no_calls : host (list Z) := Host _ 0 [].
(** 3, a call, 6, 7. *)
Definition asking : list Z := [3; mark_before; ebreak; mark_behind; 6; 7; 8].
Definition end_of (x : host (list Z) * option (outcome (ret * toy_top))) : Z * list Z * option (Z * Z * reason) :=
  let (h, o) := x in (h_calls h, h_state h, match o with Some (Ok (_, s)) => Some (t_pc s, a_regs (t_arch s) 1, t_reason s) | _ => None end).
Notation toy_h_run u n l h := (h_run toy_exec never u toy_serve n h (toy_fresh l)).
(** On: the host sees 10 * 3 + 0x01f01013 and answers 4, then the mark, 6 and 7.  Off:
    the program ends at the ebreak.  At the third call it ends as well. *)
Example C90_case :
  end_of (toy_h_run true 20 asking no_calls) = (1, [30 + 0x01f01013], Some (24, ((40 + 0x40705013) * 10 + 6) * 10 + 7, ROther 1)) /\
  end_of (toy_h_run false 20 asking no_calls) = (0, [], Some (12, 30 + 0x01f01013, RAbort)) /\
  end_of (toy_h_run true 20 asking (Host _ 2 [5; 6])) = (3, [5; 6; 30 + 0x01f01013], Some (12, 4, RSemihost)) /\
  end_of (toy_h_run true 20 [3; 1; ebreak; mark_behind] no_calls) = (0, [], Some (12, 31, RAbort)) /\
  end_of (toy_h_run true 3 asking no_calls) = (1, [30 + 0x01f01013], None).
Proof. repeat (split; [vm_compute; reflexivity|]). vm_compute. reflexivity. Qed.
(** The premise of [C90_run], and its path. *)
Example C90_run_case : let x := (toy_m0 asking, no_calls) in
  plain toy_exec true toy_serve x /\
  let w := HostProofs2.walk toy_exec true toy_serve 9 x in
  path toy_exec true toy_serve x (fst w) (fst (snd w)) (snd (snd w)) /\ fst (snd w) = Some (ROther 1) /\
  map (fun z => (m_pc (fst z), h_calls (snd z))) (fst w) = [(0, 0); (4, 0); (8, 0); (12, 1); (16, 1); (20, 1)].
Proof.
  intros x. pose proof (HostProofs2.walk_path toy_exec true toy_serve 9 x) as P. set (w := HostProofs2.walk toy_exec true toy_serve 9 x) in *.
  assert (R : fst (snd w) = Some (ROther 1)) by (vm_compute; reflexivity).
  assert (M : map (fun z => (m_pc (fst z), h_calls (snd z))) (fst w) = [(0, 0); (4, 0); (8, 0); (12, 1); (16, 1); (20, 1)]) by (vm_compute; reflexivity).
  assert (M' : map (fun z => m_pc (fst z)) (fst w ++ [snd (snd w)]) = [0; 4; 8; 12; 16; 20; 24]) by (vm_compute; reflexivity).
  split; [|split; [exact P|split; [exact R|exact M]]].
  rewrite R in P. apply (HostProofs2.straight toy_exec true toy_serve x _ _ _ P); [| |discriminate|discriminate].
  - rewrite M'. repeat (constructor; [cbn; lia|]). constructor.
  - intros z Hz. apply (in_map (fun z => m_pc (fst z))) in Hz. rewrite M' in Hz. cbn [In] in Hz. lia.
Qed.
(** The premises of [C90_unused] hold of a program whose ebreak has no mark behind it. *)
Example C90_unused_case : let x := (toy_m0 [3; mark_before; ebreak; 5], no_calls) in
  plain toy_exec true toy_serve x /\ forall t y, path toy_exec true toy_serve x t None y -> ~ is_call true (fst y).
Proof.
  intros x. pose proof (HostProofs2.walk_path toy_exec true toy_serve 9 x) as P. set (w := HostProofs2.walk toy_exec true toy_serve 9 x) in *.
  assert (R : fst (snd w) = Some RAbort) by (vm_compute; reflexivity).
  assert (M : map (fun z => m_pc (fst z)) (fst w ++ [snd (snd w)]) = [0; 4; 8; 12]) by (vm_compute; reflexivity).
  assert (B : map (fun z => between (m_mem (fst z)) (m_pc (fst z))) (fst w ++ [snd (snd w)]) = [false; false; false; false]) by (vm_compute; reflexivity).
  rewrite R in P. split.
  - apply (HostProofs2.straight toy_exec true toy_serve x _ _ _ P); [| |discriminate|discriminate].
    + rewrite M. repeat (constructor; [cbn; lia|]). constructor.
    + intros z Hz. apply (in_map (fun z => m_pc (fst z))) in Hz. rewrite M in Hz. cbn [In] in Hz. lia.
  - intros t y Q (_ & _ & K). destruct (HostProofs2.path_prefix toy_exec true toy_serve x _ _ _ Q _ _ _ P) as (u & U & _).
    assert (I : In y (fst w ++ [snd (snd w)])) by (rewrite U; apply in_or_app; right; now left).
    apply (in_map (fun z => between (m_mem (fst z)) (m_pc (fst z)))) in I. rewrite B in I. apply HostProofs.between_ok in K. rewrite K in I. cbn [In] in I. intuition discriminate.
Qed.

(** C90: with the flag a breakpoint between the marks is not hit.  On the ebreak of a
    call, the call is served and the run goes on.  On another instruction, here 5, the
    breakpoint itself becomes a call that the program does not make, and the
    instruction is not executed. *)
Definition toy_h_play (u : bool) (l : list call) (s : toy_top) : host (list Z) * option (outcome (ret * toy_top)) :=
  fold_left (fun p c => match p with (h, Some (Ok (_, s))) => h_call toy_exec never toy_reg toy_size toy_csr (fun _ _ => 0) (fun _ _ c => c) u toy_serve c h s | _ => p end) l (no_calls, Some (Ok (ROk, s))).
(** At the ebreak of a call with a breakpoint on it, Step(1) serves; so does Run from a
    breakpoint that became part of a call when the second mark was written. *)
Definition at_ (l : list call) (p : list Z) (look : toy_top -> Prop) : Prop := match toy_h_play true l (toy_fresh p) with (_, Some (Ok (_, s))) => look s | _ => False end.
Example C90_step_case :
  at_ [CSetBp 8; CStep 2] asking (fun s => t_status s = Halted /\ t_need s = false /\ t_pc s = 8 /\ t_cache s 8 = None /\ load32 (t_mem s) 8 = ebreak /\ marked (t_mem s) 8 /\ t_reason s = RNone) /\
  end_of (toy_h_play true [CSetBp 8; CStep 2; CStep 1] (toy_fresh asking)) = (1, [30 + 0x01f01013], Some (12, 4, RNone)) /\
  at_ [CSetBp 8; CRun 9; CWriteMem 12 [0x13; 0x50; 0x70; 0x40]] [3; mark_before; ebreak; 1; 6; 7] (fun s => t_status s = Halted /\ t_need s = true /\ t_pc s = 8 /\ t_map s 8 = Some ebreak /\ marked (t_mem s) 8) /\
  end_of (toy_h_play true [CSetBp 8; CRun 9; CWriteMem 12 [0x13; 0x50; 0x70; 0x40]; CRun 9] (toy_fresh [3; mark_before; ebreak; 1; 6; 7])) = (1, [30 + 0x01f01013], Some (24, ((40 + 0x40705013) * 10 + 6) * 10 + 7, ROther 1)).
Proof. split; [|split; [|split]]; vm_compute; repeat split. Qed.
Definition odd : list Z := [3; mark_before; 5; mark_behind; 6; 7; 8].
Theorem C90_breakpoint_refuted :
  end_of (toy_h_play true [CSetBp 8; CRun 20] (toy_fresh asking)) = end_of (toy_h_run true 20 asking no_calls) /\
  end_of (toy_h_play false [CSetBp 8; CRun 20] (toy_fresh odd)) = (0, [], Some (8, 30 + 0x01f01013, RSwBreakpoint)) /\
  end_of (toy_h_play true [CRun 20] (toy_fresh odd)) = (0, [], Some (24, ((((30 + 0x01f01013) * 10 + 5) * 10 + 0x40705013) * 10 + 6) * 10 + 7, ROther 1)) /\
  end_of (toy_h_play true [CSetBp 8; CRun 20] (toy_fresh odd)) = (1, [30 + 0x01f01013], Some (24, ((40 + 0x40705013) * 10 + 6) * 10 + 7, ROther 1)).
Proof. repeat (split; [vm_compute; reflexivity|]). vm_compute. reflexivity. Qed.
Print Assumptions C90_breakpoint_refuted.
