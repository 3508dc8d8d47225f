(** * Property C75: a Renode session shows the program *)
From Coq Require Import ZArith List Bool String Lia ZifyBool ZifyNat.
From Verif Require Import CInt TopModel TopSpec RenodeModel RenodeSpec CliModel RenodeTopModel RenodeTopSpec RenodeTopProofs.
Import ListNotations.
Open Scope Z_scope.

Section P.
  Context {C : Type}.
  Variable exec : Z -> Z -> arch (C := C) -> (Z -> Z) -> effect (C := C).
  Variable evicted : Z -> Z -> bool.
  Variable reg_id : string -> option Z.
  Variable reg_size : Z -> Z.
  Variable csr_id : string -> option Z.
  Variable csr_get : Z -> C -> Z.
  Variable csr_set : Z -> Z -> C -> C.
  Variable boot : arch (C := C).
  Variable boot_pc : Z.
  Context {File Blocks : Type}.
  Variable create_shared : Z * Z * Blocks -> top (C := C).
  Variable files : File -> option (list Z).
  Variable elf : File -> (Z -> Z) -> option Z * (Z -> Z).
  Variable enums : dbgreg -> Z.
  Variable names : Z -> option string.
  Notation ops_ := (top_ops exec evicted reg_id reg_size csr_id csr_get csr_set boot boot_pc create_shared files elf enums names).

  (** Whatever calls are made, about whichever instances, in whichever order: the
      answers about instance [j] are those of the program run directly. *)
  Theorem C75_session_partial fuel j ks a rs :
    RenodeModel.run ops_ fuel ks agent0 = Some (Ok (a, rs)) ->
    Z.of_nat (length (filter is_construct ks)) + 1 < 2 ^ 32 -> Forall arguments_ok ks ->
    (forall max b r, In (Construct max (Some b), r) (combine ks rs) -> r_ret r mod 2 ^ 32 <> j mod 2 ^ 32) ->
    steady exec reg_id reg_size csr_id csr_get csr_set boot boot_pc files elf names j None (combine ks rs) ->
    exists x, session exec reg_id reg_size csr_id csr_get csr_set boot boot_pc files elf names j None (combine ks rs) x.
  Proof. exact (session_ok exec evicted reg_id reg_size csr_id csr_get csr_set boot boot_pc create_shared files elf enums names fuel j ks a rs). Qed.

  (** The simulator keeps what C50 asks of it. *)
  Theorem C75_contract : step_contract ops_.
  Proof. exact (contract_ok exec evicted reg_id reg_size csr_id csr_get csr_set boot boot_pc create_shared files elf enums names). Qed.
End P.

(** ** A session *)
(** Instruction [w] appends the digit [w] to x1; 7 pauses, 8 is the semihosting exit. *)
Definition rt_exec (w a : Z) (s : arch (C := unit)) (m : Z -> Z) : effect (C := unit) :=
  Eff (Arch (upd1 (a_regs s) 1 (10 * a_regs s 1 + w)) tt) m ((a + 4) mod 2 ^ 32)
      (if w =? 7 then Some RUserRequest else if w =? 8 then Some RSemihost else None).
Definition rt_reg (n : string) : option Z := if String.eqb n "pc" then Some 0 else if String.eqb n "x1" then Some 1 else None.
Definition rt_names (i : Z) : option string := if i =? 32 then Some "pc"%string else if i =? 1 then Some "x1"%string else None.
Definition rt_boot : arch (C := unit) := Arch (fun _ => 0) tt.
(** The program: 1 2 7 3 4 8 at 16. *)
Definition rt_image (mem : Z -> Z) (x : Z) : Z :=
  if (16 <=? x) && (x <? 40) then (if x mod 4 =? 0 then nth (Z.to_nat ((x - 16) / 4)) [1; 2; 7; 3; 4; 8] 0 else 0) else mem x.
Definition rt_elf (_ : unit) (mem : Z -> Z) : option Z * (Z -> Z) := (Some 16, rt_image mem).
Definition rt_ops (evicted : Z -> Z -> bool) : ops _ unit unit :=
  top_ops rt_exec evicted rt_reg (fun _ => 4) (fun _ => None) (fun _ _ => 0) (fun _ _ c => c) rt_boot 0
    (fun _ => fresh rt_boot (fun _ => 0) 0) (fun _ => None) rt_elf (fun _ => 0) rt_names.
Notation rt_call := (RenodeModel.call unit unit).
Definition rt_calls : list rt_call :=
  [Construct 8 None; WriteMem 0 200 [5; 6]; LoadExecutable 0 tt true; Construct 8 None; Step 0 2 true; ReadReg 0 1 true;
   Step 1 5 true; Step 0 100 true; ReadReg 0 32 true; Halt 0 true; Step 0 300 true; Step 0 1 true; ReadReg 0 1 true; ReadMem 0 199 4;
   ReadReg 1 32 true; Destroy 0; Step 0 1 true; ReadReg 2 1 true].
Definition rt_seen (r : option (outcome (@agent (obj (C := unit)) * list result))) : list (Z * option Z * list Z) :=
  match r with Some (Ok (_, rs)) => map (fun r => (r_ret r, r_status r, r_data r)) rs | _ => [] end.
Example C75_case_answers evicted : evicted = (fun _ _ => false) \/ evicted = (fun _ _ => true) ->
  rt_seen (RenodeModel.run (rt_ops evicted) 3 rt_calls agent0) =
  [(0, None, []); (2, None, []); (16, Some 0, []); (1, None, []); (2, Some 0, []); (0, None, [12]);
   (5, Some 0, []); (1, Some 0, []); (0, None, [28]); (0, Some 1, []); (3, Some (-1), []); (0, Some (-1), []); (0, None, [127348]); (4, None, [0; 5; 6; 0]);
   (0, None, [20]); (0, None, []); (0, Some (-1), []); (-1, None, [])].
Proof. intros [->| ->]; vm_compute; reflexivity. Qed.

Notation rt_session := (session rt_exec rt_reg (fun _ => 4) (fun _ => None) (fun _ _ => 0) (fun _ _ c => c) rt_boot 0 (fun _ : unit => None) rt_elf rt_names (Blocks := unit)).
Notation rt_steady := (steady rt_exec rt_reg (fun _ => 4) (fun _ => None) (fun _ _ => 0) (fun _ _ c => c) rt_boot 0 (fun _ : unit => None) rt_elf rt_names (Blocks := unit)).
(** Memory after the program was loaded. *)
Definition rt_mem (x : Z) : Z := rt_image (fun x => if x =? 200 then 5 else if x =? 201 then 6 else 0) x.
Definition rt_same (x : option (inst (C := unit))) : Prop :=
  match x with Some i => forall z, m_mem (n_mach i) z = rt_mem z | None => True end.
Lemma rt_ref_mem k (m : mach (C := unit)) : m_mem (ref rt_exec k m) = m_mem m.
Proof. induction k as [|k IH]; [reflexivity|]. cbn [ref]. unfold ref_step. destruct (_ =? _); [exact IH|]. exact IH. Qed.
Definition rt_quiet (p : rt_call * result) : bool :=
  match fst p with
  | Construct _ _ => negb (r_ret (snd p) mod 2 ^ 32 =? 0)
  | Step _ n _ => (0 <=? n) && (n <? 2 ^ 64)
  | ReadMem _ a n => (0 <=? a) && (0 <=? n) && (n <? 2 ^ 64)
  | ReadReg _ _ _ | Halt _ _ | Destroy _ => true
  | _ => false
  end.
Lemma rt_quiet_ok h x x' : rt_session 0 x h x' -> Forall (fun p => rt_quiet p = true) h -> rt_same x -> rt_same x'.
Proof.
  induction 1 as [x|x k r x1 h x2 Hc Hs IH]; intros Q H; [exact H|]. apply IH; [exact (Forall_inv_tail Q)|].
  pose proof (Forall_inv Q) as Q1. unfold rt_quiet in Q1. cbn [fst snd] in Q1. unfold concerns in Hc. change (0 mod 2 ^ 32) with 0 in Hc.
  destruct k; cbn [target] in Hc; try discriminate.
  - apply negb_true_iff in Q1. rewrite Q1 in Hc. now rewrite Hc.
  - destruct (_ =? _); [|now rewrite Hc]. destruct x as [x|]; [|destruct Hc as [_ ->]; exact I]. destruct Hc as [_ ->]. exact I.
  - destruct (_ =? _); [|now rewrite Hc]. destruct x as [x|]; [|destruct Hc as [_ ->]; exact I]. destruct Hc as [-> _]. exact H.
  - destruct (_ =? _); [|now rewrite Hc]. destruct x as [x|]; [|destruct Hc as [_ ->]; exact I]. unfold behaves in Hc.
    destruct Hc as [-> _]; [lia|lia|]. exact H.
  - destruct (_ =? _) in Hc; [|now rewrite Hc]. destruct x as [x|]; [|destruct Hc as [_ ->]; exact I]. unfold behaves in Hc.
    destruct Hc as (c & _ & Hc); [lia|]. destruct (_ || _); [destruct Hc as [-> _]; exact H|].
    destruct Hc as (k & last & _ & -> & _). cbn [rt_same n_mach]. intros z. rewrite rt_ref_mem. apply H.
  - destruct (_ =? _); [|now rewrite Hc]. destruct x as [x|]; [|destruct Hc as [_ ->]; exact I]. destruct Hc as [-> _]. exact H.
Qed.
Lemma rt_load (m : inst (C := unit)) a z : (forall z, m_mem (n_mach m) z = written (fun _ => 0) 200 [5; 6] z) -> rt_elf tt (m_mem (n_mach m)) = (Some 16, a) -> a z = rt_mem z.
Proof.
  intros H E. unfold rt_elf in E. injection E as <-. unfold rt_mem, rt_image. destruct (_ && _); [reflexivity|]. rewrite H. unfold written.
  change (Z.of_nat (length [5; 6])) with 2. unfold max_address.
  destruct (z =? 200) eqn:E1; [assert (z = 200) by lia; subst; reflexivity|]. destruct (z =? 201) eqn:E2; [assert (z = 201) by lia; subst; reflexivity|].
  replace ((200 <=? z) && (z <? 200 + 2) && (z <=? 0x3fffff)) with false by lia. reflexivity.
Qed.
Lemma rt_steady_ok r1 r2 r3 (h : list (rt_call * result)) : Forall (fun p => rt_quiet p = true) h -> r_ret r1 = 0 ->
  rt_steady 0 None ((Construct 8 None, r1) :: (WriteMem 0 200 [5; 6], r2) :: (LoadExecutable 0 tt true, r3) :: h).
Proof.
  intros Q R1. exists (fun a => load32 rt_mem a). intros m (h1 & id & n & st & r & h2 & x & i & E & _ & S & _ & Hi & _ & ->).
  destruct h1 as [|p1 h1]; [discriminate|]. destruct h1 as [|p2 h1]; [discriminate|]. destruct h1 as [|p3 h1]; [discriminate|].
  cbn [app] in E. injection E as <- <- <- E. inversion S as [|x0 k0 r0 x1 h0 x0' C1 S1]; subst. inversion S1 as [|x0 k0 r0 x2 h0 x0' C2 S2]; subst.
  inversion S2 as [|x0 k0 r0 x3 h0 x0' C3 S3]; subst. clear S S1 S2.
  unfold concerns in C1. cbn [target] in C1. rewrite R1 in C1. destruct C1 as [_ ->].
  unfold concerns in C2. cbn [target] in C2. rewrite Z.eqb_refl in C2. unfold behaves in C2. destruct C2 as (_ & m2 & -> & _ & _ & M2); [lia|cbn; lia|].
  unfold concerns in C3. cbn [target] in C3. rewrite Z.eqb_refl in C3. unfold behaves in C3.
  destruct (rt_elf tt (m_mem (n_mach (Inst m2 (n_last (born rt_boot 0)))))) as [e mem] eqn:Ee.
  assert (e = Some 16) by (unfold rt_elf in Ee; congruence). subst e. destruct C3 as (_ & _ & ->).
  change (assign rt_reg (fun _ => 4) (fun _ => None) (fun _ _ c => c) "pc" 16 (Mach (m_pc (n_mach (Inst m2 (n_last (born rt_boot 0))))) (m_arch (n_mach (Inst m2 (n_last (born rt_boot 0))))) mem))
    with (Mach 16 (m_arch m2) mem) in S3.
  assert (Sm : rt_same (Some x)).
  { apply (rt_quiet_ok _ _ _ S3).
    - apply Forall_app in Q. apply Q.
    - cbn [rt_same n_mach m_mem]. intros z. apply (rt_load (Inst m2 (n_last (born rt_boot 0))) mem z); [exact M2|exact Ee]. }
  split; [|split].
  - unfold word_at, load32. rewrite rt_ref_mem. cbn [rt_same] in Sm. now rewrite !Sm.
  - unfold ref_step. destruct (_ =? _); cbn [m_pc rt_exec f_pc]; apply Z.mod_pos_bound; lia.
  - intros r0. unfold ref_halt. destruct (_ =? _); [intros X; injection X as <-; auto|]. cbn [rt_exec f_halt].
    destruct (_ =? 7); [intros X; injection X as <-; auto|]. destruct (_ =? 8); [intros X; injection X as <-; auto|discriminate].
Qed.
(** The hypotheses of the theorem hold of that session. *)
Example C75_case : exists a rs, RenodeModel.run (rt_ops (fun _ _ => false)) 3 rt_calls agent0 = Some (Ok (a, rs)) /\
  length rs = 18%nat /\
  Z.of_nat (length (filter is_construct rt_calls)) + 1 < 2 ^ 32 /\ Forall arguments_ok rt_calls /\
  (forall max b r, In (Construct max (Some b), r) (combine rt_calls rs) -> r_ret r mod 2 ^ 32 <> 0) /\
  rt_steady 0 None (combine rt_calls rs) /\ exists x, rt_session 0 None (combine rt_calls rs) x.
Proof.
  destruct (RenodeModel.run (rt_ops (fun _ _ => false)) 3 rt_calls agent0) as [[[a rs]|k|]|] eqn:E;
    [|assert (X := f_equal rt_seen E); vm_compute in X; discriminate X..].
  assert (F := C75_case_answers (fun _ _ => false) (or_introl eq_refl)). rewrite E in F. cbn [rt_seen] in F.
  exists a, rs. split; [reflexivity|].
  assert (L : length rs = 18%nat) by (apply (f_equal (@length _)) in F; rewrite map_length in F; exact F). split; [exact L|].
  assert (Nc : Z.of_nat (length (filter is_construct rt_calls)) + 1 < 2 ^ 32) by (cbn; lia). split; [exact Nc|].
  assert (A : Forall arguments_ok rt_calls) by (repeat constructor; cbn; lia). split; [exact A|].
  unfold rt_calls in *. do 18 (destruct rs as [|? rs]; [discriminate L|]). destruct rs; [|discriminate L]. clear L.
  cbn [map] in F. injection F as F1 F2 F3 F4 F5 F6 F7 F8 F9 F10 F11 F12 F13 F14 F15 F16 F17 F18 F19 F20 F21 F22 F23 F24 F25 F26 F27 F28 F29 F30
    F31 F32 F33 F34 F35 F36 F37 F38 F39 F40 F41 F42 F43 F44 F45 F46 F47 F48 F49 F50 F51 F52 F53 F54.
  match goal with |- ?B /\ ?S /\ ?G => assert (B0 : B); [|assert (S0 : S); [|split; [exact B0|split; [exact S0|]]]] end.
  - intros max b q I. cbn [In combine] in I. repeat (destruct I as [I|I]; [discriminate I|]). destruct I.
  - apply rt_steady_ok; [|assumption]. repeat constructor. unfold rt_quiet. cbn [fst snd]. now rewrite F10.
  - exact (C75_session_partial _ _ _ _ _ _ _ _ _ _ _ _ _ _ 3 0 _ _ _ E Nc A B0 S0).
Qed.

Print Assumptions C75_session_partial.
Print Assumptions C75_contract.
