(** * A small instruction set for the examples about the debug interface *)
From Coq Require Import ZArith List Bool String Lia.
From Verif Require Import CInt TopModel TopSpec.
From Coq Require Import ZifyBool ZifyNat.
Import ListNotations.
Open Scope Z_scope.

Notation toy_arch := (arch (C := unit)).
Notation toy_top := (top (C := unit)).
(** Word 7 halts, 9 jumps to address 0, 5 stores register 1 at address 100, every
    word is appended to register 1 as a decimal digit. *)
Definition toy_exec (w a : Z) (s : toy_arch) (m : Z -> Z) : effect (C := unit) :=
  let s' := Arch (upd1 (a_regs s) 1 (a_regs s 1 * 10 + w)) (a_csr s) in
  let m' := if w =? 5 then upd1 m 100 (a_regs s 1 mod 256) else m in
  Eff s' m' (if w =? 9 then 0 else (a + 4) mod 2 ^ 32) (if w =? 7 then Some (ROther 1) else None).
Definition toy_words (l : list Z) : Z -> Z :=
  fun x => if (0 <=? x) && (x <? 4 * Z.of_nat (length l))
           then (nth (Z.to_nat (x / 4)) l 0 / 2 ^ (8 * (x mod 4))) mod 256 else 0.
Definition toy_regs : toy_arch := Arch (fun _ => 0) tt.
Definition toy_fresh (l : list Z) : toy_top := fresh toy_regs (toy_words l) 0.
Definition toy_m0 (l : list Z) : mach (C := unit) := Mach 0 toy_regs (toy_words l).
Definition never (t a : Z) : bool := false.
Definition toy_reg (n : string) : option Z :=
  if String.eqb n "pc" then Some 0 else if String.eqb n "x1" then Some 1 else if String.eqb n "ra" then Some 1
  else if String.eqb n "v0" then Some 2 else None.
Definition toy_size (i : Z) : Z := if i =? 2 then 32 else 4.
Definition toy_csr (n : string) : option Z := if String.eqb n "mcycle" then Some 0 else None.
Definition toy_call : call -> toy_top -> option (outcome (ret * toy_top)) :=
  do_call toy_exec never toy_reg toy_size toy_csr (fun _ _ => 0) (fun _ _ c => c).
Notation toy_history := (history toy_exec never toy_reg toy_size toy_csr (fun _ _ => 0) (fun _ _ c => c)).
Notation toy_follows := (follows toy_exec toy_reg toy_size toy_csr (fun _ _ c => c)).
Notation toy_clean_along := (clean_along toy_exec toy_reg toy_size toy_csr (fun _ _ c => c)).
(** Makes the calls one after the other. *)
Fixpoint play (l : list call) (s : toy_top) : option (outcome (list ret * toy_top)) :=
  match l with
  | [] => Some (Ok ([], s))
  | c :: t =>
      match toy_call c s with
      | Some (Ok (r, s1)) =>
          match play t s1 with
          | Some (Ok (rs, s2)) => Some (Ok (r :: rs, s2))
          | x => x
          end
      | Some (UB k) => Some (UB k)
      | Some Crash => Some Crash
      | None => None
      end
  end.
(** The visible outcome: results, pc, register 1, halt reason. *)
Definition seen (x : option (outcome (list ret * toy_top))) : option (list ret * Z * Z * reason) :=
  match x with
  | Some (Ok (rs, s)) => Some (rs, t_pc s, a_regs (t_arch s) 1, t_reason s)
  | _ => None
  end.

(** The loop 1 2 5 3 9 at 0..19. *)
Definition toy_prog : list Z := [1; 2; 5; 3; 9].
Definition toy_code (x : Z) : Prop := 0 <= x < 20.
Definition toy_ok (m : mach (C := unit)) : Prop :=
  In (m_pc m) [0; 4; 8; 12; 16] /\ forall x, toy_code x -> m_mem m x = toy_words toy_prog x.
Lemma toy_word m : toy_ok m -> word_at m = load32 (toy_words toy_prog) (m_pc m) /\ In (word_at m) [1; 2; 5; 3; 9] /\ (word_at m = 9 <-> m_pc m = 16).
Proof.
  intros [P M]. unfold word_at.
  assert (E : load32 (m_mem m) (m_pc m) = load32 (toy_words toy_prog) (m_pc m)).
  { unfold load32. rewrite !M; [reflexivity|..]; cbn in P; unfold toy_code; lia. }
  rewrite E. split; [reflexivity|]. cbn in P.
  destruct P as [<- |[<- |[<- |[<- |[<- |[]]]]]]; vm_compute; intuition discriminate.
Qed.
Lemma toy_clean m : toy_ok m -> clean toy_exec toy_code m.
Proof.
  intros H. destruct (toy_word m H) as (_ & W & _). destruct H as [P M]. cbn in P.
  assert (WIC : word_in_code toy_code (m_pc m)) by (intros i Hi; unfold toy_code; lia).
  assert (PC : 0 <= m_pc m < 2 ^ 32 /\ m_pc m mod 4 = 0) by (destruct P as [<- |[<- |[<- |[<- |[<- |[]]]]]]; vm_compute; intuition discriminate).
  split; [lia|]. split; [lia|]. split; [exact WIC|]. cbn zeta.
  split; [|split].
  - intros mem SD. unfold toy_exec. cbn [f_mem f_arch f_pc f_halt].
    split; [|split; [|repeat split]].
    + intros x Hx. unfold toy_code in Hx. destruct (_ =? 5); [|reflexivity]. unfold upd1. now replace (x =? 100) with false by lia.
    + intros x Hx. destruct (_ =? 5); [|now apply SD]. unfold upd1. destruct (x =? 100); [reflexivity|now apply SD].
  - cbn [f_pc toy_exec]. destruct (_ =? 9); [lia|]. apply Z.mod_pos_bound. lia.
  - cbn [f_halt toy_exec]. cbn in W. intros r. replace (word_at m =? 7) with false by lia. discriminate.
Qed.
Lemma toy_step m : toy_ok m -> toy_ok (ref_step toy_exec m) /\ ref_halt toy_exec m = None.
Proof.
  intros H. destruct (toy_word m H) as (E & W & W9). destruct H as [P M]. cbn in P, W. unfold ref_step, ref_halt.
  replace (word_at m =? ebreak) with false by (unfold ebreak; lia). split.
  2: { cbn [f_halt toy_exec]. replace (word_at m =? 7) with false by lia. reflexivity. }
  split.
  - cbn [m_pc f_pc toy_exec]. destruct (Z.eqb_spec (word_at m) 9) as [E9|E9]; [now left|].
    assert (m_pc m <> 16) by tauto. rewrite Z.mod_small by lia. cbn. lia.
  - intros x Hx. cbn [m_mem f_mem toy_exec]. unfold toy_code in Hx. destruct (_ =? 5); [|now apply M].
    unfold upd1. replace (x =? 100) with false by lia. now apply M.
Qed.
Lemma toy_ref n m : toy_ok m -> toy_ok (ref toy_exec n m).
Proof. intros H. induction n as [|n IH]; [exact H|]. cbn [ref]. now apply toy_step. Qed.
(** Writes to data and to registers other than pc keep the program clean. *)
Definition toy_data (c : call) : Prop :=
  match c with
  | CWriteMem a _ => 20 <= a
  | CWriteReg n _ => n <> pc_name
  | _ => True
  end.
Lemma toy_follows_ok m h k m' : toy_follows m h k m' -> toy_ok m -> (forall c r, In (c, r) h -> toy_data c) -> toy_ok m'.
Proof.
  induction 1 as [m|m c r n h k m' G F IH|m c r h k m' G F IH]; intros H D; [exact H| |].
  - apply IH; [now apply toy_ref|]. intros c' r' X. apply (D c' r'). now right.
  - apply IH; [|intros c' r' X; apply (D c' r'); now right].
    pose proof (D c r (or_introl eq_refl)) as Dc. destruct c; try exact H; cbn [toy_data] in Dc; cbn [poke].
    + destruct (toy_reg name) as [i|]; [|destruct (toy_csr name); exact H].
      destruct (size_ok _); [|exact H]. destruct (String.eqb_spec name pc_name); [contradiction|]. exact H.
    + destruct H as [P M]. split; [exact P|]. intros x Hx. cbn [m_mem]. unfold toy_code in Hx.
      replace (_ && _) with false by lia. now apply M.
Qed.
Lemma toy_start : toy_ok (toy_m0 toy_prog).
Proof. split; [now left|reflexivity]. Qed.
Lemma toy_along h n : (forall c r, In (c, r) h -> toy_data c) -> toy_clean_along toy_code (toy_m0 toy_prog) h n.
Proof.
  intros D h1 h2 k m -> F _. apply toy_clean. apply (toy_follows_ok _ _ _ _ F); [apply toy_start|].
  intros c r X. apply (D c r). apply in_or_app. now left.
Qed.
Lemma toy_bytes l : bytes_ok (toy_words l).
Proof. intros x. unfold toy_words. destruct (_ && _); [apply Z.mod_pos_bound|]; lia. Qed.
Lemma play_history (P : call -> toy_top -> Prop) l : forall s rs s', play l s = Some (Ok (rs, s')) ->
  (forall l1 c l2 rs1 s1, l = l1 ++ c :: l2 -> play l1 s = Some (Ok (rs1, s1)) -> P c s1) ->
  toy_history P s (combine l rs) s'.
Proof.
  induction l as [|c l IH]; intros s rs s' H HP; cbn [play] in H.
  - injection H as <- <-. constructor.
  - destruct (toy_call c s) as [[[r s1]|k|]|] eqn:E; try discriminate.
    destruct (play l s1) as [[[rs2 s2]|k|]|] eqn:E2; try discriminate. injection H as <- <-. cbn [combine].
    econstructor; [|exact E|].
    + apply (HP [] c l [] s eq_refl). reflexivity.
    + apply IH; [exact E2|]. intros l1 c1 l2 rs1 s3 -> H1.
      apply (HP (c :: l1) c1 l2 (r :: rs1) s3); [reflexivity|]. cbn [play]. rewrite E, H1. reflexivity.
Qed.
