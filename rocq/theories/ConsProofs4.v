(** * The text of flog, with its complaints *)
From Coq Require Import ZArith List Bool Lia String.
From Coq Require Import ZifyBool ZifyNat.
From Verif Require Import CInt VecModel MemModel LogModel LogSpec.
From Verif Require Import DecodeTypes DecodeModel V2DecTypes V2DecModel V2DecSpec V1ScalModel V1ScalSpec.
From Verif Require Import TopModel TopSpec CliModel MachModel MachSpec RvSpec MachProofs5 MachProofs6.
From Verif Require Import ConsModel ConsSpec ConsProofs2 ConsProofs3.
From Verif Require LogProofs.
Import ListNotations.
Open Scope string_scope.
Open Scope list_scope.
Open Scope Z_scope.

Lemma suits_misfit k a : suits k a <-> misfit a k = false.
Proof. destruct a; cbn [suits misfit]; [change (chars "udx") with [117; 100; 120]; cbn [In]|]; lia. Qed.
Lemma complains f args n : no_nul f -> misses f args n -> bad_formats (f ++ [0]) args = repeat bad_line n.
Proof.
  intros Hn H. induction H as [args|c f args n Hc H IH|k f a args n Hs H IH|k f a args n Hs H IH]; [reflexivity|..].
  - inversion Hn; subst. cbn [app bad_formats]. replace (c =? 0) with false by lia. replace (c =? 37) with false by lia. now apply IH.
  - inversion Hn as [|? ? _ Hn1]; subst. inversion Hn1; subst. cbn [app bad_formats Z.eqb Pos.eqb]. apply suits_misfit in Hs. rewrite Hs. now apply IH.
  - inversion Hn as [|? ? _ Hn1]; subst. inversion Hn1; subst. cbn [app bad_formats Z.eqb Pos.eqb]. destruct (misfit a k) eqn:E; [|now apply suits_misfit in E].
    cbn [repeat app]. f_equal. now apply IH.
Qed.

Section Text.
  Context {S : Type}.
  Notation arch := (arch (C := core S)).
  Variable d : decoder.
  Variable zbb : Z -> option act.
  Variable sys : act -> Z -> arch -> (Z -> Z) -> arch * (Z -> Z) * Z * option Z.
  Variable junk : Z -> Z -> vbytes.
  Variable ljunk : Z -> Z.
  Variable dis : Z -> Z -> list Z.
  Notation exec := (exec1 d zbb sys junk ljunk).
  Notation says := (says1 d zbb sys junk ljunk dis).

  Theorem says_flog m w a s mem x f o n : decoder_ok d -> proper m w -> m_name m = "flog" -> values m w (a_regs s) [x] ->
    (forall b, 0 <= mem b < 256) -> cstring mem (x mod 2 ^ 32) f -> x mod 2 ^ 32 + Z.of_nat (length f) / 4 * 4 + 3 < top_address -> Z.of_nat (length f) < 2 ^ 20 ->
    Forall wf_arg (l_args (k_log (a_csr s))) -> prints f (l_args (k_log (a_csr s))) o -> misses f (l_args (k_log (a_csr s))) n ->
    says w a s mem = repeat (SErr, chars "incorrect format" ++ [10]) n ++ [(SOut, o)] /\
    f_halt (exec w a s mem) = None /\ f_mem (exec w a s mem) = mem /\
    k_log (a_csr (f_arch (exec w a s mem))) = LS [] (l_clog (k_log (a_csr s))) (l_out (k_log (a_csr s)) ++ o).
  Proof.
    intros Hd Hp Hn HV Hm Hc Hi Hl Hw Hpr Hmi.
    assert (R : kind_of_sem (m_sem m) = KLog /\ m_src m = [V2DecSpec.KX 15] /\ m_dst m = [] /\ m_nop m = [] /\ bound (Act (m_sem m) [] [] None) = 0).
    { assert (G : Forall (named [("flog", tt)] (fun m _ => kind_of_sem (m_sem m) = KLog /\ m_src m = [V2DecSpec.KX 15] /\ m_dst m = [] /\ m_nop m = [] /\ bound (Act (m_sem m) [] [] None) = 0)) manual1) by (rows; auto).
      apply (in_manual m _ G (proj1 Hp) tt). rewrite Hn. reflexivity. }
    destruct R as (Ek & Es & Ed & En & Eb).
    destruct (both_proper d zbb sys junk ljunk dis m w Hd Hp) as (c & Hdo & E & E'); [rewrite Ek; discriminate|]. rewrite E, E'. clear E E'.
    destruct (nop_act m w c Hdo) as [(S1 & S2 & S3 & _)|(_ & l & S2 & _)]; [rewrite Ek; discriminate| |rewrite En in S2; destruct S2].
    assert (K : act_kind c = KLog) by (rewrite kind_sem, S1; exact Ek).
    assert (B : bound c = 0) by (unfold bound in *; rewrite S1; exact Eb).
    unfold values in HV. rewrite Es in *. rewrite Ed in S3. unfold list_is in *.
    inversion S2 as [|? p ? r1 Hp1 O1 E1 E2]; subst. inversion O1; subst. assert (E3 : [] = a_dst c) by (inversion S3; reflexivity). inversion HV as [|? ? ? ? V1 _]; subst.
    assert (Vp : value1 (a_regs s) p = x) by (apply (value_ok (V2DecSpec.KX 15) w); tauto).
    assert (T : log_trap (bound c) (u32 x) = None).
    { unfold log_trap. rewrite B. cbn [Z.eqb orb andb]. assert (0 <= Z.of_nat (length f) / 4) by (apply Z.div_pos; lia). unfold u32. rewrite Z.mod_mod by lia. rewrite top_max.
      now replace (top_address <=? x mod 2 ^ 32) with false by lia. }
    set (e := LE mem max_address (fun x => max_address <? x) (ljunk (k_clock (a_csr s)))).
    assert (L : log_op ljunk (bound c) (u32 x) s mem = Some (Flog e (u32 x))) by (unfold log_op; rewrite B; reflexivity).
    assert (Q : string_load log_fuel e (u32 x) = Some (Ok f)).
    { assert (Ex : u32 x mod 2 ^ 32 = x mod 2 ^ 32) by (unfold u32; apply Z.mod_mod; lia).
      apply LogProofs.string_load_ok; rewrite ?Ex; [|exact Hc| |unfold log_fuel; lia].
      - split; [exact Hm|]. intros b B1 B2. cbn [e e_fault e_max] in *. lia.
      - unfold inside. cbn [e e_max]. pose proof (Z.mod_pos_bound x (2 ^ 32) eq_refl). unfold top_address, max_address in *. lia. }
    assert (P : print_log (f ++ [0]) (k_log (a_csr s)) = Ok (LS [] (l_clog (k_log (a_csr s))) (l_out (k_log (a_csr s)) ++ o))).
    { apply LogProofs.print_log_ok; [exact (proj1 Hc)|exact Hw|exact Hpr]. }
    assert (X : exec_log log_fuel (Flog e (u32 x)) (k_log (a_csr s)) = Some (Ok (LS [] (l_clog (k_log (a_csr s))) (l_out (k_log (a_csr s)) ++ o)))).
    { cbn [exec_log]. rewrite Q. cbn [option_map bind]. now rewrite P. }
    unfold says_scalar, exec_scalar. cbv zeta. rewrite K, <- E2, <- E3. rewrite Vp, L, X, T. cbn [app].
    split; [|split; [reflexivity|split; [reflexivity|]]].
    - unfold log_lines. rewrite Q, (complains f _ n (proj1 Hc) Hmi). f_equal. cbn [l_out]. rewrite skipn_app, skipn_all, Nat.sub_diag. reflexivity.
    - reflexivity.
  Qed.
End Text.
