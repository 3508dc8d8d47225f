(** * What tells the cause of a halt *)
From Coq Require Import ZArith List Bool Lia String.
From Coq Require Import ZifyBool ZifyNat.
From Verif Require Import CInt VecModel VecSpec LaneSpec ConvModel ConvSpec MemModel MemSpec LogModel LogSpec.
From Verif Require Import DecodeTypes DecodeModel DecodeSpec V2DecTypes V2DecModel V2DecSpec V1ScalModel V1ScalSpec V1ScalProofs V1ScalProofs2.
From Verif Require Import VecProofs MemProofs DecodeProofs DecodeProofs2 DecodeProofs3 DecodeProofs4 TopModel TopSpec CliModel CliSpec MachModel MachSpec RvSpec MachProofs MachProofs2 MachProofs3 MachProofs5 MachProofs6.
From Verif Require Import ConsModel ConsSpec ConsProofs ConsProofs2.
Import ListNotations.
Open Scope string_scope.
Open Scope list_scope.
Open Scope Z_scope.

Section Cause.
  Context {S : Type}.
  Notation arch := (arch (C := core S)).
  Variable d : decoder.
  Variable zbb : Z -> option act.
  Variable sys : act -> Z -> arch -> (Z -> Z) -> arch * (Z -> Z) * Z * option Z.
  Variable junk : Z -> Z -> vbytes.
  Variable ljunk : Z -> Z.
  Variable dis : Z -> Z -> list Z.
  Notation exec := (exec1 d zbb sys junk ljunk).
  Notation says := (says1 d zbb sys junk ljunk dis).

  Lemma both_proper m w : decoder_ok d -> proper m w -> kind_of_sem (m_sem m) <> KSys ->
    exists c, does m w c /\ (forall a s mem, exec w a s mem = exec_scalar sys ljunk c a s mem) /\
      forall a s mem, says w a s mem = says_scalar sys ljunk dis c w a s mem.
  Proof.
    intros Hd (Hi & Hp & Hw & Hs & Hh) Hk. destruct (manual_words d m w Hd Hi Hp Hw Hs Hh) as (c & Hc & Hdo). exists c. split; [exact Hdo|].
    unfold decode1 in Hc. unfold exec1, says1. destruct (parse d w) as [e|] eqn:E; [|discriminate]. cbn [option_map] in Hc. injection Hc as <-.
    pose proof (DecodeProofs.parse_sound d w e Hd E) as [He _]. pose proof (proj1 (forallb_forall _ _) scalar_kinds e He) as K. cbv beta in K.
    assert (N : kind_of_sem (sem1 e) <> KSys).
    { change (sem1 e) with (a_sem (act1 e w)). destruct Hdo as [(-> & _)|(-> & _)]; [exact Hk|discriminate]. }
    destruct (e_sem e); try (split; reflexivity); destruct (kind_of_sem (sem1 e)); try discriminate K; now destruct N.
  Qed.
  Theorem says_load m w a s mem T x i : decoder_ok d -> proper m w -> lookup (m_name m) load_specs = Some T -> values m w (a_regs s) [x; i] -> 0 <= a < 2 ^ 64 ->
    let o := says w a s mem in let at_ := (x + i) mod 2 ^ 32 in
    (at_ < top_address -> o = []) /\ (top_address <= at_ -> exists p, o = [p] /\ tells p (BadLoad a (dis w a))).
  Proof.
    intros Hd Hp HP HV Ha o A. destruct (in_manual m _ load_rows (proj1 Hp) T HP) as (Ek & HT & Es & Ed & Ec & En).
    destruct (both_proper m w Hd Hp) as (c & Hdo & _ & E); [rewrite Ek; discriminate|]. unfold o. rewrite E. clear o E.
    destruct (nop_act m w c Hdo) as [(S1 & S2 & S3 & S4)|(S1 & l & S2 & S3)]; [rewrite Ek; discriminate| |rewrite En in S2; destruct S2].
    unfold values in HV. rewrite Es in *. rewrite Ed in S3. unfold list_is in *.
    inversion S2 as [|? p ? r1 Hp1 O1 E1 E2]; subst. inversion O1 as [|? q ? r2 Hq O2 E1 E3]; subst. inversion O2; subst.
    assert (E4 : [] = a_dst c) by (inversion S3; reflexivity).
    inversion HV as [|? ? ? ? V1 V2]; subst. inversion V2 as [|? ? ? ? V3 _]; subst.
    unfold says_scalar. rewrite kind_sem, S1, Ek, <- E2, <- E4.
    rewrite (value_ok (V2DecSpec.KX 15) w (a_regs s) x p), (value_ok Iimm w (a_regs s) i q) by (unfold is_imm, imms; cbn [In]; tauto).
    replace (u32 (u32 x + u32 i)) with A by (unfold u32, A; now rewrite <- Zplus_mod). rewrite top_max.
    destruct (Z.leb_spec top_address A) as [L|L].
    - split; [intros K; lia|]. intros _. exact (line_ok dis 5 w a RUserRequest Ha eq_refl).
    - split; [reflexivity|intros K; lia].
  Qed.
  Theorem says_store m w a s mem T x i y : decoder_ok d -> proper m w -> lookup (m_name m) store_specs = Some T -> values m w (a_regs s) [x; i; y] -> 0 <= a < 2 ^ 64 ->
    let o := says w a s mem in let at_ := (x + i) mod 2 ^ 31 in
    (at_ < top_address -> o = []) /\ (top_address <= at_ -> exists p, o = [p] /\ tells p (BadStore a (dis w a))).
  Proof.
    intros Hd Hp HP HV Ha o A. destruct (in_manual m _ store_rows (proj1 Hp) T HP) as (Ek & HT & Es & Ed & En).
    destruct (both_proper m w Hd Hp) as (c & Hdo & _ & E); [rewrite Ek; discriminate|]. unfold o. rewrite E. clear o E.
    destruct (nop_act m w c Hdo) as [(S1 & S2 & S3 & S4)|(S1 & l & S2 & S3)]; [rewrite Ek; discriminate| |rewrite En in S2; destruct S2].
    unfold values in HV. rewrite Es in *. rewrite Ed in S3. unfold list_is in *.
    inversion S2 as [|? p ? r1 Hp1 O1 E1 E2]; subst. inversion O1 as [|? q ? r2 Hq O2 E1 E3]; subst. inversion O2 as [|? o ? r3 Ho O3 E1 E5]; subst. inversion O3; subst.
    assert (E4 : [] = a_dst c) by (inversion S3; reflexivity).
    inversion HV as [|? ? ? ? V1 V2]; subst. inversion V2 as [|? ? ? ? V3 V4]; subst. inversion V4 as [|? ? ? ? V5 _]; subst.
    unfold says_scalar. rewrite kind_sem, S1, Ek, <- E2, <- E4.
    rewrite (value_ok (V2DecSpec.KX 15) w (a_regs s) x p), (value_ok Simm w (a_regs s) i q) by (unfold is_imm, imms; cbn [In]; tauto).
    rewrite store_addr_mod, top_max. fold A.
    destruct (Z.leb_spec top_address A) as [L|L].
    - split; [intros K; lia|]. intros _. exact (line_ok dis 7 w a RUserRequest Ha eq_refl).
    - split; [reflexivity|intros K; lia].
  Qed.
  Theorem says_mpause w a s mem : decoder_ok d -> w = 0x08000073 -> exists p, says w a s mem = [p] /\ tells p Proper.
  Proof.
    intros Hd ->. destruct (scalar_row d _ mpause_act Hd (or_intror (or_intror (or_introl eq_refl)))) as (e & Hp & (q & Es) & Ea).
    unfold says1. rewrite Hp, Es, Ea. eexists. split; reflexivity.
  Qed.
  Theorem says_illegal w a s mem : decode1 d w = None -> zbb w = None -> 0 <= a < 2 ^ 64 -> exists p, says w a s mem = [p] /\ tells p (Illegal a).
  Proof.
    intros H Hz Ha. unfold says1, decode1 in *. destruct (parse d w); [discriminate|]. rewrite Hz. exact (line_ok dis 2 w a RUserRequest Ha eq_refl).
  Qed.
  (** A log instruction. *)
  Theorem says_log m w a s mem x : decoder_ok d -> proper m w -> In (m_name m) ["flog"; "klog"] -> values m w (a_regs s) [x] -> 0 <= a < 2 ^ 64 ->
    k_wrong (a_csr (f_arch (exec w a s mem))) = false -> top_address <= x mod 2 ^ 32 ->
    exists p o, says w a s mem = p :: o /\ tells p (BadLoad a (dis w a)).
  Proof.
    intros Hd Hp Hn HV Ha Hw Hx.
    destruct (rv_log_conv d zbb sys junk ljunk m w a s mem x Hd Hp Hn HV Hx) as [K|F]; [congruence|].
    assert (R : kind_of_sem (m_sem m) = KLog /\ m_nop m = []).
    { assert (G : Forall (named [("flog", tt); ("klog", tt)] (fun m _ => kind_of_sem (m_sem m) = KLog /\ m_nop m = [])) manual1) by (rows; auto).
      apply (in_manual m _ G (proj1 Hp) tt). cbn [In] in Hn. destruct Hn as [<-|[<-|[]]]; reflexivity. }
    destruct R as [Ek En].
    destruct (both_proper m w Hd Hp) as (c & Hdo & E & E'); [rewrite Ek; discriminate|]. rewrite E in *. rewrite E'. clear E E'.
    destruct (nop_act m w c Hdo) as [(S1 & _)|(_ & l & S2 & _)]; [rewrite Ek; discriminate| |rewrite En in S2; destruct S2].
    assert (K : act_kind c = KLog) by (rewrite kind_sem, S1; exact Ek).
    unfold says_scalar, exec_scalar in *. rewrite K in *. destruct (a_src c) as [|q [|]]; try discriminate F. destruct (a_dst c); [|discriminate F].
    destruct (log_op ljunk (bound c) _ s mem) as [op|]; [|discriminate F]. destruct (exec_log log_fuel op (k_log (a_csr s))) as [[l| |]|]; try discriminate F.
    cbn [f_halt] in F. rewrite F. destruct (line_ok dis 5 w a RUserRequest Ha eq_refl) as (p & -> & T). eexists _, _. split; [reflexivity|exact T].
  Qed.
  (** Vector instructions. *)
  Lemma vec_silent e w a (s : arch) m : f_halt (exec_vector junk e w a s m) = None -> says_vector junk dis e w a s m = [].
  Proof.
    unfold exec_vector, says_vector. destruct (vec_step e w a (to_w s m) (junk (k_clock (a_csr s)))) as [[[s' [code|]]| |]|]; try reflexivity.
    intros F. apply line_none. exact F.
  Qed.
  Lemma vec_code e w a (s : arch) m s' code : encodes e w -> a_regs s 0 = 0 -> acc_wf (k_acc (a_csr s)) ->
    vec_step e w a (to_w s m) (junk (k_clock (a_csr s))) = Some (Ok (s', Some code)) ->
    code = match e_sem e with SmConv => 2 | SmLd _ _ _ _ _ _ => 5 | _ => 7 end.
  Proof.
    intros He H0 Ha E.
    assert (Run : e_sem e <> SmConv -> forall x, option_map (fun r => s' <- r ;; Ok (s', match w_traps s' with (c, _) :: _ => Some c | [] => None end))
        (exec_row true a (junk (k_clock (a_csr s))) e w (to_w s m)) = Some (Ok (x, Some code)) -> False).
    { intros N x X. destruct (exec_row true a _ e w (to_w s m)) as [[s1| |]|] eqn:R; try discriminate X. cbn [option_map bind] in X.
      apply row_traps in R; [|exact N]. rewrite R in X. discriminate X. }
    destruct (e_sem e) eqn:Es; try (exfalso; unfold vec_step, mem_row in E; rewrite Es in E; apply Run in E; [exact E|discriminate]).
    - unfold vec_step, mem_row in E. rewrite Es in E. destruct (mop_of true e w _ _ _ _ _ _ _) as [o| |]; cbn [bind] in E; try discriminate E.
      destruct (ld_fault _ _) as [[|]| |]; cbn [bind] in E; try discriminate E; [|exfalso; apply Run in E; [exact E|discriminate]].
      match type of E with Some (bind ?x _) = _ => destruct x; cbn [bind] in E; try discriminate E end. now injection E.
    - unfold vec_step, mem_row in E. rewrite Es in E. destruct (mop_of true e w _ _ _ _ _ _ _) as [o| |]; cbn [bind] in E; try discriminate E.
      destruct (st_fault _ _ _) as [[|]| |]; cbn [bind] in E; try discriminate E; [|exfalso; apply Run in E; [exact E|discriminate]].
      match type of E with Some (bind ?x _) = _ => destruct x; cbn [bind] in E; try discriminate E end. now injection E.
    - unfold vec_step, mem_row in E. rewrite Es in E. destruct (mop_of true e w _ _ _ _ _ _ _) as [o| |]; cbn [bind] in E; try discriminate E.
      destruct (st_fault _ _ _) as [[|]| |]; cbn [bind] in E; try discriminate E; [|exfalso; apply Run in E; [exact E|discriminate]].
      match type of E with Some (bind ?x _) = _ => destruct x; cbn [bind] in E; try discriminate E end. now injection E.
    - pose proof (conv_step zbb sys junk ljunk e w a (to_w s m) (junk (k_clock (a_csr s))) He Es (to_w_wf s m) Ha H0 eq_refl) as X. cbv zeta in X.
      destruct X as [(_ & X)|(_ & acc & X & _)]; rewrite X in E; [now injection E|discriminate E].
  Qed.
  Theorem says_vec w e a s m : decoder_ok d -> parse d w = Some e -> ~ is_scalar_op (e_sem e) -> a_regs s 0 = 0 -> acc_wf (k_acc (a_csr s)) -> 0 <= a < 2 ^ 64 ->
    let o := says w a s m in
    (~ faults w (e_name e) s -> o = []) /\
    (faults w (e_name e) s -> exists p, o = [p] /\
      tells p (match meaning (e_name e) with Some SmConv => Illegal a | Some (SmLd _ _ _ _ _ _) => BadLoad a (dis w a) | _ => BadStore a (dis w a) end)).
  Proof.
    intros Hd Hp Hn H0 Hacc Ha o. pose proof (parse_sound d w e Hd Hp) as He. rewrite (proj1 (meaning_ok e (proj1 He)) Hn).
    destruct (vec_halts d zbb sys junk ljunk w e a s m Hd Hp Hn H0 Hacc) as [F1 F2]. rewrite (exec_vec d zbb sys junk ljunk w e) in F1, F2 by assumption.
    assert (Eo : o = says_vector junk dis e w a s m) by (unfold o, says1; rewrite Hp; destruct (e_sem e); try reflexivity; now destruct Hn). rewrite Eo. clear o Eo.
    split; [intros N; apply vec_silent, F2, N|]. intros F. specialize (F1 F). unfold exec_vector, says_vector in *.
    destruct (vec_step e w a (to_w s m) (junk (k_clock (a_csr s)))) as [[[s' [code|]]| |]|] eqn:E; try discriminate F1. cbn [f_halt raised] in F1.
    apply vec_code in E; [|exact He|exact H0|exact Hacc]. destruct (line_ok dis code w a _ Ha F1) as (p & -> & T). exists p. split; [reflexivity|].
    rewrite E in T. unfold cause_of in T. destruct (e_sem e); exact T.
  Qed.
  (** Everything else is silent. *)
  Theorem says_quiet m w a s mem : decoder_ok d -> proper m w -> ~ In (m_name m) halting -> a_regs s 0 = 0 -> acc_wf (k_acc (a_csr s)) -> says w a s mem = [].
  Proof.
    intros Hd Hpr Hq H0 Ha. pose proof (quiet d zbb sys junk ljunk m w a s mem Hd Hpr Hq H0 Ha) as F.
    destruct Hpr as (Hi & Hp & Hw & Hs & Hh). destruct (manual_words d m w Hd Hi Hp Hw Hs Hh) as (c & Hc & Hdo).
    unfold decode1 in Hc. destruct (parse d w) as [e|] eqn:E; [|discriminate]. cbn [option_map] in Hc. injection Hc as <-.
    pose proof (parse_sound d w e Hd E) as He.
    assert (Sem : a_sem (act1 e w) = m_sem m \/ a_sem (act1 e w) = [Fn "RiscVINop" []]) by (destruct Hdo as [(K & _)|(K & _)]; auto).
    unfold exec1 in F. unfold says1. rewrite E in F |- *. destruct (e_sem e) eqn:Es; try (apply vec_silent; exact F).
    change (a_sem (act1 e w)) with (sem1 e) in Sem.
    destruct (halting_kind (act_kind (act1 e w))) eqn:K.
    2: { unfold says_scalar. destruct (act_kind (act1 e w)); try discriminate K; reflexivity. }
    pose proof (proj1 (forallb_forall _ _) halting_rows m Hi) as R. cbv beta in R.
    rewrite kind_sem in K. change (a_sem (act1 e w)) with (sem1 e) in K. destruct Sem as [Sem|Sem]; rewrite Sem in K; [|discriminate K].
    rewrite K in R. cbn [implb] in R. apply existsb_exists in R as (n & In_n & En). apply String.eqb_eq in En. rewrite En in Hq.
    apply in_app_or in In_n as [In_n|In_n]; [now destruct Hq|]. apply in_app_or in In_n as [In_n|In_n].
    2: { exfalso. pose proof (proj1 (forallb_forall _ _) getvl_rows m Hi) as R. cbv beta in R.
         pose proof (proj1 (forallb_forall _ _) getvl_vector e (proj1 He)) as R'. cbv beta in R'. rewrite Es in R'.
         assert (X : existsb (String.eqb (m_name m)) getvls = true) by (apply existsb_exists; exists n; split; [exact In_n|now apply String.eqb_eq]).
         rewrite X in R. cbn [implb] in R. rewrite Sem, R in R'. discriminate R'. }
    assert (B : kind_of_sem (m_sem m) = KLog /\ (bound (Act (m_sem m) [] [] None) = 1 \/ bound (Act (m_sem m) [] [] None) = 2)).
    { pose proof (proj1 (forallb_forall _ _) slog_rows m Hi) as R. cbv beta in R.
      assert (X : existsb (String.eqb (m_name m)) ["slog"; "clog"] = true) by (apply existsb_exists; exists n; split; [exact In_n|now apply String.eqb_eq]).
      rewrite X in R. cbn [implb] in R. apply andb_true_iff in R as [R1 R2]. destruct (kind_of_sem (m_sem m)); try discriminate R1. split; [reflexivity|lia]. }
    destruct B as [B1 B2]. assert (B3 : bound (act1 e w) = 1 \/ bound (act1 e w) = 2).
    { unfold bound in *. change (a_sem (act1 e w)) with (sem1 e). rewrite Sem. exact B2. }
    unfold says_scalar. rewrite kind_sem. change (a_sem (act1 e w)) with (sem1 e). rewrite Sem, B1.
    destruct (a_src (act1 e w)) as [|p [|]]; try reflexivity. destruct (a_dst (act1 e w)); [|reflexivity].
    unfold log_op, log_trap. destruct B3 as [-> | ->]; cbn [Z.eqb Pos.eqb orb andb]; destruct (exec_log log_fuel _ _) as [[| |]|]; reflexivity.
  Qed.

  (** ** Runs *)
  Lemma pcs (m : mach (C := core S)) k : regular exec m -> 0 <= m_pc m < 2 ^ 32 -> reached exec m k -> 0 <= m_pc (ref exec k m) < 2 ^ 32.
  Proof.
    intros G Hp R. destruct k as [|k]; [exact Hp|]. apply G. intros i Hi. apply R. lia.
  Qed.
  Notation wrong_at m k := (k_wrong (a_csr (m_arch (ref exec k m)))).
  Notation out_at m k := (l_out (k_log (a_csr (m_arch (ref exec k m))))).
  Theorem run_logs (m : mach (C := core S)) : decoder_ok d -> sys_silent sys -> zbb_runs zbb -> regular exec m -> 0 <= m_pc m < 2 ^ 32 ->
    forall k, reached exec m k -> wrong_at m k = false ->
    exists t, out_at m k = out_at m 0 ++ t /\ logged (said exec says m k) t.
  Proof.
    intros Hd Hs Hz G Hp. induction k as [|k IH]; intros R W.
    - exists []. split; [symmetry; apply app_nil_r|apply logged_nil].
    - assert (R' : reached exec m k) by (intros i Hi; apply R; lia).
      assert (Hh : ref_halt exec (ref exec k m) = None) by (apply R; lia).
      pose proof (pcs m k G Hp R') as Pk.
      pose proof (says_fine d zbb sys junk ljunk dis (word_at (ref exec k m)) (m_pc (ref exec k m)) (m_arch (ref exec k m)) (m_mem (ref exec k m)) Hd Hs Hz ltac:(lia)) as F.
      rewrite said_S. cbn [ref] in W |- *. unfold m_says, ref_step in *. unfold ref_halt in Hh.
      change ebreak with 0x00100073 in Hh. change ebreak with 0x00100073 in W. change ebreak with 0x00100073.
      destruct (word_at (ref exec k m) =? 0x00100073); [discriminate Hh|]. cbn [m_arch] in *.
      destruct (F W) as (W' & t' & Et' & Lt'). rewrite Hh in Lt'. destruct (IH R' W') as (t & Et & Lt).
      exists (t ++ t'). cbn [ref] in Et. rewrite Et', Et, app_assoc. split; [reflexivity|now apply logged_app].
  Qed.
  Theorem run_tells (m : mach (C := core S)) n r : decoder_ok d -> sys_silent sys -> zbb_runs zbb -> regular exec m -> 0 <= m_pc m < 2 ^ 32 ->
    halts_at exec m n r -> wrong_at m n = false ->
    let last := ref exec (n - 1) m in
    exists o1 p o2 x t, said exec says m n = o1 ++ p :: o2 /\ tells p x /\ blames dis (word_at last) (m_pc last) x /\ (x = Abort <-> r = RAbort) /\ (x = Proper -> o2 = []) /\
      out_at m n = out_at m 0 ++ t /\ logged (o1 ++ o2) t.
  Proof.
    intros Hd Hs Hz G Hp (Hn & R & Hh) W. cbv zeta. destruct n as [|k]; [lia|]. replace (Datatypes.S k - 1)%nat with k in * by lia.
    pose proof (pcs m k G Hp R) as Pk.
    pose proof (says_fine d zbb sys junk ljunk dis (word_at (ref exec k m)) (m_pc (ref exec k m)) (m_arch (ref exec k m)) (m_mem (ref exec k m)) Hd Hs Hz ltac:(lia)) as F.
    rewrite said_S. cbn [ref] in W |- *. set (z := ref exec k m) in *. unfold m_says, ref_step in *. unfold ref_halt in Hh.
    change ebreak with 0x00100073 in Hh. change ebreak with 0x00100073 in W. change ebreak with 0x00100073.
    pose proof (run_logs m Hd Hs Hz G Hp k R) as L. fold z in L.
    destruct (word_at z =? 0x00100073) eqn:E.
    - injection Hh as <-. cbn [m_arch] in *. destruct (L W) as (t & Et & Lt).
      exists (said exec says m k), fault_line, [], Abort, t. split; [reflexivity|]. split; [reflexivity|]. split; [now apply Z.eqb_eq|].
      split; [split; reflexivity|]. split; [reflexivity|]. split; [exact Et|]. rewrite app_nil_r. exact Lt.
    - cbn [m_arch] in *. destruct (F W) as (W' & t' & Et' & Lt'). rewrite Hh in Lt'. destruct Lt' as (p & x & o' & -> & T & B & Pr & Lo). destruct (L W') as (t & Et & Lt).
      pose proof (only_request d zbb sys junk ljunk _ _ _ _ _ Hh) as Er.
      exists (said exec says m k), p, o', x, (t ++ t'). split; [reflexivity|]. split; [exact T|]. split; [exact B|]. split.
      { split; [intros ->|intros K; rewrite K in Er; discriminate Er]. cbn [blames] in B. apply Z.eqb_neq in E. now destruct E. }
      split; [exact Pr|]. cbn [ref] in Et. rewrite Et', Et, app_assoc. split; [reflexivity|now apply logged_app].
  Qed.
  Theorem run_proper (m : mach (C := core S)) n r : decoder_ok d -> sys_silent sys -> zbb_runs zbb -> regular exec m -> 0 <= m_pc m < 2 ^ 32 ->
    halts_at exec m n r -> wrong_at m n = false -> word_at (ref exec (n - 1) m) = 0x08000073 ->
    exists t, out_at m n = out_at m 0 ++ t /\ on_out (said exec says m n) = t ++ chars "Program exits properly" ++ [10].
  Proof.
    intros Hd Hs Hz G Hp (Hn & R & Hh) W Hw. destruct n as [|k]; [lia|]. replace (Datatypes.S k - 1)%nat with k in * by lia.
    pose proof (pcs m k G Hp R) as Pk.
    pose proof (says_fine d zbb sys junk ljunk dis (word_at (ref exec k m)) (m_pc (ref exec k m)) (m_arch (ref exec k m)) (m_mem (ref exec k m)) Hd Hs Hz ltac:(lia)) as F.
    destruct (says_mpause (word_at (ref exec k m)) (m_pc (ref exec k m)) (m_arch (ref exec k m)) (m_mem (ref exec k m)) Hd Hw) as (q & Eq & Tq).
    pose proof (run_logs m Hd Hs Hz G Hp k R) as L. rewrite said_S. cbn [ref] in W |- *. unfold m_says, ref_step, ref_halt in *.
    change ebreak with 0x00100073 in Hh. change ebreak with 0x00100073 in W. change ebreak with 0x00100073.
    replace (word_at (ref exec k m) =? 0x00100073) with false in * by (rewrite Hw; reflexivity). cbn [m_arch] in *.
    destruct (F W) as (W' & t' & Et' & Lt'). rewrite Hh, Eq in Lt'. destruct Lt' as (p & x & o' & Eo & T & _ & _ & Lo). injection Eo as <- <-.
    destruct (L W') as (t & Et & [Lt _]). destruct Lo as [Lo _]. cbn in Lo. subst t'. exists t. rewrite Et', app_nil_r. split; [exact Et|].
    rewrite Eq. cbn [tells] in Tq. subst q. unfold on_out in *. rewrite flat_map_app. f_equal. exact Lt.
  Qed.
End Cause.
