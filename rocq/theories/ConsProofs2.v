(** * What the V1 instructions print *)
From Coq Require Import ZArith List Bool String Lia ZifyBool ZifyNat.
From Verif Require Import CInt LaneSpec VecModel VecSpec ConvModel ConvSpec MemModel MemSpec LogModel LogSpec.
From Verif Require Import DecodeTypes DecodeTable DecodeModel DecodeSpec V2DecTypes V2DecModel V2DecSpec V1ScalModel V1ScalSpec.
From Verif Require Import TopModel TopSpec CliModel CliSpec MachModel MachSpec RvSpec ConsModel ConsSpec ConsProofs.
From Verif Require LogProofs V1ScalProofs DecodeProofs CliProofs MachProofs2 MachProofs3 MachProofs5 MachProofs6.
Import ListNotations.
Open Scope string_scope.
Open Scope list_scope.
Open Scope Z_scope.

Lemma logged_nil : logged [] [].
Proof. split; [reflexivity|constructor]. Qed.
Lemma logged_app l t l' t' : logged l t -> logged l' t' -> logged (l ++ l') (t ++ t').
Proof.
  intros [A B] [A' B']. split; [|now apply Forall_app]. unfold on_out in *. rewrite flat_map_app. f_equal; assumption.
Qed.
Lemma bad_formats_ok buf : forall args, logged (bad_formats buf args) [].
Proof.
  assert (G : forall n buf args, (length buf <= n)%nat -> logged (bad_formats buf args) []).
  { induction n as [|n IH]; intros b args Hn; (destruct b as [|c r]; [apply logged_nil|]); cbn [length] in Hn; [lia|].
    cbn [bad_formats]. destruct (c =? 0); [apply logged_nil|]. destruct (c =? 37).
    - destruct args as [|x args]; [apply logged_nil|]. destruct r as [|k r]; [apply logged_nil|]. cbn [length] in Hn.
      change (@nil Z) with (@nil Z ++ []). apply logged_app; [|apply IH; lia].
      destruct (misfit x k); [|apply logged_nil]. split; [reflexivity|]. constructor; [reflexivity|constructor].
    - apply IH. lia. }
  intros args. now apply (G (length buf)).
Qed.

Lemma hex_ok (a : Z) : 0 <= a < 2 ^ 64 -> numeral 16 a (digits 16 16 a).
Proof. intros H. apply LogProofs.numeral_digits; [lia|change (16 ^ Z.of_nat 16) with (2 ^ 64); lia|discriminate]. Qed.
Section Lines.
  Variable dis : Z -> Z -> list Z.
  Notation lines := (trap_lines dis).
  Definition cause_of (code w a : Z) : cause := if code =? 2 then Illegal a else if code =? 5 then BadLoad a (dis w a) else BadStore a (dis w a).
  Lemma line_ok code w a r : 0 <= a < 2 ^ 64 -> on_trap code = Some r ->
    exists p, lines code w a = [p] /\ tells p (cause_of code w a).
  Proof.
    intros Ha H. unfold trap_lines, on_trap, cause_of in *. pose proof (hex_ok a Ha).
    destruct (code =? 2); [eexists; split; [reflexivity|eexists; split; [eassumption|reflexivity]]|].
    destruct (code =? 5); [eexists; split; [reflexivity|eexists; split; [eassumption|reflexivity]]|].
    destruct (code =? 7); [eexists; split; [reflexivity|eexists; split; [eassumption|reflexivity]]|]. discriminate H.
  Qed.
  Lemma line_none code w a : on_trap code = None -> lines code w a = [].
  Proof. intros H. unfold trap_lines, on_trap in *. destruct (code =? 2), (code =? 5), (code =? 7); try discriminate H; reflexivity. Qed.
  Lemma cause_blames code w a : blames dis w a (cause_of code w a).
  Proof. unfold cause_of. destruct (code =? 2), (code =? 5); cbn [blames]; auto. Qed.
End Lines.

Section Mach.
  Context {S : Type}.
  Notation arch := (arch (C := core S)).
  Variable d : decoder.
  Variable zbb : Z -> option act.
  Variable sys : act -> Z -> arch -> (Z -> Z) -> arch * (Z -> Z) * Z * option Z.
  Variable junk : Z -> Z -> vbytes.
  Variable ljunk : Z -> Z.
  Variable dis : Z -> Z -> list Z.
  Notation exec := (exec1 d zbb sys junk ljunk).
  Notation says := (says1 d zbb sys junk ljunk dis).
  Notation lines := (trap_lines dis).

  (** The claim, for the effect [f] and the output [o] of the word [w] at [a] in [s]. *)
  Definition fine (w a : Z) (s : arch) (f : effect (C := core S)) (o : list print) : Prop :=
    k_wrong (a_csr (f_arch f)) = false ->
    k_wrong (a_csr s) = false /\
    exists t, l_out (k_log (a_csr (f_arch f))) = l_out (k_log (a_csr s)) ++ t /\
    match f_halt f with
    | None => logged o t
    | Some _ => exists p x o', o = p :: o' /\ tells p x /\ blames dis w a x /\ (x = Proper -> o' = []) /\ logged o' t
    end.
  Lemma fine_quiet w a s s' m' p : k_wrong (a_csr s') = k_wrong (a_csr s) -> k_log (a_csr s') = k_log (a_csr s) ->
    fine w a s (Eff s' m' p None) [].
  Proof. intros H1 H2 H. cbn [f_arch f_halt] in *. split; [congruence|]. exists []. rewrite H2, app_nil_r. split; [reflexivity|apply logged_nil]. Qed.
  Lemma fine_wrong w a s m o : fine w a s (went_wrong s m a) o.
  Proof. intros H. discriminate H. Qed.
  Lemma fine_trap w a s s' m' p t : 0 <= a < 2 ^ 64 -> k_wrong (a_csr s') = k_wrong (a_csr s) -> k_log (a_csr s') = k_log (a_csr s) ->
    fine w a s (Eff s' m' p (raised t)) (match t with Some code => lines code w a | None => [] end).
  Proof.
    intros Ha H1 H2. destruct t as [code|]; [|now apply fine_quiet]. cbn [raised]. destruct (on_trap code) as [r|] eqn:E.
    - intros H. cbn [f_arch f_halt] in *. split; [congruence|]. exists []. rewrite H2, app_nil_r. split; [reflexivity|].
      destruct (line_ok dis code w a r Ha E) as (q & -> & T). exists q, (cause_of dis code w a), []. split; [reflexivity|]. split; [exact T|]. split; [apply cause_blames|]. split; [reflexivity|apply logged_nil].
    - rewrite line_none by exact E. now apply fine_quiet.
  Qed.
  Lemma set_dst_core r v (s : arch) : a_csr (set_dst r v s) = a_csr s.
  Proof. destruct r; reflexivity. Qed.

  Lemma log_ok op l l' : exec_log log_fuel op l = Some (Ok l') ->
    exists t, l_out l' = l_out l ++ t /\ logged (log_lines op l l') t.
  Proof.
    unfold log_lines. destruct op as [e v|v|v|e v]; cbn [exec_log]; intros H.
    - destruct (string_load log_fuel e v) as [[f| |]|]; cbn [option_map bind] in H; try discriminate H. injection H as H.
      unfold print_log in H. destruct (print_loop (f ++ [0]) (l_args l) []) as [o| |]; cbn [bind] in H; try discriminate H. injection H as <-. cbn [l_out].
      exists o. split; [reflexivity|]. rewrite skipn_app, skipn_all, Nat.sub_diag. cbn [app skipn].
      change o with ([] ++ o). apply logged_app; [apply bad_formats_ok|]. split; [cbn; apply app_nil_r|]. constructor; [discriminate|constructor].
    - injection H as <-. exists []. rewrite app_nil_r. split; [reflexivity|apply logged_nil].
    - assert (E : l_out l' = l_out l).
      { destruct (word_has_zero (wrap U32 v)); [|now injection H as <-]. destruct (trim (l_clog l ++ bytes4 (wrap U32 v))); cbn [bind] in H; try discriminate H. now injection H as <-. }
      exists []. rewrite app_nil_r. split; [exact E|apply logged_nil].
    - destruct (string_load log_fuel e v) as [[f| |]|]; cbn [option_map bind] in H; try discriminate H. injection H as <-. cbn [set_arg l_out].
      exists []. rewrite app_nil_r. split; [reflexivity|apply logged_nil].
  Qed.
  Lemma scalar_fine c w a s m : sys_silent sys -> 0 <= a < 2 ^ 64 -> (act_kind c = KMpause -> w mod 2 ^ 32 = 0x08000073) ->
    fine w a s (exec_scalar sys ljunk c a s m) (says_scalar sys ljunk dis c w a s m).
  Proof.
    intros Hs Ha Hm. unfold exec_scalar, says_scalar. destruct (act_kind c) eqn:K;
      lazymatch type of K with _ = KMpause => idtac | _ = KSys => idtac | _ =>
      try (destruct (a_src c) as [|? [|? [|? [|]]]]; try apply fine_wrong; destruct (a_dst c) as [|? [|? [|]]]; try apply fine_wrong;
           try (apply fine_quiet; cbn [with_core tock a_csr k_wrong k_log]; rewrite ?set_dst_core; reflexivity)) end.
    - destruct (max_address <? _); [exact (fine_trap w a s _ m (next a) (Some 5) Ha eq_refl eq_refl)|].
      destruct (a_child c) as [[? [|? [|]]]|]; try apply fine_wrong. apply fine_quiet; cbn [with_core tock a_csr k_wrong k_log]; rewrite ?set_dst_core; reflexivity.
    - destruct (max_address <? _); [exact (fine_trap w a s _ m (next a) (Some 7) Ha eq_refl eq_refl)|]. apply fine_quiet; reflexivity.
    - assert (fine w a s (Eff (with_core tock s) m (next a) (Some RUserRequest)) [proper_line]).
      { intros H. cbn [f_arch f_halt with_core tock a_csr k_log k_wrong] in *. split; [exact H|]. exists []. rewrite app_nil_r. split; [reflexivity|].
        exists proper_line, Proper, []. split; [reflexivity|]. split; [reflexivity|]. split; [exact (Hm eq_refl)|]. split; [reflexivity|apply logged_nil]. }
      destruct (a_src c); exact H.
    - destruct (log_op ljunk (bound c) _ s m) as [op|]; [|apply fine_quiet; reflexivity].
      destruct (exec_log log_fuel op (k_log (a_csr s))) as [[l| |]|] eqn:E; try apply fine_wrong. destruct (log_ok _ _ _ E) as (t & Et & L).
      intros H. cbn [f_arch f_halt with_core tock set_log a_csr k_log k_wrong] in *. split; [exact H|]. exists t. split; [exact Et|].
      unfold log_trap. destruct (((bound c =? 0) || (bound c =? 3)) && _).
      + cbn [on_trap Z.eqb Pos.eqb orb]. destruct (line_ok dis 5 w a RUserRequest Ha eq_refl) as (q & -> & T).
        exists q, (cause_of dis 5 w a), (log_lines op (k_log (a_csr s)) l). split; [reflexivity|]. split; [exact T|]. split; [apply cause_blames|]. split; [discriminate|exact L].
      + exact L.
    - assert (X : fine w a s (let '(s', m', a', t) := sys c a s m in Eff (with_core tock s') m' a' (raised t))
          match snd (sys c a s m) with Some code => lines code w a | None => [] end).
      { destruct (Hs c a s m) as [Q1 Q2]. destruct (sys c a s m) as [[[s' m'] a'] t]. cbn [fst snd] in *. apply fine_trap; [exact Ha| |]; cbn [with_core tock a_csr k_wrong k_log]; assumption. }
      destruct (a_src c); exact X.
  Qed.
  Lemma vector_fine e w a s m : 0 <= a < 2 ^ 64 -> fine w a s (exec_vector junk e w a s m) (says_vector junk dis e w a s m).
  Proof.
    intros Ha. unfold exec_vector, says_vector. destruct (vec_step e w a (to_w s m) (junk (k_clock (a_csr s)))) as [[[s' t]| |]|]; try apply fine_wrong.
    exact (fine_trap w a s (with_core tock (of_w s s')) (w_mem s') (next a) t Ha eq_refl eq_refl).
  Qed.
  Lemma mpause_rows : forallb (fun e => match e_sem e with SmScalar _ => match MachProofs5.kind_of_sem (V1ScalProofs.sem1 e) with KMpause =>
      match e_fmt e, e_cons e with DecodeTypes.FInst32, [DecodeTypes.Ceq b v; DecodeTypes.Ceq o u] => String.eqb b "bits" && String.eqb o "opcode" && (v =? 1048576) && (u =? 115) | _, _ => false end
    | _ => true end | _ => true end) all_entries = true.
  Proof. vm_compute. reflexivity. Qed.
  Lemma mpause_word e w : In e all_entries -> matches w e = true -> (exists q, e_sem e = SmScalar q) -> MachProofs5.kind_of_sem (V1ScalProofs.sem1 e) = KMpause -> w mod 2 ^ 32 = 0x08000073.
  Proof.
    intros Hi Hm (q & Es) K. pose proof (proj1 (forallb_forall _ _) mpause_rows e Hi) as R. cbv beta in R. rewrite Es, K in R.
    unfold matches in Hm. destruct (e_fmt e); try discriminate R. destruct (e_cons e) as [|[b v|] [|[o u|] [|]]]; try discriminate R.
    rewrite !andb_true_iff in R. destruct R as [[[R1 R2] R3] R4]. apply String.eqb_eq in R1, R2. subst b o. apply Z.eqb_eq in R3, R4. subst v u.
    cbn [forallb con_ok] in Hm. rewrite !andb_true_iff in Hm. destruct Hm as (M1 & M2 & _).
    change (xbits w 7 25 =? 1048576 = true) in M1. change (xbits w 0 7 =? 115 = true) in M2.
    unfold xbits in M1, M2. lia.
  Qed.
  Theorem says_fine w a s m : decoder_ok d -> sys_silent sys -> zbb_runs zbb -> 0 <= a < 2 ^ 64 -> fine w a s (exec w a s m) (says w a s m).
  Proof.
    intros Hd Hs Hz Ha. unfold exec1, says1. destruct (parse d w) as [e|] eqn:E.
    - destruct (DecodeProofs.parse_sound d w e Hd E) as [He Hm]. destruct (e_sem e) eqn:Es; try (now apply vector_fine).
      apply scalar_fine; [exact Hs|exact Ha|]. intros K. rewrite MachProofs5.kind_sem in K. change (a_sem (act1 e w)) with (V1ScalProofs.sem1 e) in K.
      apply (mpause_word e w He Hm); [eexists; exact Es|exact K].
    - destruct (zbb w) as [c|] eqn:Z; [|exact (fine_trap w a s (with_core tock s) m (next a) (Some 2) Ha eq_refl eq_refl)].
      apply scalar_fine; [exact Hs|exact Ha|]. intros K. now destruct (Hz w c Z).
  Qed.
End Mach.
