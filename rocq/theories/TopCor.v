(** * The debug interface theorems from the lemmas *)
From Coq Require Import ZArith List Bool String Lia.
From Verif Require Import CInt TopModel TopSpec TopProofs TopProofs2 TopProofs3 TopProofs4.
Import ListNotations.
Open Scope Z_scope.

Section P.
  Context {C : Type}.
  Variable exec : Z -> Z -> arch (C := C) -> (Z -> Z) -> effect (C := C).
  Variable evicted : Z -> Z -> bool.
  Variable reg_id : string -> option Z.
  Variable reg_size : Z -> Z.
  Variable csr_id : string -> option Z.
  Variable csr_get : Z -> C -> Z.
  Variable csr_set : Z -> Z -> C -> C.
  Notation do := (do_call exec evicted reg_id reg_size csr_id csr_get csr_set).
  Notation history := (history exec evicted reg_id reg_size csr_id csr_get csr_set).
  Notation follows := (follows exec reg_id reg_size csr_id csr_set).
  Notation clean_along := (clean_along exec reg_id reg_size csr_id csr_set).
  Notation clean := (clean exec).
  Notation ref := (ref exec).
  Notation ref_halt := (ref_halt exec).
  Notation first_stop := (first_stop exec).
  Notation start m := (fresh (m_arch m) (m_mem m) (m_pc m)).
  Variable code : Z -> Prop.
  Variable m0 : mach (C := C).
  Hypothesis HB : bytes_ok (m_mem m0).
  Hypothesis HR : 0 <= m_pc m0 < 2 ^ 32.

  Lemma reach_inv h s : history (allowed code m0) (start m0) h s -> clean_along code m0 h (t_insts s) ->
    exists k m, follows m0 h k m /\ Z.of_nat k <= t_insts s /\ Inv code m0 m s.
  Proof.
    intros HH HC.
    destruct (history_ok exec evicted reg_id reg_size csr_id csr_get csr_set code m0 HB _ _ _ HH m0 (fresh_Inv code m0 HR)) as (k & m & F & I & T).
    - intros h1 h2 k m1 E F K. apply (HC h1 h2 k m1 E F). cbn in K. lia.
    - exists k, m. cbn in T. split; [exact F|]. split; [lia|exact I].
  Qed.
  Lemma transparent h s : history (allowed code m0) (start m0) h s -> clean_along code m0 h (t_insts s) ->
    exists k m, follows m0 h k m /\ Z.of_nat k <= t_insts s /\ shows s m /\ t_status s = Halted.
  Proof.
    intros HH HC. destruct (reach_inv h s HH HC) as (k & m & F & T & I).
    exists k, m. split; [exact F|]. split; [exact T|]. split; [apply (Inv_shows _ _ _ _ I)|apply (i_status _ _ _ _ I)].
  Qed.
  Lemma cleared h s r s' : history (allowed code m0) (start m0) h s -> clean_along code m0 h (t_insts s) ->
    t_reason s <> RSwBreakpoint -> do CClearAll s = Some (Ok (r, s')) ->
    exists k m, follows m0 h k m /\ r = ROk /\ t_pc s' = m_pc m /\ t_arch s' = m_arch m /\ (forall x, t_mem s' x = m_mem m x) /\ t_bps s' = [].
  Proof.
    intros HH HC HN HD. destruct (reach_inv h s HH HC) as (k & m & F & T & I).
    assert (EB := call_bps exec evicted reg_id reg_size csr_id csr_get csr_set code _ _ _ _ HD).
    destruct (call_ok exec evicted reg_id reg_size csr_id csr_get csr_set code m0 HB CClearAll m s r s' I HN HD) as (n & I' & _).
    { intros i Hi _ _. rewrite (insts_other exec evicted reg_id reg_size csr_id csr_get csr_set CClearAll s s' r eq_refl HD) in Hi. lia. }
    cbn [goes poke] in I'. destruct (Inv_shows _ _ _ _ I') as (P & A & M & _).
    assert (r = ROk).
    { cbn [do_call] in HD. unfold clear_all, guarded in HD. rewrite (i_status _ _ _ _ I) in HD. now injection HD as <- _. }
    subst r. cbn [bps_of] in EB. exists k, m. split; [exact F|]. split; [reflexivity|]. split; [exact P|]. split; [exact A|].
    split; [|exact EB]. intros x. apply M. rewrite EB. intros (a & [] & _).
  Qed.
  Lemma run_exact h s : history (allowed code m0) (start m0) h s -> clean_along code m0 h (t_insts s) ->
    exists k m, follows m0 h k m /\ shows s m /\
      forall fuel,
        match run exec evicted fuel s with
        | Some (Ok (r, s')) =>
            (forall i, Z.of_nat i < t_insts s' - t_insts s -> clean code (ref i m)) ->
            exists n, r = ROk /\ shows s' (ref n m) /\ t_status s' = Halted /\ t_bps s' = t_bps s /\
              (t_reason s <> RSwBreakpoint -> first_stop (t_bps s) m 0 n (t_reason s')) /\
              (t_reason s = RSwBreakpoint -> (1 <= n)%nat /\ first_stop (t_bps s) (ref 1 m) 0 (n - 1) (t_reason s'))
        | Some _ => False
        | None =>
            (forall i, (i <= fuel)%nat -> clean code (ref i m)) ->
            let d := if reason_eqb (t_reason s) RSwBreakpoint then 1%nat else 0%nat in
            forall i, (i < fuel)%nat -> ~ In (m_pc (ref (d + i) m)) (t_bps s) /\ ref_halt (ref (d + i) m) = None
        end.
  Proof.
    intros HH HC. destruct (reach_inv h s HH HC) as (k & m & F & T & I). exists k, m. split; [exact F|]. split; [apply (Inv_shows _ _ _ _ I)|].
    intros fuel. destruct (run exec evicted fuel s) as [[[r s']|u|]|] eqn:E.
    - intros CL. destruct (run_ok exec evicted reg_size csr_get csr_set code m0 HB fuel m s r s' I E (fun i H _ => CL i H)) as (n & -> & I' & B & F1 & F2 & T').
      exists n. split; [reflexivity|]. split; [apply (Inv_shows _ _ _ _ I')|]. split; [apply (i_status _ _ _ _ I')|]. split; [exact B|]. split; [exact F1|exact F2].
    - exact (proj1 (run_defined exec evicted fuel s u) E).
    - exact (proj2 (run_defined exec evicted fuel s Uninitialised) E).
    - intros CL. exact (run_none exec evicted code m0 HB fuel m s I E (fun i H _ => CL i H)).
  Qed.
  Lemma step_exact h s : history (allowed code m0) (start m0) h s -> clean_along code m0 h (t_insts s) ->
    exists k m, follows m0 h k m /\ shows s m /\
      (t_reason s <> RSwBreakpoint -> forall num, 0 < num ->
        match step exec evicted num s with
        | Ok (r, s') =>
            (forall i, Z.of_nat i < t_insts s' - t_insts s -> clean code (ref i m)) ->
            exists n v, r = RVal v /\ shows s' (ref n m) /\ t_status s' = Halted /\ t_bps s' = t_bps s /\
              ((v = num /\ Z.of_nat n = num /\ t_reason s' = RNone /\
                forall i, (i < n)%nat -> ~ In (m_pc (ref i m)) (t_bps s) /\ ref_halt (ref i m) = None) \/
               (v = Z.of_nat n + 1 /\ v <= num /\ t_reason s' = RSwBreakpoint /\ first_stop (t_bps s) m 0 n (t_reason s')) \/
               (v = Z.of_nat n /\ v <= num /\ t_reason s' <> RSwBreakpoint /\ first_stop (t_bps s) m 0 n (t_reason s')))
        | _ => False
        end) /\
      (t_reason s = RSwBreakpoint -> clean code m ->
        match ref_halt m with
        | Some r => forall num, 0 < num -> exists s', step exec evicted num s = Ok (RVal 1, s') /\ shows s' (ref 1 m) /\ t_reason s' = r
        | None => step exec evicted 1 s = UB Uninitialised
        end).
  Proof.
    intros HH HC. destruct (reach_inv h s HH HC) as (k & m & F & T & I). exists k, m. split; [exact F|]. split; [apply (Inv_shows _ _ _ _ I)|]. split.
    - intros HN num Hn. destruct (step exec evicted num s) as [[r s']|u|] eqn:E.
      + intros CL. destruct (step_ok exec evicted reg_size csr_get csr_set code m0 num m s r s' I HN E (fun i H _ _ => CL i H)) as [(X & _)|(n & v & _ & -> & I' & B & RS & TT)]; [lia|].
        exists n, v. split; [reflexivity|]. split; [apply (Inv_shows _ _ _ _ I')|]. split; [apply (i_status _ _ _ _ I')|]. split; [exact B|exact RS].
      + exact (proj1 (step_defined exec evicted num s u (Inv_need _ _ _ _ I HN)) E).
      + exact (proj2 (step_defined exec evicted num s Uninitialised (Inv_need _ _ _ _ I HN)) E).
    - intros HS CL. destruct (ref_halt m) as [r|] eqn:E.
      + intros num Hn. destruct (step_at_bp_halt exec evicted reg_size csr_get csr_set code m0 HB num m s r I HS Hn CL E) as (s' & E' & I' & R').
        exists s'. split; [exact E'|]. split; [apply (Inv_shows _ _ _ _ I')|exact R'].
      + exact (step_one_at_bp exec evicted code m0 HB m s I HS CL E).
  Qed.
  Lemma disasm_exact h s a : history (allowed code m0) (start m0) h s -> clean_along code m0 h (t_insts s) ->
    0 <= a -> a mod 4 = 0 -> word_in_code code a ->
    exists k m s', follows m0 h k m /\ shows s m /\
      disassembly evicted a s = (RVal (load32 (m_mem m) a), s') /\ shows s' m /\
      t_bps s' = t_bps s /\ t_status s' = t_status s /\ t_reason s' = t_reason s /\ t_insts s' = t_insts s.
  Proof.
    intros HH HC H1 H2 H3. destruct (reach_inv h s HH HC) as (k & m & F & T & I).
    destruct (disasm_ok exec evicted reg_size csr_get csr_set code m0 HB m s a I (conj H1 H2) H3) as (s' & E & I' & (c1 & c2 & c3 & c4 & c5 & c6 & c7)).
    exists k, m, s'. split; [exact F|]. split; [apply (Inv_shows _ _ _ _ I)|]. split; [exact E|]. split; [apply (Inv_shows _ _ _ _ I')|].
    repeat split; assumption.
  Qed.
  Lemma bp_set_exact P (s : top (C := C)) h a : history P (start m0) h s ->
    do (CHasBp a) s = Some (Ok (RVal (if armed h a false then 1 else 0), s)) /\
    fst (set_breakpoint a s) = (if armed h a false then RErr EAlreadyExists else ROk) /\
    fst (clear_breakpoint a s) = (if armed h a false then ROk else RErr ENotFound).
  Proof.
    intros HH.
    assert (E : has_bp a s = armed h a false).
    { unfold has_bp. rewrite (history_bps exec evicted reg_id reg_size csr_id csr_get csr_set code P _ _ _ HH). apply armed_in. }
    assert (S : t_status s = Halted) by (apply (history_status exec evicted reg_id reg_size csr_id csr_get csr_set P _ _ _ HH); reflexivity).
    cbn [do_call]. unfold set_breakpoint, clear_breakpoint, guarded. rewrite E, S. cbn [is_halted].
    destruct (armed h a false); repeat split.
  Qed.
End P.
