(** * The simulator refines the ideal debugger *)
From Coq Require Import ZArith List Bool String Lia.
From Verif Require Import CInt TopModel TopSpec DbgSpec TopProofs TopProofs2 TopProofs3 TopProofs4 TopCor.
From Coq Require Import ZifyBool ZifyNat.
Import ListNotations.
Open Scope Z_scope.

Section Cycles.
  Context {C : Type}.
  Notation top := (top (C := C)).
  Variable exec : Z -> Z -> arch (C := C) -> (Z -> Z) -> effect (C := C).
  Variable evicted : Z -> Z -> bool.
  Variable reg_id : string -> option Z.
  Variable reg_size : Z -> Z.
  Variable csr_id : string -> option Z.
  Variable csr_get : Z -> C -> Z.
  Variable csr_set : Z -> Z -> C -> C.
  Notation call_ := (do_call exec evicted reg_id reg_size csr_id csr_get csr_set).
  (** Both counters count the same. *)
  Definition even (s : top) : Prop := t_cycles s = t_insts s.
  Lemma even_request r (s : top) : even s -> even (request_halt r s).
  Proof. unfold request_halt, even. now destruct (_ || _). Qed.
  Lemma even_execute w a (s : top) : even s -> even (execute exec w a s).
  Proof.
    intros H. unfold execute.
    assert (Q : forall x, even x -> even (count1 x)) by (unfold even; intros x E; cbn [count1 t_cycles t_insts]; lia).
    apply Q. destruct (w =? ebreak); [destruct (has_bp _ _); repeat apply even_request; exact H|].
    destruct (f_halt _); [apply even_request|]; exact H.
  Qed.
  Lemma even_fetch a (s : top) : even s -> even (snd (fetch evicted a s)).
  Proof. unfold fetch, even. now destruct (if evicted _ _ then _ else _). Qed.
  Lemma even_original a (s : top) : even s -> even (write_original a s).
  Proof. unfold write_original, even. now destruct (t_map s a). Qed.
  Lemma even_breakpoint a (s : top) : even s -> even (write_breakpoint a s).
  Proof. unfold write_breakpoint, even. now destruct (t_map s a). Qed.
  Lemma even_past (s : top) : even s -> even (step_past exec evicted s).
  Proof.
    intros H. unfold step_past. pose proof (even_fetch (t_pc s) _ (even_original (t_pc s) s H)) as F.
    destruct (fetch _ _ _) as [w s1]. apply even_breakpoint, even_execute, F.
  Qed.
  Lemma even_iteration b np (s : top) : even s -> even (snd (iteration exec evicted b np s)).
  Proof.
    intros H. unfold iteration. pose proof (even_fetch np s H) as F. destruct (fetch _ np s) as [w s1]. cbn [snd] in F.
    pose proof (even_execute w np s1 F) as G. destruct (negb _); [exact G|]. destruct (reason_eqb _ _); [|exact G].
    pose proof (even_past _ G) as P. destruct b; exact P.
  Qed.
  Lemma even_run_loop fuel : forall pc np (s : top) p' np' s', run_loop exec evicted fuel pc np s = Some (p', np', s') -> even s -> even s'.
  Proof.
    induction fuel as [|f IH]; intros pc np s p' np' s'; cbn [run_loop]; destruct (negb _); try discriminate; try (intros X; injection X as <- <- <-; auto).
    intros X H. pose proof (even_iteration false np s H) as G. destruct (iteration _ _ _ _ s) as [[go n1] s1]. cbn [snd] in G.
    destruct go; [exact (IH _ _ _ _ _ _ X G)|injection X as <- <- <-; exact G].
  Qed.
  Lemma even_step_loop fuel : forall num count pc np (s : top) c' p' np' s', step_loop exec evicted fuel num count pc np s = (c', p', np', s') -> even s -> even s'.
  Proof.
    induction fuel as [|f IH]; intros num count pc np s c' p' np' s'; cbn [step_loop]; destruct (_ && _); try (intros X; injection X as <- <- <- <-; auto).
    intros X H. pose proof (even_iteration true np s H) as G. destruct (iteration _ _ _ _ s) as [[go n1] s1]. cbn [snd] in G.
    destruct go; [exact (IH _ _ _ _ _ _ _ _ _ X G)|injection X as <- <- <- <-; exact G].
  Qed.
  Lemma even_chunks fuel : forall rest a (s : top), even s -> even (snd (load_chunks fuel rest a s)).
  Proof.
    induction fuel as [|f IH]; intros rest a s H; [exact H|]. cbn [load_chunks]. destruct (_ =? 0); [exact H|].
    destruct (write_memory _ _ s) as [r1 s1] eqn:E.
    assert (G : even s1) by (unfold write_memory, guarded in E; destruct (is_halted _); [destruct (_ <? _)|]; injection E as <- <-; exact H).
    destruct r1; try exact G. destruct (v =? _); [|exact G]. destruct (_ =? Z.of_nat _); [|exact G]. now apply IH.
  Qed.
  Lemma even_call c (s s' : top) r : call_ c s = Some (Ok (r, s')) -> even s -> even s'.
  Proof.
    intros HD H. destruct c as [num|fuel| |r0|a|a| |a|name|name v|a n|a buf|a|file a| |]; cbn [do_call] in HD; try (injection HD as <- <-; exact H).
    - injection HD as HD. unfold step in HD. destruct (num <=? 0); [injection HD as <- <-; exact H|].
      destruct (negb (is_halted _)); [injection HD as <- <-; exact H|].
      set (s1 := set_halted false _) in HD.
      assert (P : even (snd (if t_need s1 then (1, step_past exec evicted (set_need false s1)) else (0, s1)))) by (destruct (t_need s1); [apply even_past|]; exact H).
      destruct (if t_need s1 then _ else _) as [c s2]. cbn [snd] in P.
      destruct (step_loop _ _ _ _ _ _ _ _) as [[[c' p] np] s3] eqn:E. pose proof (even_step_loop _ _ _ _ _ _ _ _ _ _ E P) as G.
      destruct (reason_eqb _ _); [destruct p; [|discriminate]|]; injection HD as <- <-; destruct (negb _); exact G.
    - unfold run in HD. destruct (is_running _); [injection HD as <- <-; exact H|].
      set (s2 := set_halted false _) in HD.
      assert (P : even s2) by (unfold s2; destruct (t_need s); [apply (even_past (set_need false s))|]; exact H).
      destruct (run_loop _ _ fuel None (t_pc s2) s2) as [[[p np] s3]|] eqn:E; [|discriminate]. pose proof (even_run_loop _ _ _ _ _ _ _ E P) as G.
      destruct (reason_eqb _ _); [destruct p; [|discriminate]|]; injection HD as <- <-; exact G.
    - injection HD as HD. unfold halt in HD. destruct (t_status s); injection HD as <- <-; exact H.
    - injection HD as <- <-. now apply even_request.
    - injection HD as HD. unfold set_breakpoint, guarded in HD. destruct (is_halted _); [destruct (has_bp a s)|]; injection HD as <- <-; try exact H.
      apply even_breakpoint. exact H.
    - injection HD as HD. unfold clear_breakpoint, guarded in HD. destruct (is_halted _); [destruct (has_bp a s)|]; injection HD as <- <-; try exact H.
      apply even_original. exact H.
    - injection HD as HD. unfold clear_all, guarded in HD. destruct (is_halted _); injection HD as <- <-; [|exact H].
      generalize (t_bps s) as l. intros l. revert s H. induction l as [|a l IH]; intros s H; cbn [fold_left]; [exact H|]. apply IH. apply even_original. exact H.
    - injection HD as HD. unfold read_register, guarded in HD. destruct (is_halted _); [|injection HD as <- <-; exact H].
      destruct (reg_id name); [destruct (size_ok _)|destruct (csr_id name)]; injection HD as <- <-; exact H.
    - injection HD as HD. unfold write_register, guarded in HD. destruct (is_halted _); [|injection HD as <- <-; exact H].
      destruct (reg_id name); [|destruct (csr_id name); injection HD as <- <-; exact H].
      destruct (_ && _); destruct (size_ok _); injection HD as <- <-; try exact H; destruct (String.eqb _ _); exact H.
    - injection HD as HD. unfold read_memory, guarded in HD. destruct (is_halted _); [destruct (_ <? _)|]; injection HD as <- <-; exact H.
    - injection HD as HD. unfold write_memory, guarded in HD. destruct (is_halted _); [destruct (_ <? _)|]; injection HD as <- <-; exact H.
    - injection HD as HD. unfold disassembly, guarded in HD. destruct (is_halted _); [|injection HD as <- <-; exact H].
      destruct (has_bp a s).
      + pose proof (even_fetch a _ (even_original a s H)) as F. destruct (fetch _ _ _) as [w s1]. injection HD as <- <-. now apply even_breakpoint.
      + pose proof (even_fetch a s H) as F. destruct (fetch _ _ _) as [w s1]. injection HD as <- <-. exact F.
    - injection HD as HD. unfold load_image in HD. destruct file as [l|]; [|injection HD as <- <-; exact H].
      pose proof (even_chunks (S (length l)) l a s H) as G. now rewrite HD in G.
  Qed.
End Cycles.

Section P.
  Context {C : Type}.
  Notation top := (top (C := C)).
  Notation mach := (mach (C := C)).
  Variable exec : Z -> Z -> arch (C := C) -> (Z -> Z) -> effect (C := C).
  Variable evicted : Z -> Z -> bool.
  Variable reg_id : string -> option Z.
  Variable reg_size : Z -> Z.
  Variable csr_id : string -> option Z.
  Variable csr_get : Z -> C -> Z.
  Variable csr_set : Z -> Z -> C -> C.
  Notation call_ := (do_call exec evicted reg_id reg_size csr_id csr_get csr_set).
  Notation history := (history exec evicted reg_id reg_size csr_id csr_get csr_set).
  Notation poke := (poke reg_id reg_size csr_id csr_set).
  Notation ref := (ref exec).
  Notation gets_to := (gets_to exec).
  Notation ideal_go := (ideal_go exec).
  Notation ideal_call := (ideal_call exec reg_id reg_size csr_id csr_get csr_set).
  Notation ideal_calls := (ideal_calls exec reg_id reg_size csr_id csr_get csr_set).
  Notation answer := (answer reg_id reg_size csr_id csr_get).
  Notation after := (after reg_id reg_size csr_id csr_set).
  Notation permitted := (permitted exec).
  Variable code : Z -> Prop.
  Variable m0 : mach.
  Hypothesis bytes0 : bytes_ok (m_mem m0).
  Notation clean := (clean exec code).
  Notation Inv := (Inv code m0).

  Record R (d : ideal) (s : top) : Prop := {
    r_inv : Inv (d_mach d) s;
    r_bps : t_bps s = d_bps d;
    r_reason : t_reason s = d_reason d;
    r_count : t_insts s = d_count d;
    r_even : even s }.

  Lemma R_mirrors d s : R d s -> mirrors s d.
  Proof.
    intros [I B E T V]. split; [exact (Inv_shows _ _ _ _ I)|]. split; [exact B|]. split; [exact E|]. split; [exact T|]. split; [unfold even in V; congruence|].
    exact (i_status _ _ _ _ I).
  Qed.
  Lemma R_allowed d s c : R d s -> permitted code m0 d c -> allowed code m0 c s.
  Proof.
    intros [I B E T V] HP. destruct c; cbn [DbgSpec.permitted allowed] in *; rewrite ?E; try exact HP; try exact Logic.I.
    - exact (proj1 HP).
    - pose proof (k_pc _ _ _ _ (i_K _ _ _ _ I)) as P. rewrite P. exact HP.
  Qed.
  Lemma R_clean d s c : R d s -> permitted code m0 d c -> goes c = true ->
    forall i, (forall num, c = CStep num -> Z.of_nat i < num) -> gets_to (t_bps s) (reason_eqb (t_reason s) RSwBreakpoint) (d_mach d) i -> clean (ref i (d_mach d)).
  Proof.
    intros [I B E T V] HP Hg i Hn G. rewrite B, E in G. destruct c; try discriminate Hg; cbn [DbgSpec.permitted] in HP.
    - destruct HP as [H1 H2]. rewrite (proj2 (reason_eqb_neq _ _) H1) in G. exact (H2 i (Hn _ eq_refl) G).
    - exact (HP i G).
  Qed.
  Lemma extra_other r : r <> RSwBreakpoint -> extra r = 0.
  Proof. intros H. unfold extra. now rewrite (proj2 (reason_eqb_neq _ _) H). Qed.

  Lemma go_R d s c r s' : R d s -> permitted code m0 d c -> goes c = true -> call_ c s = Some (Ok (r, s')) ->
    exists d', ideal_go d c r d' /\ R d' s'.
  Proof.
    intros HR HP Hg HD. pose proof (R_clean d s c HR HP Hg) as HC. pose proof (even_call _ _ _ _ _ _ _ _ _ _ _ HD (r_even _ _ HR)) as EV.
    pose proof (R_allowed d s c HR HP) as HA. destruct HR as [I B E T V]. destruct d as [m bps r0 k]. cbn [d_mach d_bps d_reason d_count] in *.
    destruct c as [num|fuel| | | | | | | | | | | | | |]; try discriminate Hg; cbn [do_call] in HD.
    - injection HD as HD. cbn [allowed] in HA.
      destruct (step_ok exec evicted reg_size csr_get csr_set code m0 num m s r s' I HA HD) as [(H & -> & ->)|(n & v & Hn & -> & I' & B' & RS & TT)].
      { intros i H1 H2 H3. apply HC; [now intros num' [= <-]|]. rewrite (proj2 (reason_eqb_neq _ _) HA). exact H3. }
      + eexists. split; [apply GReject; exact H|]. now constructor.
      + rewrite B, E in *. destruct RS as [(-> & H1 & H2 & H3)|[(H1 & H2 & H3 & H4)|(H1 & H2 & H3 & H4)]].
        * eexists. split; [apply (GFull _ m bps r0 k num n Hn HA H1 H3)|]. constructor; cbn [d_mach d_bps d_reason d_count]; try assumption; congruence.
        * assert (EX : extra (t_reason s') = 1) by (rewrite H3; reflexivity).
          eexists. split; [replace v with (Z.of_nat n + extra (t_reason s')) by lia; apply (GStop _ m bps r0 k num n (t_reason s') Hn HA H4); lia|].
          constructor; cbn [d_mach d_bps d_reason d_count]; try assumption; try reflexivity; lia.
        * assert (EX : extra (t_reason s') = 0) by now apply extra_other.
          eexists. split; [replace v with (Z.of_nat n + extra (t_reason s')) by lia; apply (GStop _ m bps r0 k num n (t_reason s') Hn HA H4); lia|].
          constructor; cbn [d_mach d_bps d_reason d_count]; try assumption; try reflexivity; lia.
    - destruct (run_ok exec evicted reg_size csr_get csr_set code m0 bytes0 fuel m s r s' I HD (fun i _ H => HC i ltac:(discriminate) H)) as (n & -> & I' & B' & F1 & F2 & TT).
      rewrite B, E in *. destruct (reason_eqb r0 RSwBreakpoint) eqn:Q.
      + apply reason_eqb_eq in Q. destruct (F2 Q) as [Hn F]. rewrite Q. exists (Ideal (ref (n - 1 + 1) m) bps (t_reason s') (k + Z.of_nat (n - 1 + 1) + extra (t_reason s'))).
        split; [now apply GResume|]. replace (n - 1 + 1)%nat with n by lia. constructor; cbn [d_mach d_bps d_reason d_count]; try assumption; try reflexivity; lia.
      + apply reason_eqb_neq in Q. exists (Ideal (ref n m) bps (t_reason s') (k + Z.of_nat n + extra (t_reason s'))).
        split; [apply GRun; [exact Q|exact (F1 Q)]|]. constructor; cbn [d_mach d_bps d_reason d_count]; try assumption; try reflexivity; lia.
  Qed.

  Lemma filter_all (a : Z) l : existsb (Z.eqb a) l = false -> filter (fun b => negb (b =? a)) l = l.
  Proof.
    induction l as [|b l IH]; [reflexivity|]. cbn [existsb filter]. rewrite orb_false_iff. intros [H1 H2]. rewrite Z.eqb_sym, H1. cbn [negb]. now rewrite IH.
  Qed.
  Lemma view_mem m (s : top) x : Inv m s -> t_mem s x = view (t_bps s) (m_mem m) x.
  Proof.
    intros I. unfold view. destruct (Inv_shows _ _ _ _ I) as (_ & _ & M1 & M2). destruct (existsb _ _) eqn:E.
    - apply existsb_exists in E as (a & Ha & E). apply andb_true_iff in E as [E1 E2]. apply Z.leb_le in E1. apply Z.ltb_lt in E2.
      destruct (bp_al _ _ _ _ a (i_K _ _ _ _ I) Ha) as [[_ Al] _]. replace (x mod 4) with (x - a) by (apply (Z.mod_unique_pos x 4 (a / 4)); pose proof (Z.div_mod a 4 ltac:(lia)); lia).
      replace x with (a + (x - a)) at 1 by lia. apply M2; [exact Ha|lia].
    - apply M1. intros (a & Ha & K). assert (X : existsb (fun a => (a <=? x) && (x <? a + 4)) (t_bps s) = true); [|congruence].
      apply existsb_exists. exists a. split; [exact Ha|]. apply andb_true_iff. split; [apply Z.leb_le|apply Z.ltb_lt]; lia.
  Qed.
  Lemma other_R d s c r s' : R d s -> permitted code m0 d c -> goes c = false -> call_ c s = Some (Ok (r, s')) ->
    r = answer c d /\ R (after c d) s'.
  Proof.
    intros HR HP Hg HD. pose proof (even_call _ _ _ _ _ _ _ _ _ _ _ HD (r_even _ _ HR)) as EV.
    pose proof (R_allowed d s c HR HP) as HA. pose proof (insts_other _ _ _ _ _ _ _ c s s' r Hg HD) as TI.
    pose proof (call_bps exec evicted reg_id reg_size csr_id csr_get csr_set code _ _ _ _ HD) as EB.
    destruct HR as [I B E T V].
    destruct (call_ok exec evicted reg_id reg_size csr_id csr_get csr_set code m0 bytes0 c (d_mach d) s r s' I HA HD) as (n & I' & _).
    { intros i Hi _ _. lia. }
    rewrite Hg in I'. pose proof (i_status _ _ _ _ I) as Hs.
    enough (Q : r = answer c d /\ bps_of c r (d_bps d) = d_bps (after c d) /\ t_reason s' = d_reason (after c d)).
    { destruct Q as (Q1 & Q2 & Q3). split; [exact Q1|]. constructor; [exact I'|rewrite EB, B; exact Q2|exact Q3|cbn [DbgSpec.after d_count]; congruence|exact EV]. }
    clear I' EV EB TI. assert (HB : forall a, has_bp a s = listed a (d_bps d)) by (intros a; unfold has_bp, listed; now rewrite B).
    destruct (Inv_shows _ _ _ _ I) as (S1 & S2 & _).
    destruct c as [num|fuel| |r0|a|a| |a|name|name v|a n0|a buf|a|file a| |]; try discriminate Hg; cbn [do_call] in HD; cbn [DbgSpec.answer DbgSpec.after bps_of d_bps d_reason] in *.
    - injection HD as HD. unfold halt in HD. rewrite Hs in HD. injection HD as <- <-. auto.
    - injection HD as <- <-. split; [reflexivity|]. split; [reflexivity|]. unfold request_halt. now destruct (_ || _).
    - injection HD as HD. unfold set_breakpoint, guarded in HD. rewrite Hs, HB in HD. cbn [is_halted] in HD.
      destruct (listed a (d_bps d)); injection HD as <- <-; [auto|]. split; [reflexivity|]. split; [reflexivity|].
      destruct (breakpoint_ctl a (set_bps (a :: t_bps s) s)) as (_ & _ & -> & _). exact E.
    - injection HD as HD. unfold clear_breakpoint, guarded in HD. rewrite Hs, HB in HD. cbn [is_halted] in HD.
      destruct (listed a (d_bps d)) eqn:L; injection HD as <- <-.
      + split; [reflexivity|]. split; [reflexivity|]. destruct (original_ctl a (set_bps (drop_bp a (t_bps s)) s)) as (_ & _ & -> & _). exact E.
      + split; [reflexivity|]. split; [|exact E]. symmetry. apply filter_all. exact L.
    - injection HD as HD. unfold clear_all, guarded in HD. rewrite Hs in HD. cbn [is_halted] in HD. injection HD as <- <-.
      split; [reflexivity|]. split; [reflexivity|]. rewrite <- E. generalize (t_bps s) as l. intros l. clear. revert s. induction l as [|a l IH]; intros s; [reflexivity|].
      cbn [fold_left]. rewrite IH. now destruct (original_ctl a (set_bps (drop_bp a (t_bps s)) s)) as (_ & _ & -> & _).
    - injection HD as <- <-. rewrite HB. auto.
    - injection HD as HD. unfold read_register, guarded, reg_value in HD. rewrite Hs, S1, S2 in HD. cbn [is_halted] in HD. unfold pc_name in HD.
      destruct (reg_id name); [destruct (size_ok _)|destruct (csr_id name)]; injection HD as <- <-; auto.
    - injection HD as HD. unfold write_register, guarded in HD. rewrite Hs in HD. cbn [is_halted] in HD. cbn [allowed] in HA.
      assert (W : String.eqb name pc_name && reason_eqb (t_reason s) RSwBreakpoint = false).
      { destruct (String.eqb_spec name pc_name) as [En|En]; [|reflexivity]. apply reason_eqb_neq. exact (proj1 (HA En)). }
      rewrite W in HD. destruct (reg_id name); [destruct (size_ok _)|destruct (csr_id name)]; injection HD as <- <-; try auto. destruct (String.eqb _ _); auto.
    - injection HD as HD. cbn [DbgSpec.permitted] in HP. unfold read_memory, guarded in HD. rewrite Hs in HD. cbn [is_halted] in HD. destruct (Z.ltb_spec max_address a) as [Ha|Ha]; injection HD as <- <-; [auto|].
      split; [|auto]. rewrite clamp_in by lia. f_equal. unfold load_bytes. apply map_ext. intros i. rewrite <- B. apply view_mem. exact I.
    - injection HD as HD. destruct HA as (H1 & H2 & _). unfold write_memory, guarded in HD. rewrite Hs in HD. cbn [is_halted] in HD. destruct (Z.ltb_spec max_address a) as [Ha|Ha]; injection HD as <- <-; [auto|].
      split; [|auto]. rewrite clamp_in by lia. reflexivity.
    - injection HD as HD. destruct HA as (H1 & H2 & H3).
      destruct (disasm_ok exec evicted reg_size csr_get csr_set code m0 bytes0 (d_mach d) s a I (conj H1 H2) H3) as (s1 & E1 & _ & (_ & _ & c3 & _)). rewrite E1 in HD. injection HD as <- <-.
      split; [reflexivity|]. split; [reflexivity|congruence].
    - destruct HA.
    - injection HD as <- <-. rewrite Hs. auto.
    - injection HD as <- <-. auto.
  Qed.

  Lemma call_R d s c r s' : R d s -> permitted code m0 d c -> call_ c s = Some (Ok (r, s')) -> exists d', ideal_call d c r d' /\ R d' s'.
  Proof.
    intros HR HP HD. destruct (goes c) eqn:Hg.
    - destruct (go_R d s c r s' HR HP Hg HD) as (d' & G & HR'). exists d'. split; [now apply IGo|exact HR'].
    - destruct (other_R d s c r s' HR HP Hg HD) as (-> & HR'). exists (after c d). split; [now apply IOther|exact HR'].
  Qed.
  Lemma calls_R P s h s' : history P s h s' -> forall d, R d s ->
    (forall h1 c r h2 d1, h = h1 ++ (c, r) :: h2 -> ideal_calls d h1 d1 -> permitted code m0 d1 c) ->
    exists d', ideal_calls d h d' /\ R d' s'.
  Proof.
    induction 1 as [s|s c r s1 h s2 _ HD HH IH]; intros d HR HP.
    - exists d. split; [constructor|exact HR].
    - destruct (call_R d s c r s1 HR (HP [] c r h d eq_refl (CNil _ _ _ _ _ _ _)) HD) as (d1 & G & HR1).
      destruct (IH d1 HR1) as (d' & Q & HR').
      { intros h1 c' r' h2 d2 -> F. apply (HP ((c, r) :: h1) c' r' h2 d2 eq_refl). apply CCons with d1; assumption. }
      exists d'. split; [apply CCons with d1; assumption|exact HR'].
  Qed.
  Lemma fresh_R : 0 <= m_pc m0 < 2 ^ 32 -> R (Ideal m0 [] RNone 0) (fresh (m_arch m0) (m_mem m0) (m_pc m0)).
  Proof. intros H. constructor; [now apply fresh_Inv|reflexivity..]. Qed.

  (** ** The ideal debugger does one thing only *)
  Lemma stop_unique bps (m : mach) n r n' r' : first_stop exec bps m 0 n r -> first_stop exec bps m 0 n' r' -> n = n' /\ r = r'.
  Proof.
    intros (A1 & A2 & A3) (B1 & B2 & B3).
    assert (E : n = n').
    { destruct (Nat.lt_trichotomy n n') as [L|[L|L]]; [exfalso|exact L|exfalso].
      - destruct A3 as [(_ & A3 & _)|(A3 & A4)]; [exact (B1 n ltac:(lia) A3)|]. rewrite B2 in A4 by lia. discriminate.
      - destruct B3 as [(_ & B3 & _)|(B3 & B4)]; [exact (A1 n' ltac:(lia) B3)|]. rewrite A2 in B4 by lia. discriminate. }
    split; [exact E|]. rewrite <- E in *. destruct A3 as [(A3 & _ & _ & A4)|(A3 & A4)], B3 as [(B3 & _ & _ & B4)|(B3 & B4)].
    - congruence.
    - rewrite A4 in B4 by lia. discriminate.
    - rewrite B4 in A4 by lia. discriminate.
    - congruence.
  Qed.
  Lemma full_no_stop bps (m : mach) n n' r : first_stop exec bps m 0 n' r -> Z.of_nat n' + extra r <= Z.of_nat n ->
    (forall i, (i < n)%nat -> ~ In (m_pc (ref i m)) bps /\ ref_halt exec (ref i m) = None) -> False.
  Proof.
    intros (_ & _ & A) L H. destruct A as [(E & A & _)|(A & B)].
    - rewrite E in L. change (extra RSwBreakpoint) with 1 in L. exact (proj1 (H n' ltac:(lia)) A).
    - assert (0 <= extra r) by (unfold extra; destruct (reason_eqb r RSwBreakpoint); lia). pose proof (proj2 (H (n' - 1)%nat ltac:(lia))). congruence.
  Qed.
  Lemma ideal_go_det d c r1 d1 r2 d2 : ideal_go d c r1 d1 -> ideal_go d c r2 d2 -> r1 = r2 /\ d1 = d2.
  Proof.
    intros H1 H2. destruct H1; inversion H2; subst; try lia; try congruence; try (split; reflexivity).
    - match goal with A : first_stop _ _ _ _ _ _, B : first_stop _ _ _ _ _ _ |- _ => destruct (stop_unique _ _ _ _ _ _ A B) as [-> ->] end. auto.
    - match goal with A : first_stop _ _ _ _ _ _, B : first_stop _ _ _ _ _ _ |- _ => destruct (stop_unique _ _ _ _ _ _ A B) as [-> ->] end. auto.
    - match goal with A : Z.of_nat ?x = Z.of_nat ?y |- _ => apply Nat2Z.inj in A; rewrite A end. auto.
    - exfalso. eapply full_no_stop; eassumption.
    - exfalso. eapply full_no_stop; eassumption.
    - match goal with A : first_stop _ _ _ _ _ _, B : first_stop _ _ _ _ _ _ |- _ => destruct (stop_unique _ _ _ _ _ _ A B) as [-> ->] end. auto.
  Qed.
  Lemma ideal_call_det d c r1 d1 r2 d2 : ideal_call d c r1 d1 -> ideal_call d c r2 d2 -> r1 = r2 /\ d1 = d2.
  Proof.
    intros H1 H2. destruct H1; inversion H2; subst; try congruence; [|split; reflexivity]. eapply ideal_go_det; eassumption.
  Qed.
  Lemma ideal_calls_det cs : forall d rs1 d1 rs2 d2, length rs1 = length cs -> length rs2 = length cs ->
    ideal_calls d (combine cs rs1) d1 -> ideal_calls d (combine cs rs2) d2 -> rs1 = rs2 /\ d1 = d2.
  Proof.
    induction cs as [|c cs IH]; intros d rs1 d1 rs2 d2 L1 L2 H1 H2; destruct rs1 as [|r1 rs1], rs2 as [|r2 rs2]; try discriminate; cbn [combine] in *.
    - inversion H1. inversion H2. subst. auto.
    - inversion H1. inversion H2. subst.
      match goal with A : DbgSpec.ideal_call _ _ _ _ _ _ d c r1 ?x, B : DbgSpec.ideal_call _ _ _ _ _ _ d c r2 ?y |- _ => destruct (ideal_call_det _ _ _ _ _ _ A B) as [-> ->] end.
      injection L1 as L1. injection L2 as L2.
      match goal with A : DbgSpec.ideal_calls _ _ _ _ _ _ ?x (combine cs rs1) _, B : DbgSpec.ideal_calls _ _ _ _ _ _ ?x (combine cs rs2) _ |- _ => destruct (IH _ _ _ _ _ L1 L2 A B) as [-> ->] end. auto.
  Qed.

  (** ** Every permitted call is answered *)
  Lemma progress d s c : R d s -> permitted code m0 d c ->
    match call_ c s with
    | Some (Ok _) => True
    | Some _ => False
    | None => exists fuel, c = CRun fuel /\
        let k := if reason_eqb (d_reason d) RSwBreakpoint then 1%nat else 0%nat in
        forall i, (i < fuel)%nat -> ~ In (m_pc (ref (k + i) (d_mach d))) (d_bps d) /\ ref_halt exec (ref (k + i) (d_mach d)) = None
    end.
  Proof.
    intros HR HP. pose proof (R_allowed d s c HR HP) as HA. pose proof (r_inv _ _ HR) as I.
    pose proof (fun k => call_defined exec evicted reg_id reg_size csr_id csr_get csr_set code m0 c (d_mach d) s k I HA) as D.
    destruct (call_ c s) as [[x|k|]|] eqn:E; [exact Logic.I|exact (proj1 (D k) eq_refl)|exact (proj2 (D SignedOverflow) eq_refl)|].
    destruct c as [num|fuel| |r0|a|a| |a|name|name v|a n0|a buf|a|file a| |]; cbn [do_call] in E; try discriminate E.
    exists fuel. split; [reflexivity|]. pose proof (R_clean d s (CRun fuel) HR HP eq_refl) as HC.
    pose proof (run_none exec evicted code m0 bytes0 fuel (d_mach d) s I E (fun i _ H => HC i ltac:(discriminate) H)) as Q. cbv zeta in Q |- *.
    rewrite (r_bps _ _ HR), (r_reason _ _ HR) in Q. exact Q.
  Qed.
End P.
