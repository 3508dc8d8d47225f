(** * Debugger accesses, rejections, Step at a breakpoint *)
From Coq Require Import ZArith List Bool String Lia.
From Verif Require Import CInt TopModel TopSpec DbgSpec TopProofs TopProofs2 TopProofs3.
From Coq Require Import ZifyBool ZifyNat.
Import ListNotations.
Open Scope Z_scope.
Ltac Zify.zify_post_hook ::= Z.div_mod_to_equations.

Lemma armed_in h : forall a l, existsb (Z.eqb a) (fold_left (fun l cr => bps_of (fst cr) (snd cr) l) h l) = armed h a (existsb (Z.eqb a) l).
Proof.
  induction h as [|[c r] h IH]; intros a l; [reflexivity|]. cbn [fold_left armed fst snd]. rewrite IH. f_equal.
  destruct c; try reflexivity; destruct r; try reflexivity; cbn [bps_of existsb].
  - rewrite orb_comm. f_equal. apply Z.eqb_sym.
  - unfold drop_bp. induction l as [|x l IHl]; [reflexivity|]. cbn [filter existsb].
    destruct (Z.eqb_spec x a0) as [-> |N]; cbn [negb existsb].
    + rewrite IHl. destruct (Z.eqb_spec a a0) as [-> |]; cbn [orb]; [rewrite Z.eqb_refl; cbn; now rewrite andb_false_r|reflexivity].
    + rewrite IHl. destruct (Z.eqb_spec a x) as [-> |]; cbn [orb]; [|reflexivity].
      destruct (Z.eqb_spec a0 x); [congruence|reflexivity].
Qed.

Section M.
  Context {C : Type}.
  Notation top := (top (C := C)).
  (** ** Memory access *)
  Lemma write_memory_ok a buf (s : top) : t_status s = Halted -> 0 <= a <= max_address -> Z.of_nat (length buf) < 2 ^ 64 ->
    exists s', write_memory a buf s = (RVal (Z.min (Z.of_nat (length buf)) (max_address - a + 1)), s') /\
      (forall x, t_mem s' x = written (t_mem s) a buf x) /\ same_but_mem s s'.
  Proof.
    intros Hs Ha Hl. unfold write_memory, guarded. rewrite Hs. cbn [is_halted].
    replace (max_address <? a) with false by lia. rewrite (clamp_in a (Z.of_nat (length buf)) Ha) by lia. eexists. split; [reflexivity|].
    split; [|repeat split]. intros x. cbn [t_mem set_mem]. unfold written.
    rewrite <- (write_memory_at (t_mem s) a buf x Ha Hl). now rewrite (clamp_in a (Z.of_nat (length buf)) Ha) by lia.
  Qed.
  Lemma read_memory_ok a n (s : top) : t_status s = Halted -> 0 <= a <= max_address -> 0 <= n < 2 ^ 64 ->
    read_memory a n s = (RBytes (map (fun i => t_mem s (a + Z.of_nat i)) (seq 0 (Z.to_nat (Z.min n (max_address - a + 1))))), s).
  Proof.
    intros Hs Ha Hl. unfold read_memory, guarded. rewrite Hs. cbn [is_halted].
    replace (max_address <? a) with false by lia. rewrite (clamp_in a n Ha Hl). reflexivity.
  Qed.
  Lemma map_nth_seq (l : list Z) n : (n <= length l)%nat -> map (fun i => nth i l 0) (seq 0 n) = firstn n l.
  Proof.
    revert n. induction l as [|x l IH]; intros [|n] H; cbn in *; try reflexivity; try lia.
    f_equal. rewrite <- seq_shift, map_map. cbn. apply IH. lia.
  Qed.
  Lemma read_back a buf (s s' : top) r : t_status s = Halted -> 0 <= a <= max_address -> Z.of_nat (length buf) < 2 ^ 64 ->
    write_memory a buf s = (r, s') ->
    fst (read_memory a (Z.of_nat (length buf)) s') = RBytes (firstn (Z.to_nat (max_address - a + 1)) buf).
  Proof.
    intros Hs Ha Hl HW. destruct (write_memory_ok a buf s Hs Ha Hl) as (s1 & E & M & (_ & _ & S & _)). assert (HS : s1 = s') by (apply (f_equal snd) in E, HW; cbn [snd] in E, HW; now rewrite E in HW). subst s'. clear HW.
    rewrite read_memory_ok by (first [congruence|lia]). cbn [fst]. f_equal.
    set (k := Z.to_nat (Z.min _ _)).
    transitivity (map (fun i => nth i buf 0) (seq 0 k)).
    - apply map_ext_in. intros i Hi. apply in_seq in Hi. rewrite M. unfold written.
      replace ((a <=? a + Z.of_nat i) && (a + Z.of_nat i <? a + Z.of_nat (length buf)) && (a + Z.of_nat i <=? max_address)) with true by (unfold k in *; lia).
      f_equal. lia.
    - rewrite map_nth_seq by (unfold k; lia). unfold k.
      destruct (Z_le_dec (Z.of_nat (length buf)) (max_address - a + 1)) as [L|L].
      + rewrite Z.min_l by lia. rewrite Nat2Z.id, firstn_all. symmetry. apply firstn_all2. lia.
      + rewrite Z.min_r by lia. reflexivity.
  Qed.

  (** ** LoadImage *)
  Lemma chunk_length (l : list Z) : Z.of_nat (length (firstn buffer_size l)) = Z.min 4096 (Z.of_nat (length l)).
  Proof. rewrite firstn_length. unfold buffer_size. lia. Qed.
  Lemma load_chunks_ok fuel : forall l a (s : top), t_status s = Halted -> 0 <= a < 2 ^ 64 -> (length l < fuel)%nat ->
    (l <> [] -> a <= max_address + 1 \/ max_address < a) ->
    exists s', load_chunks fuel l a s =
        ((if (Z.of_nat (length l) =? 0) || (a + Z.of_nat (length l) <=? max_address + 1) then ROk else RErr EInternal), s') /\
      (forall x, t_mem s' x = written (t_mem s) a l x) /\ same_but_mem s s'.
  Proof.
    induction fuel as [|f IH]; intros l a s Hs Ha Hf Hd; [lia|]. cbn [load_chunks].
    pose proof (chunk_length l) as CL. rewrite CL.
    destruct (Z.eqb_spec (Z.min 4096 (Z.of_nat (length l))) 0) as [E0|E0].
    { exists s. replace (Z.of_nat (length l) =? 0) with true by lia. split; [reflexivity|]. split; [|repeat split].
      intros x. unfold written. replace (_ && _) with false by lia. reflexivity. }
    replace (Z.of_nat (length l) =? 0) with false by lia. cbn [orb].
    destruct (Z_le_dec a max_address) as [La|La].
    - destruct (write_memory_ok a (firstn buffer_size l) s Hs ltac:(lia) ltac:(lia)) as (s1 & E1 & M1 & B1). rewrite E1, CL.
      set (g := Z.min 4096 (Z.of_nat (length l))) in *.
      destruct (Z.eqb_spec (Z.min g (max_address - a + 1)) g) as [Eg|Eg].
      + replace (Z.of_nat buffer_size) with 4096 by (unfold buffer_size; lia).
        destruct (Z.eqb_spec g 4096) as [E4|E4].
        * rewrite (Z.mod_small (a + g)) by (unfold max_address in *; lia).
          assert (LS : Z.of_nat (length (skipn buffer_size l)) = Z.of_nat (length l) - 4096) by (rewrite skipn_length; unfold buffer_size; lia).
          destruct (IH (skipn buffer_size l) (a + g) s1) as (s2 & E2 & M2 & B2).
          { destruct B1 as (_ & _ & -> & _). exact Hs. }
          { unfold max_address in *; lia. }
          { rewrite <- Nat2Z.inj_lt || idtac. lia. }
          { lia. }
          exists s2. split; [|split].
          -- rewrite E2. f_equal. rewrite LS.
             replace ((Z.of_nat (length l) - 4096 =? 0) || (a + g + (Z.of_nat (length l) - 4096) <=? max_address + 1))
               with (a + Z.of_nat (length l) <=? max_address + 1) by lia. reflexivity.
          -- intros x. rewrite M2. unfold written. rewrite LS, M1. unfold written. rewrite CL, E4.
             destruct ((a + 4096 <=? x) && (x <? a + 4096 + (Z.of_nat (length l) - 4096)) && (x <=? max_address)) eqn:Ex.
             ++ replace ((a <=? x) && (x <? a + Z.of_nat (length l)) && (x <=? max_address)) with true by lia.
                rewrite <- (firstn_skipn buffer_size l) at 2. rewrite app_nth2.
                ** f_equal. apply Nat2Z.inj. rewrite Nat2Z.inj_sub; lia.
                ** lia.
             ++ destruct ((a <=? x) && (x <? a + 4096) && (x <=? max_address)) eqn:Ey.
                ** replace ((a <=? x) && (x <? a + Z.of_nat (length l)) && (x <=? max_address)) with true by lia.
                   rewrite <- (firstn_skipn buffer_size l) at 2. rewrite app_nth1; [reflexivity|lia].
                ** replace ((a <=? x) && (x <? a + Z.of_nat (length l)) && (x <=? max_address)) with false by lia. reflexivity.
          -- destruct B1 as (b1 & b2 & b3 & b4 & b5 & b6 & b7), B2 as (c1 & c2 & c3 & c4 & c5 & c6 & c7). repeat split; congruence.
        * exists s1. replace (a + Z.of_nat (length l) <=? max_address + 1) with true by lia. split; [reflexivity|]. split; [|exact B1].
          intros x. rewrite M1. rewrite firstn_all2 by (unfold buffer_size; lia). reflexivity.
      + exists s1. replace (a + Z.of_nat (length l) <=? max_address + 1) with false by lia. split; [reflexivity|]. split; [|exact B1].
        intros x. rewrite M1. unfold written. rewrite CL. fold g.
        destruct ((a <=? x) && (x <? a + g) && (x <=? max_address)) eqn:Ex.
        * replace ((a <=? x) && (x <? a + Z.of_nat (length l)) && (x <=? max_address)) with true by lia.
          rewrite <- (firstn_skipn buffer_size l) at 2. rewrite app_nth1; [reflexivity|lia].
        * replace ((a <=? x) && (x <? a + Z.of_nat (length l)) && (x <=? max_address)) with false by lia. reflexivity.
    - unfold write_memory, guarded. rewrite Hs. cbn [is_halted]. replace (max_address <? a) with true by lia.
      exists s. replace (a + Z.of_nat (length l) <=? max_address + 1) with false by lia. split; [reflexivity|]. split; [|repeat split].
      intros x. unfold written. replace (_ && _) with false by lia. reflexivity.
  Qed.
  Lemma load_image_ok l a (s : top) : t_status s = Halted -> 0 <= a < 2 ^ 64 ->
    exists s', load_image (Some l) a s =
        ((if (Z.of_nat (length l) =? 0) || (a + Z.of_nat (length l) <=? max_address + 1) then ROk else RErr EInternal), s') /\
      (forall x, t_mem s' x = written (t_mem s) a l x) /\ same_but_mem s s'.
  Proof. intros Hs Ha. apply load_chunks_ok; [exact Hs|exact Ha|lia|lia]. Qed.

  Lemma load_image_rejected l a (s : top) : t_status s <> Halted -> l <> [] -> load_image (Some l) a s = (RErr EInternal, s).
  Proof.
    intros Hs Hl. assert (E : is_halted (t_status s) = false) by (destruct (t_status s); [contradiction|reflexivity|reflexivity]).
    unfold load_image. cbn [load_chunks]. rewrite chunk_length. destruct l as [|x l]; [contradiction|]. cbn [length].
    replace (Z.min 4096 (Z.of_nat (S (length l))) =? 0) with false by lia. unfold write_memory, guarded. now rewrite E.
  Qed.

End M.

Section R.
  Context {C : Type}.
  Notation top := (top (C := C)).
  Variable reg_id : string -> option Z.
  Variable reg_size : Z -> Z.
  Variable csr_id : string -> option Z.
  Variable csr_get : Z -> C -> Z.
  Variable csr_set : Z -> Z -> C -> C.
  (** ** Registers *)
  Notation read_register := (read_register reg_id reg_size csr_id csr_get).
  Notation write_register := (write_register reg_id reg_size csr_id csr_set).
  Lemma pow_pos n : size_ok n = true -> 0 < 2 ^ (8 * n).
  Proof. intros H. apply Z.pow_pos_nonneg; unfold size_ok in H; lia. Qed.
  Lemma register_round_trip name v (s : top) i : t_status s = Halted -> reg_id name = Some i -> size_ok (reg_size i) = true ->
    exists s', write_register name v s = (ROk, s') /\ read_register name s' = (RVal (v mod 2 ^ (8 * reg_size i)), s') /\
      same_but_arch s s' /\ a_csr (t_arch s') = a_csr (t_arch s) /\
      (forall j, j <> i -> a_regs (t_arch s') j = a_regs (t_arch s) j) /\
      (name <> pc_name -> t_pc s' = t_pc s /\ t_reason s' = t_reason s) /\
      (name = pc_name -> t_arch s' = t_arch s).
  Proof.
    intros Hs Hi Hz. unfold TopModel.write_register, guarded. rewrite Hs, Hi, Hz. cbn [is_halted].
    pose proof (pow_pos _ Hz) as PW.
    destruct (String.eqb_spec name pc_name) as [En|En]; cbn [andb].
    - eexists. split; [reflexivity|]. split; [|split; [|split; [|split; [|split]]]].
      + unfold TopModel.read_register, guarded. destruct (reason_eqb (t_reason s) RSwBreakpoint); cbn [t_status set_pcv set_reason]; rewrite Hs, Hi, Hz; cbn [is_halted];
          unfold reg_value; apply String.eqb_eq in En; rewrite En; cbn [t_pc set_pcv]; rewrite Z.mod_mod by lia; reflexivity.
      + destruct (reason_eqb (t_reason s) RSwBreakpoint); repeat split.
      + destruct (reason_eqb (t_reason s) RSwBreakpoint); reflexivity.
      + intros j _. destruct (reason_eqb (t_reason s) RSwBreakpoint); reflexivity.
      + contradiction.
      + intros _. destruct (reason_eqb (t_reason s) RSwBreakpoint); reflexivity.
    - eexists. split; [reflexivity|]. split; [|split; [|split; [|split; [|split]]]]; try reflexivity; try (repeat split; fail).
      + unfold TopModel.read_register, guarded. cbn [t_status set_arch]. rewrite Hs, Hi, Hz. cbn [is_halted].
        unfold reg_value. apply String.eqb_neq in En. rewrite En. cbn [t_arch set_arch a_regs]. unfold upd1. rewrite Z.eqb_refl.
        rewrite Z.mod_mod by lia. reflexivity.
      + intros j Hj. cbn. unfold upd1. now apply Z.eqb_neq in Hj as ->.
      + intros X; contradiction.
  Qed.
  Lemma csr_access name v (s : top) c : t_status s = Halted -> reg_id name = None -> csr_id name = Some c ->
    write_register name v s = (ROk, set_arch (Arch (a_regs (t_arch s)) (csr_set c (v mod 2 ^ 32) (a_csr (t_arch s)))) s) /\
    read_register name s = (RVal (csr_get c (a_csr (t_arch s)) mod 2 ^ 32), s).
  Proof.
    intros Hs Hi Hc. unfold TopModel.write_register, TopModel.read_register, guarded. rewrite Hs, Hi, Hc. split; reflexivity.
  Qed.
  Lemma register_rejected name v (s : top) :
    (t_status s <> Halted -> read_register name s = (RErr EFailedPrecondition, s) /\ write_register name v s = (RErr EFailedPrecondition, s)) /\
    (t_status s = Halted -> reg_id name = None -> csr_id name = None ->
       read_register name s = (RErr ENotFound, s) /\ write_register name v s = (RErr ENotFound, s)).
  Proof.
    unfold TopModel.write_register, TopModel.read_register, guarded. split.
    - intros Hs. destruct (t_status s); [contradiction|split; reflexivity|split; reflexivity].
    - intros -> -> ->. split; reflexivity.
  Qed.
  Lemma wide_register name v (s : top) i : t_status s = Halted -> reg_id name = Some i -> size_ok (reg_size i) = false -> name <> pc_name ->
    read_register name s = (RErr EInternal, s) /\ write_register name v s = (RErr EInternal, s).
  Proof.
    intros Hs Hi Hz Hn. unfold TopModel.write_register, TopModel.read_register, guarded. rewrite Hs, Hi, Hz.
    apply String.eqb_neq in Hn. rewrite Hn. split; reflexivity.
  Qed.

End R.

Section P.
  Context {C : Type}.
  Notation top := (top (C := C)).
  Notation mach := (mach (C := C)).
  Variable exec : Z -> Z -> arch (C := C) -> (Z -> Z) -> effect (C := C).
  Variable evicted : Z -> Z -> bool.
  Variable reg_id : string -> option Z.
  Variable reg_size : Z -> Z.
  Variable csr_id : string -> option Z.
  Variable csr_get : Z -> C -> Z.
  Variable csr_set : Z -> Z -> C -> C.
  Notation call_ := (do_call exec evicted reg_id reg_size csr_id csr_get csr_set).
  Notation history := (history exec evicted reg_id reg_size csr_id csr_get csr_set).

  (** ** Rejections *)
  Definition state_call (c : call) : bool :=
    match c with
    | CStep n => 0 <? n
    | CSetBp _ | CClearBp _ | CClearAll | CReadReg _ | CWriteReg _ _ | CReadMem _ _ | CWriteMem _ _ | CDisasm _ => true
    | _ => false
    end.
  Lemma rejected c (s : top) : t_status s <> Halted -> state_call c = true -> call_ c s = Some (Ok (RErr EFailedPrecondition, s)).
  Proof.
    intros Hs Hc. assert (E : is_halted (t_status s) = false) by (destruct (t_status s); [contradiction|reflexivity|reflexivity]).
    destruct c; try discriminate Hc; cbn [do_call];
      unfold set_breakpoint, clear_breakpoint, clear_all, read_register, write_register, read_memory, write_memory, disassembly, guarded; rewrite ?E; try reflexivity.
    cbn [state_call] in Hc. unfold step. rewrite E. replace (n <=? 0) with false by lia. reflexivity.
  Qed.
  Lemma run_rejected fuel (s : top) : t_status s = Running -> run exec evicted fuel s = Some (Ok (RErr EFailedPrecondition, s)).
  Proof. intros Hs. unfold run. now rewrite Hs. Qed.
  Lemma step_bad num (s : top) : num <= 0 -> step exec evicted num s = Ok (RErr EInvalidArgument, s).
  Proof. intros H. unfold step. now replace (num <=? 0) with true by lia. Qed.
  (** ** Between calls the core is halted *)
  Lemma call_status c (s s' : top) r : t_status s = Halted -> call_ c s = Some (Ok (r, s')) -> t_status s' = Halted.
  Proof.
    intros Hs HD. destruct c as [num|fuel| |r0|a|a| |a|name|name v|a n|a buf|a|file a| |]; cbn [do_call] in *;
      try (injection HD as <- <-; exact Hs).
    - injection HD as HD. unfold step in HD. destruct (num <=? 0); [now injection HD as <- <-|]. rewrite Hs in HD. cbn [is_halted negb] in HD.
      destruct (if t_need _ then _ else _) as [c s2]. destruct (step_loop _ _ _ _ _ _ _ _) as [[[c' p] np] s3].
      destruct (reason_eqb _ _); [destruct p; [|discriminate]|]; injection HD as <- <-; reflexivity.
    - unfold run in HD. rewrite Hs in HD. cbn [is_running] in HD. destruct (run_loop _ _ _ _ _ _) as [[[p np] s3]|]; [|discriminate].
      destruct (reason_eqb _ _); [destruct p; [|discriminate]|]; injection HD as <- <-; reflexivity.
    - injection HD as HD. unfold halt in HD. rewrite Hs in HD. now injection HD as <- <-.
    - injection HD as <- <-. unfold request_halt. destruct (_ || _); exact Hs.
    - injection HD as HD. unfold set_breakpoint, guarded in HD. destruct (is_halted _); [|now injection HD as <- <-].
      destruct (has_bp a s); injection HD as <- <-; [exact Hs|].
      destruct (breakpoint_ctl a (set_bps (a :: t_bps s) s)) as (_ & -> & _). exact Hs.
    - injection HD as HD. unfold clear_breakpoint, guarded in HD. destruct (is_halted _); [|now injection HD as <- <-].
      destruct (has_bp a s); injection HD as <- <-; [|exact Hs].
      destruct (original_ctl a (set_bps (drop_bp a (t_bps s)) s)) as (_ & -> & _). exact Hs.
    - injection HD as HD. unfold clear_all, guarded in HD. destruct (is_halted _); injection HD as <- <-; [|exact Hs].
      assert (F : forall l (x : top), t_status (fold_left (fun s a => write_original a (set_bps (drop_bp a (t_bps s)) s)) l x) = t_status x).
      { induction l as [|b l IH]; intros x; cbn [fold_left]; [reflexivity|]. rewrite IH.
        destruct (original_ctl b (set_bps (drop_bp b (t_bps x)) x)) as (_ & -> & _). reflexivity. }
      rewrite F. exact Hs.
    - injection HD as HD. unfold TopModel.read_register, guarded in HD. destruct (is_halted _); [|now injection HD as <- <-].
      destruct (reg_id name); [destruct (size_ok _)|destruct (csr_id name)]; now injection HD as <- <-.
    - injection HD as HD. unfold TopModel.write_register, guarded in HD. destruct (is_halted _); [|now injection HD as <- <-].
      destruct (reg_id name); [|destruct (csr_id name); now injection HD as <- <-].
      destruct (_ && _); destruct (size_ok _); injection HD as <- <-; try exact Hs; destruct (String.eqb _ _); exact Hs.
    - injection HD as HD. unfold read_memory, guarded in HD. destruct (is_halted _); [|now injection HD as <- <-].
      destruct (_ <? _); now injection HD as <- <-.
    - injection HD as HD. unfold write_memory, guarded in HD. destruct (is_halted _); [|now injection HD as <- <-].
      destruct (_ <? _); now injection HD as <- <-.
    - injection HD as HD. unfold disassembly, guarded in HD. destruct (is_halted _); [|now injection HD as <- <-].
      destruct (has_bp a s).
      + destruct (fetch_ctl evicted a (write_original a s)) as (_ & F & _). destruct (fetch _ _ _) as [w s1]. cbn [snd] in F.
        injection HD as <- <-. destruct (breakpoint_ctl a s1) as (_ & -> & _). destruct (original_ctl a s) as (_ & O & _). congruence.
      + destruct (fetch_ctl evicted a s) as (_ & F & _). destruct (fetch _ _ _) as [w s1]. cbn [snd] in F. injection HD as <- <-. congruence.
    - injection HD as HD. unfold load_image in HD. destruct file as [l|]; [|now injection HD as <- <-].
      destruct (load_chunks_keeps (S (length l)) l a s) as ((_ & T & _) & _). rewrite HD in T. cbn [snd] in T. congruence.
  Qed.
  Lemma history_status P s h s' : history P s h s' -> t_status s = Halted -> t_status s' = Halted.
  Proof. induction 1 as [|s c r s1 h s2 HP HD HH IH]; [auto|]. intros Hs. apply IH. eapply call_status; eassumption. Qed.

  (** ** Step at a breakpoint *)
  Variable code : Z -> Prop.
  Variable m0 : mach.
  Hypothesis bytes0 : bytes_ok (m_mem m0).
  Notation Inv := (Inv code m0).
  Lemma step_at_bp_halt num m (s : top) r : Inv m s -> t_reason s = RSwBreakpoint -> 0 < num -> clean exec code m ->
    ref_halt exec m = Some r ->
    exists s', step exec evicted num s = Ok (RVal 1, s') /\ Inv (ref exec 1 m) s' /\ t_reason s' = r.
  Proof.
    intros HI HR Hn HC HH. pose proof (proj2 (i_need _ _ _ _ HI) HR) as En.
    unfold step. replace (num <=? 0) with false by lia. rewrite (i_status _ _ _ _ HI). cbn [is_halted negb].
    set (s1 := set_halted false (set_status SingleStep s)). change (t_need s1) with (t_need s). rewrite En.
    assert (K1 : K code m0 m (set_need false s1)) by (apply (K_flags _ _ _ s); [apply (i_K _ _ _ _ HI)|reflexivity..]).
    destruct (step_past_ok exec evicted code m0 bytes0 m (set_need false s1) K1 HC) as (k1 & k2 & k3 & k4 & k5 & k6);
      [apply (i_at _ _ _ _ HI En)|]. cbv zeta in *. set (s2 := step_past exec evicted (set_need false s1)) in *.
    unfold halt_effect in k6. rewrite HH in k6. destruct k6 as (h1 & h2 & h3 & h4).
    assert (SL : forall f, step_loop exec evicted f num 1 None (t_pc s2) s2 = (1, None, t_pc s2, s2)).
    { intros f. destruct f; cbn [step_loop]; rewrite h1; reflexivity. }
    rewrite SL. rewrite h2. apply reason_eqb_neq in h3 as Q. rewrite Q. cbn [set_pc set_pcv t_halted]. rewrite h1. cbn [negb].
    eexists. split; [reflexivity|]. cbn [t_need set_need] in k4. split; [|exact h2].
    constructor; cbn [t_status t_need t_reason set_status set_pc set_pcv t_pc t_bps].
    - apply (K_flags _ _ _ s2); try reflexivity; [exact k1|]. cbn [t_pc set_status set_pc set_pcv].
      rewrite (k_pc _ _ _ _ k1). rewrite Z.mod_small; [reflexivity|apply (k_range _ _ _ _ k1)].
    - reflexivity.
    - rewrite k4, h2. split; [discriminate|contradiction].
    - rewrite k4. discriminate.
  Qed.
  Lemma step_one_at_bp m (s : top) : Inv m s -> t_reason s = RSwBreakpoint -> clean exec code m -> ref_halt exec m = None ->
    step exec evicted 1 s = UB Uninitialised.
  Proof.
    intros HI HR HC HH. pose proof (proj2 (i_need _ _ _ _ HI) HR) as En.
    unfold step. replace (1 <=? 0) with false by lia. rewrite (i_status _ _ _ _ HI). cbn [is_halted negb].
    set (s1 := set_halted false (set_status SingleStep s)). change (t_need s1) with (t_need s). rewrite En.
    assert (K1 : K code m0 m (set_need false s1)) by (apply (K_flags _ _ _ s); [apply (i_K _ _ _ _ HI)|reflexivity..]).
    destruct (step_past_ok exec evicted code m0 bytes0 m (set_need false s1) K1 HC) as (k1 & k2 & k3 & k4 & k5 & k6);
      [apply (i_at _ _ _ _ HI En)|]. cbv zeta in *. set (s2 := step_past exec evicted (set_need false s1)) in *.
    unfold halt_effect in k6. rewrite HH in k6. destruct k6 as (h1 & h2). cbn in h1.
    change (Z.to_nat 1) with 1%nat. cbn [step_loop]. rewrite h1. cbn [negb andb]. replace (1 <? 1) with false by lia.
    change (t_reason (set_need false s1)) with (t_reason s) in h2. rewrite h2, HR. reflexivity.
  Qed.

  (** ** A Run that does not end meets no breakpoint and no halt *)
  Lemma run_loop_none fuel : forall m (s : top) pc,
    run_loop exec evicted fuel pc (m_pc m) s = None ->
    K code m0 m s -> t_halted s = false -> t_need s = false ->
    (forall i, (i < fuel)%nat -> (forall j, (j < i)%nat -> quiet exec (t_bps s) (ref exec j m)) -> ~ In (m_pc (ref exec i m)) (t_bps s) ->
       clean exec code (ref exec i m)) ->
    forall i, (i < fuel)%nat -> quiet exec (t_bps s) (ref exec i m).
  Proof.
    induction fuel as [|f IH]; intros m s pc HR HK Hh Hn HC i Hi; [lia|].
    cbn [run_loop] in HR; rewrite Hh in HR; cbn [negb] in HR.
    destruct (bp_dec s (m_pc m)) as [Hb|Hb].
    - pose proof (iteration_bp exec evicted code m0 false m s HK Hb) as I.
      destruct (iteration _ _ _ _ s) as [[go n1] s1]. destruct I as (-> & _). discriminate.
    - pose proof (HC 0%nat ltac:(lia) ltac:(intros; lia) Hb) as C0. cbn [ref] in C0.
      pose proof (iteration_step exec evicted code m0 false m s HK C0 Hb Hh) as I.
      destruct (iteration _ _ _ _ s) as [[go n1] s1].
      destruct I as (K1 & -> & B & S & N & T & H & Hgo). unfold halt_effect in H.
      destruct (ref_halt exec m) as [r|] eqn:Er; subst go; [discriminate|].
      destruct H as (h1 & h2). rewrite (k_pc _ _ _ _ K1) in HR.
      apply (quiet_shift exec (t_bps s) m f); [split; assumption| |exact Hi].
      rewrite <- B. apply (IH _ _ _ HR K1); [congruence|congruence|]. intros k Hk Q N'. rewrite ref_shift in *. apply HC; [lia| |rewrite <- B; exact N'].
      apply quiet_shift; [split; assumption|]. intros j Hj. rewrite <- B. now apply Q.
  Qed.
  Lemma run_none fuel m (s : top) : Inv m s -> run exec evicted fuel s = None ->
    (forall i, (i <= fuel)%nat -> gets_to exec (t_bps s) (reason_eqb (t_reason s) RSwBreakpoint) m i -> clean exec code (ref exec i m)) ->
    let d := if reason_eqb (t_reason s) RSwBreakpoint then 1%nat else 0%nat in
    forall i, (i < fuel)%nat -> ~ In (m_pc (ref exec (d + i) m)) (t_bps s) /\ ref_halt exec (ref exec (d + i) m) = None.
  Proof.
    intros HI HR HC d i Hi. unfold run in HR. rewrite (i_status _ _ _ _ HI) in HR. cbn [is_running] in HR.
    set (s1 := if t_need s then step_past exec evicted (set_need false s) else s) in *.
    set (s2 := set_halted false (set_status Running s1)) in *.
    destruct (run_loop _ _ fuel None (t_pc s2) s2) as [[[p np] s3]|] eqn:E; [destruct (reason_eqb _ _); [destruct p|]; discriminate|].
    assert (Ed : d = if t_need s then 1%nat else 0%nat).
    { unfold d. destruct (reason_eqb (t_reason s) RSwBreakpoint) eqn:Q.
      - apply reason_eqb_eq in Q. apply (i_need _ _ _ _ HI) in Q. now rewrite Q.
      - apply reason_eqb_neq in Q. rewrite (Inv_need _ _ _ _ HI Q). reflexivity. }
    assert (ST : K code m0 (ref exec d m) s2 /\ t_need s2 = false /\ t_bps s2 = t_bps s).
    { unfold s2, s1 in *. destruct (t_need s) eqn:En; rewrite Ed.
      - pose proof (i_at _ _ _ _ HI En) as Hin.
        assert (KN : K code m0 m (set_need false s)) by (apply (K_flags _ _ _ s); [apply (i_K _ _ _ _ HI)|reflexivity..]).
        destruct (step_past_ok exec evicted code m0 bytes0 m (set_need false s) KN) as (k1 & k2 & k3 & k4 & k5 & k6);
          [apply (HC 0%nat); [lia|rewrite (proj1 (i_need _ _ _ _ HI) En); split; [intros; lia|left; auto]]|exact Hin|].
        split; [|split; [exact k4|exact k2]]. eapply K_flags; [exact k1|reflexivity..].
      - split; [|split; [exact En|reflexivity]]. apply (K_flags _ _ _ s); [apply (i_K _ _ _ _ HI)|reflexivity..]. }
    destruct ST as (K2 & N2 & B2). rewrite (k_pc _ _ _ _ K2) in E.
    assert (RS : forall i, ref exec i (ref exec d m) = ref exec (d + i) m).
    { intros j. rewrite Nat.add_comm. induction j as [|j IH]; [reflexivity|]. cbn [ref Nat.add]. now rewrite IH. }
    rewrite <- RS, <- B2. apply (run_loop_none fuel (ref exec d m) s2 None E K2 eq_refl N2); [|exact Hi].
    intros j Hj Q N'. rewrite RS in *. rewrite B2 in *. apply HC; [unfold d; destruct (reason_eqb _ _); lia|].
    unfold d in *. destruct (reason_eqb (t_reason s) RSwBreakpoint).
    - split; [|right; exact N']. intros [|j'] Hj'; [left; auto|right]. change (Datatypes.S j') with (1 + j')%nat. rewrite <- RS. apply Q. lia.
    - split; [|right; exact N']. intros j' Hj'. right. change j' with (0 + j')%nat. rewrite <- RS. apply Q. lia.
  Qed.
End P.
