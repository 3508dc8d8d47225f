(** * Proofs about Renode sessions *)
From Coq Require Import ZArith List Bool String Ascii Lia ZifyBool ZifyNat.
From Verif Require Import CInt TopModel TopSpec PropTop RenodeModel RenodeSpec RenodeProofs CliModel RenodeTopModel RenodeTopSpec.
Import ListNotations.
Open Scope Z_scope.

Lemma text_chars n : text (chars n) = n.
Proof.
  induction n as [|c n IH]; [reflexivity|]. cbn [chars text]. rewrite IH, Nat2Z.id, ascii_nat_embedding. reflexivity.
Qed.

Section S.
  Context {C : Type}.
  Variable exec : Z -> Z -> arch (C := C) -> (Z -> Z) -> effect (C := C).
  Variable evicted : Z -> Z -> bool.
  Variable reg_id : string -> option Z.
  Variable reg_size : Z -> Z.
  Variable csr_id : string -> option Z.
  Variable csr_get : Z -> C -> Z.
  Variable csr_set : Z -> Z -> C -> C.
  Variable boot : arch (C := C).
  Variable boot_pc : Z.
  Context {File Blocks : Type}.
  Variable create_shared : Z * Z * Blocks -> top (C := C).
  Variable files : File -> option (list Z).
  Variable elf : File -> (Z -> Z) -> option Z * (Z -> Z).
  Variable enums : dbgreg -> Z.
  Variable names : Z -> option string.
  Notation ops_ := (top_ops exec evicted reg_id reg_size csr_id csr_get csr_set boot boot_pc create_shared files elf enums names).
  Notation ref := (ref exec).
  Notation ref_halt := (ref_halt exec).
  Notation executes := (executes exec).
  Notation behaves := (behaves exec reg_id reg_size csr_id csr_get csr_set files elf names).
  Notation concerns := (concerns exec reg_id reg_size csr_id csr_get csr_set boot boot_pc files elf names).
  Notation session := (session exec reg_id reg_size csr_id csr_get csr_set boot boot_pc files elf names).
  Notation visited := (visited exec reg_id reg_size csr_id csr_get csr_set boot boot_pc files elf names).

  Lemma ref_add b a m : ref (b + a) m = ref b (ref a m).
  Proof. induction b as [|b IH]; [reflexivity|]. cbn [Nat.add TopSpec.ref]. now rewrite IH. Qed.

  Variable code : Z -> Z.
  Definition good (m : mach (C := C)) : Prop :=
    word_at m = code (m_pc m) /\ 0 <= m_pc (ref_step exec m) < 2 ^ 32 /\
    (forall r, ref_halt m = Some r -> r = RUserRequest \/ r = RAbort \/ r = RSemihost).
  Definition cached (s : top (C := C)) : Prop := forall a w, t_cache s a = Some w -> w = code a.
  (** The object shows the state [m]. *)
  Definition like (m : mach (C := C)) (s : top (C := C)) : Prop :=
    t_arch s = m_arch m /\ t_mem s = m_mem m /\ t_bps s = [] /\ t_need s = false /\ cached s.

  Lemma fetch_like m s : good m -> like m s ->
    exists s', fetch evicted (m_pc m) s = (word_at m, s') /\ like m s' /\ t_status s' = t_status s /\
      t_halted s' = t_halted s /\ t_reason s' = t_reason s.
  Proof.
    intros (G & _) (L1 & L2 & L3 & L4 & L5). unfold fetch.
    assert (D : (exists w, (if evicted (t_tick s) (m_pc m) then None else t_cache s (m_pc m)) = Some w /\ t_cache s (m_pc m) = Some w) \/
                (if evicted (t_tick s) (m_pc m) then None else t_cache s (m_pc m)) = None).
    { destruct (evicted (t_tick s) (m_pc m)); [now right|].
      destruct (t_cache s (m_pc m)) as [w|] eqn:E; [left; exists w; auto|now right]. }
    destruct D as [(w & -> & Ec)| ->].
    - rewrite (L5 _ _ Ec), <- G. eexists. split; [reflexivity|]. split; [|repeat split]. exact (conj L1 (conj L2 (conj L3 (conj L4 L5)))).
    - rewrite L2. fold (word_at m). eexists. split; [reflexivity|]. split; [|repeat split].
      refine (conj L1 (conj L2 (conj L3 (conj L4 _)))). intros a w. cbn [tick set_cache t_cache]. unfold upd1.
      destruct (a =? m_pc m) eqn:E; [|apply L5]. apply Z.eqb_eq in E. intros X. injection X as <-. now rewrite G, E.
  Qed.

  Lemma execute_like m s : good m -> like m s -> t_halted s = false ->
    let s' := execute exec (word_at m) (m_pc m) s in
    like (ref_step exec m) s' /\ t_pc s' = m_pc (ref_step exec m) /\ t_status s' = t_status s /\
    match ref_halt m with
    | Some r => t_halted s' = true /\ t_reason s' = r
    | None => t_halted s' = false /\ t_reason s' = t_reason s
    end.
  Proof.
    intros (_ & Hp & Hr) (L1 & L2 & L3 & L4 & L5) Hh. unfold ref_step, TopSpec.ref_halt in *. unfold execute, like.
    destruct (word_at m =? ebreak) eqn:E.
    - unfold has_bp. cbn [set_pc set_pcv t_bps m_arch m_mem m_pc]. rewrite L3. cbn.
      repeat (split; [first [reflexivity|assumption|now repeat split]|]). auto.
    - cbn [m_pc m_arch m_mem] in *. cbn [set_pc set_pcv t_arch t_mem]. rewrite L1, L2.
      destruct (f_halt (exec (word_at m) (m_pc m) (m_arch m) (m_mem m))) as [r|].
      + unfold request_halt. destruct (Hr r eq_refl) as [->|[->| ->]]; cbn; repeat split; assumption.
      + cbn. repeat split; assumption.
  Qed.

  (** The loop of CoralNPUTop::Step. *)
  Lemma top_loop num : forall fuel count pc m s, num - count = Z.of_nat fuel -> like m s -> t_halted s = false ->
    (forall i, (i < fuel)%nat -> (forall i', (i' < i)%nat -> ref_halt (ref i' m) = None) -> good (ref i m)) ->
    exists k p' s', TopModel.step_loop exec evicted fuel num count pc (m_pc m) s = (count + Z.of_nat k, p', m_pc (ref k m), s') /\
      (k <= fuel)%nat /\ like (ref k m) s' /\ t_status s' = t_status s /\
      ((k = fuel /\ t_halted s' = false /\ t_reason s' = t_reason s /\ forall i, (i < k)%nat -> ref_halt (ref i m) = None) \/
       (exists n r, k = S n /\ t_halted s' = true /\ t_reason s' = r /\ ref_halt (ref n m) = Some r /\
          forall i, (i < n)%nat -> ref_halt (ref i m) = None)) /\
      ((0 < k)%nat -> 0 <= m_pc (ref k m) < 2 ^ 32).
  Proof.
    induction fuel as [|f IH]; intros count pc m s Hn L Hh G; cbn [TopModel.step_loop]; rewrite Hh; cbn [negb andb].
    - replace (count <? num) with false by lia. exists 0%nat, pc, s. rewrite Z.add_0_r. split; [reflexivity|]. split; [lia|].
      split; [exact L|]. split; [reflexivity|]. split; [left; repeat split; [exact Hh|intros; lia]|]. intros; lia.
    - replace (count <? num) with true by lia.
      assert (G0 : good m) by (apply (G 0%nat); [lia|intros; lia]).
      destruct (fetch_like m s G0 L) as (s1 & E & L1 & S1 & H1 & R1).
      pose proof (execute_like m s1 G0 L1 (eq_trans H1 Hh)) as X. cbv zeta in X.
      unfold iteration. rewrite E. set (s2 := execute exec (word_at m) (m_pc m) s1) in *.
      destruct X as (X1 & X2 & X3 & X4). destruct (ref_halt m) as [r|] eqn:Er.
      + destruct X4 as [Y1 Y2]. rewrite Y1. cbn [negb]. rewrite Y2.
        assert (Ha : reason_eqb r RActionPoint = false) by (destruct G0 as (_ & _ & Gr); destruct (Gr r Er) as [->|[->| ->]]; reflexivity).
        rewrite Ha. exists 1%nat, (Some (m_pc m)), s2. cbn [TopSpec.ref]. split; [now rewrite X2|]. split; [lia|].
        split; [exact X1|]. split; [congruence|]. split.
        * right. exists 0%nat, r. repeat split; try assumption. intros; lia.
        * intros _. exact (proj1 (proj2 G0)).
      + destruct X4 as [Y1 Y2]. rewrite Y1. cbn [negb]. rewrite X2.
        destruct (IH (count + 1) (Some (m_pc m)) (ref_step exec m) s2) as (k & p' & s' & E' & K1 & K2 & K3 & K4 & K5); [lia|exact X1|exact Y1| |].
        { intros i Hi Hf. change (ref_step exec m) with (ref 1 m). rewrite <- ref_add. apply G; [lia|].
          intros i' Hi'. destruct i' as [|i']; [exact Er|]. specialize (Hf i' ltac:(lia)).
          change (ref_step exec m) with (ref 1 m) in Hf. rewrite <- ref_add in Hf. now replace (S i') with (i' + 1)%nat by lia. }
        assert (R : forall i, ref i (ref_step exec m) = ref (S i) m).
        { intros i. change (ref_step exec m) with (ref 1 m). rewrite <- ref_add. f_equal. lia. }
        exists (S k), p', s'. rewrite E', <- R. split; [f_equal; f_equal; f_equal; lia|]. split; [lia|]. split; [exact K2|].
        split; [congruence|]. split.
        * destruct K4 as [(-> & A1 & A2 & A3)|(n & r & -> & A1 & A2 & A3 & A4)].
          -- left. split; [reflexivity|]. split; [exact A1|]. split; [congruence|]. intros i Hi. destruct i as [|i]; [exact Er|].
             rewrite <- R. apply A3. lia.
          -- right. exists (S n), r. split; [reflexivity|]. split; [exact A1|]. split; [exact A2|]. rewrite <- R. split; [exact A3|].
             intros i Hi. destruct i as [|i]; [exact Er|]. rewrite <- R. apply A4. lia.
        * intros _. destruct k as [|k]; [exact (proj1 (proj2 G0))|]. apply K5. lia.
  Qed.

  (** An object that shows the instance [x]. *)
  Definition holds (x : inst (C := C)) (s : top (C := C)) : Prop :=
    like (n_mach x) s /\ t_pc s = m_pc (n_mach x) /\ t_status s = Halted /\ t_reason s = n_last x /\ n_last x <> RSwBreakpoint.
  Lemma top_step x s num : 0 < num -> holds x s ->
    (forall i, Z.of_nat i < num -> (forall i', (i' < i)%nat -> ref_halt (ref i' (n_mach x)) = None) -> good (ref i (n_mach x))) ->
    exists k last s', TopModel.step exec evicted num s = Ok (RVal (Z.of_nat k), s') /\ (0 < k)%nat /\ executes (n_mach x) num k last /\
      holds (Inst (ref k (n_mach x)) last) s' /\ (last = RNone \/ last = RUserRequest \/ last = RAbort \/ last = RSemihost) /\
      (last = RNone -> Z.of_nat k = num).
  Proof.
    intros Hn (L & P & St & Re & Nb) G. unfold TopModel.step. replace (num <=? 0) with false by lia. rewrite St. cbn [is_halted negb].
    set (s1 := set_halted false (set_status SingleStep s)).
    assert (L1 : like (n_mach x) s1) by exact L. assert (Hh : t_halted s1 = false) by reflexivity.
    assert (N1 : t_need s1 = false) by (exact (proj1 (proj2 (proj2 (proj2 L))))). rewrite N1.
    change (t_pc s1) with (t_pc s). rewrite P.
    destruct (top_loop num (Z.to_nat num) 0 None (n_mach x) s1) as (k & p' & s' & E & K1 & K2 & K3 & K4 & K5); [lia|exact L1|exact Hh| |].
    { intros i Hi. apply G. lia. }
    rewrite E, Z.add_0_l.
    assert (K0 : (0 < k)%nat) by (destruct K4 as [(-> & _)|(n & r & -> & _)]; lia). specialize (K5 K0).
    destruct K4 as [(A0 & A1 & A2 & A3)|(n & r & A0 & A1 & A2 & A3 & A4)].
    - assert (B : reason_eqb (t_reason s') RSwBreakpoint = false).
      { rewrite A2. change (t_reason s1) with (t_reason s). rewrite Re. destruct (n_last x); try reflexivity. contradiction. }
      rewrite B. exists k, RNone. eexists. split; [reflexivity|]. split; [exact K0|]. split.
      { split; [lia|]. split; [intros i Hi; apply A3; lia|]. left. split; [lia|]. split; [reflexivity|exact A3]. }
      split.
      { unfold holds, set_pc. cbn [n_mach n_last]. cbn [set_status set_pcv t_halted]. rewrite A1. cbn [negb].
        split; [exact K2|]. cbn [t_pc set_reason set_pcv t_status t_reason]. split; [apply Z.mod_small; exact K5|].
        repeat split. discriminate. }
      split; [now left|]. intros _. lia.
    - subst k. assert (Gn : good (ref n (n_mach x))) by (apply G; [lia|exact A4]).
      destruct Gn as (_ & _ & Gr). specialize (Gr r A3).
      assert (B : reason_eqb (t_reason s') RSwBreakpoint = false) by (rewrite A2; destruct Gr as [->|[->| ->]]; reflexivity).
      rewrite B. exists (S n), r. eexists. split; [reflexivity|]. split; [exact K0|]. split.
      { split; [lia|]. split; [intros i Hi; apply A4; lia|]. right. split; [lia|]. now replace (S n - 1)%nat with n by lia. }
      split.
      { unfold holds, set_pc. cbn [n_mach n_last]. cbn [set_status set_pcv t_halted]. rewrite A1. cbn [negb].
        split; [exact K2|]. cbn [t_pc set_reason set_pcv t_status t_reason]. split; [apply Z.mod_small; exact K5|].
        split; [reflexivity|]. split; [exact A2|]. destruct Gr as [->|[->| ->]]; discriminate. }
      split; [tauto|]. intros ->. destruct Gr as [?|[?|?]]; discriminate.
  Qed.

  (** The loop of RenodeAgent::Step. *)
  Lemma renode_loop : forall fuel n total x s tr total' st d' tr', 0 <= n < 2 ^ 64 -> holds x s -> (n = 0 -> n_last x = RNone) ->
    (forall i, Z.of_nat i < n -> (forall i', (i' < i)%nat -> ref_halt (ref i' (n_mach x)) = None) -> good (ref i (n_mach x))) ->
    RenodeModel.step_loop ops_ fuel n total (Ok s) tr = Some (total', st, d', tr') ->
    exists k last s', executes (n_mach x) n k last /\ d' = Ok s' /\ holds (Inst (ref k (n_mach x)) last) s' /\
      total' mod 2 ^ 32 = (total + Z.of_nat k) mod 2 ^ 32 /\ (0 < n -> 0 <= total' < 2 ^ 32) /\ st = step_code last.
  Proof.
    induction fuel as [|fuel IH]; intros n total x s tr total' st d' tr' Hn H H0 G E; cbn [RenodeModel.step_loop] in E;
      rewrite !Z.gtb_ltb in E.
    - destruct (0 <? n) eqn:N; [discriminate|]. assert (n = 0) by lia. subst n. injection E as <- <- <- <-.
      exists 0%nat, RNone, s. split; [split; [lia|]; split; [intros; lia|left; repeat split; intros; lia]|].
      split; [reflexivity|]. split; [destruct x as [m l]; cbn [n_last n_mach TopSpec.ref] in *; rewrite <- (H0 eq_refl); exact H|].
      split; [f_equal; lia|]. split; [lia|reflexivity].
    - destruct (0 <? n) eqn:N.
      2:{ assert (n = 0) by lia. subst n. injection E as <- <- <- <-.
          exists 0%nat, RNone, s. split; [split; [lia|]; split; [intros; lia|left; repeat split; intros; lia]|].
          split; [reflexivity|]. split; [destruct x as [m l]; cbn [n_last n_mach TopSpec.ref] in *; rewrite <- (H0 eq_refl); exact H|].
          split; [f_equal; lia|]. split; [lia|reflexivity]. }
      set (c := if int_max <? n then int_max else n) in *.
      assert (Hc : 0 < c <= n) by (unfold c, int_max; destruct (2147483647 <? n) eqn:Q; lia).
      destruct (top_step x s c) as (k & last & s' & E1 & K0 & K1 & K2 & K3 & K4); [lia|exact H| |].
      { intros i Hi. apply G. lia. }
      assert (Ed : d_step ops_ c (Ok s) = (Some (Z.of_nat k), Ok s')) by (cbn [d_step top_ops]; unfold obj_step; rewrite E1; reflexivity).
      rewrite Ed in E.
      assert (Er : d_reason ops_ (Ok s') = Some (to_hreason last)).
      { cbn [d_reason top_ops obj_reason]. destruct K2 as (_ & _ & _ & R & _). rewrite R. reflexivity. }
      rewrite Er in E.
      assert (Fin : last <> RNone -> executes (n_mach x) n k last).
      { intros Nl. destruct K1 as (Q1 & Q2 & [(_ & Q3 & _)|Q3]); [contradiction|]. split; [lia|]. split; [exact Q2|]. now right. }
      assert (T : u32 (total + Z.of_nat k) mod 2 ^ 32 = (total + Z.of_nat k) mod 2 ^ 32) by (unfold u32; rewrite Z.mod_mod; [reflexivity|discriminate]).
      assert (T' : 0 <= u32 (total + Z.of_nat k) < 2 ^ 32) by (unfold u32; apply Z.mod_pos_bound; reflexivity).
      destruct K3 as [->|[->|[->| ->]]]; cbn [to_hreason] in E.
      + specialize (K4 eq_refl). rewrite K4 in E. rewrite Z.ltb_irrefl in E.
        rewrite Z.mod_small in E by lia.
        destruct K1 as (Q1 & Q2 & [(_ & _ & Q3)|(_ & Q3)]).
        2:{ exfalso. assert (Gn : good (ref (k - 1) (n_mach x))) by (apply G; [lia|intros i Hi; apply Q2; lia]).
            destruct Gn as (_ & _ & Gr). destruct (Gr _ Q3) as [?|[?|?]]; discriminate. }
        destruct (IH (n - c) (u32 (total + c)) (Inst (ref k (n_mach x)) RNone) s' (tr ++ [(c, Some c)]) total' st d' tr') as (k2 & l2 & s2 & M1 & M2 & M3 & M4 & M5 & M6);
          [lia|exact K2|reflexivity| |exact E|].
        { intros i Hi Hf. cbn [n_mach] in *. rewrite <- ref_add. apply G; [lia|]. intros i' Hi'.
          destruct (Nat.lt_ge_cases i' k) as [Hlt|Hge]; [apply Q3; exact Hlt|].
          replace i' with ((i' - k) + k)%nat by lia. rewrite ref_add. apply Hf. lia. }
        cbn [n_mach] in *. exists (k2 + k)%nat, l2, s2. split.
        { destruct M1 as (A1 & A2 & A3). split; [lia|]. split.
          - intros i Hi. destruct (Nat.lt_ge_cases i k) as [Hlt|Hge]; [apply Q3; exact Hlt|].
            replace i with ((i - k) + k)%nat by lia. rewrite ref_add. apply A2. lia.
          - destruct A3 as [(B1 & B2 & B3)|(B1 & B2)].
            + left. split; [lia|]. split; [exact B2|]. intros i Hi. destruct (Nat.lt_ge_cases i k) as [Hlt|Hge]; [apply Q3; exact Hlt|].
              replace i with ((i - k) + k)%nat by lia. rewrite ref_add. apply B3. lia.
            + right. split; [lia|]. replace (k2 + k - 1)%nat with ((k2 - 1) + k)%nat by lia. rewrite ref_add. exact B2. }
        split; [exact M2|]. split; [rewrite ref_add; exact M3|]. split; [|split; [|exact M6]].
        * rewrite M4. unfold u32. rewrite Zplus_mod_idemp_l. f_equal. lia.
        * intros _. destruct (Z.eq_dec (n - c) 0) as [Z0|NZ]; [|apply M5; lia].
          rewrite Z0 in E. destruct fuel; cbn [RenodeModel.step_loop] in E; cbn [Z.gtb Z.compare] in E; injection E as <- _ _ _; rewrite <- K4; exact T'.
      + injection E as <- <- <- <-. exists k, RUserRequest, s'. split; [apply Fin; discriminate|]. repeat (split; [first [reflexivity|assumption|intros; assumption]|]). reflexivity.
      + injection E as <- <- <- <-. exists k, RAbort, s'. split; [apply Fin; discriminate|]. repeat (split; [first [reflexivity|assumption|intros; assumption]|]). reflexivity.
      + injection E as <- <- <- <-. exists k, RSemihost, s'. split; [apply Fin; discriminate|]. repeat (split; [first [reflexivity|assumption|intros; assumption]|]). reflexivity.
  Qed.

  (** Writes through the object's memory interface. *)
  Lemma wm_set_mem a l (s : top (C := C)) : exists x mm, write_memory a l s = (x, set_mem mm s).
  Proof.
    assert (I : exists mm, s = set_mem mm s) by (exists (t_mem s); destruct s; reflexivity). destruct I as [mm I].
    unfold write_memory, guarded. destruct (is_halted _); [|exists (RErr EFailedPrecondition), mm; now rewrite <- I].
    destruct (_ <? _); [exists (RErr EInvalidArgument), mm; now rewrite <- I|]. eexists; eexists; reflexivity.
  Qed.
  Lemma chunks_set_mem fuel : forall l a (s : top (C := C)), exists x mm, load_chunks fuel l a s = (x, set_mem mm s).
  Proof.
    induction fuel as [|f IH]; intros l a s; assert (I : exists mm, s = set_mem mm s) by (exists (t_mem s); destruct s; reflexivity); destruct I as [mm I].
    - exists (RErr EInternal), mm. now rewrite <- I.
    - cbn [load_chunks]. destruct (_ =? 0); [exists ROk, mm; now rewrite <- I|].
      destruct (wm_set_mem a (firstn buffer_size l) s) as (x & m1 & ->).
      destruct x as [|v| |]; try (eexists; eexists; reflexivity).
      destruct (_ =? _); [|eexists; eexists; reflexivity]. destruct (_ =? _); [|eexists; eexists; reflexivity].
      destruct (IH (skipn buffer_size l) ((a + Z.of_nat (length (firstn buffer_size l))) mod 2 ^ 64) (set_mem m1 s)) as (y & m2 & ->).
      exists y, m2. reflexivity.
  Qed.
  Lemma holds_mem m pcx l s mm : holds (Inst m l) s -> t_pc s = pcx -> holds (Inst (Mach pcx (m_arch m) mm) l) (set_mem mm s).
  Proof.
    intros ((L1 & L2 & L3 & L4 & L5) & H2 & H3 & H4 & H5) <-. split; [|now repeat split]. now repeat split.
  Qed.

  Definition rel (d : option (obj (C := C))) (x : option (inst (C := C))) : Prop :=
    match d, x with None, None => True | Some (Ok s), Some x => holds x s | _, _ => False end.
  Lemma put_same {X} k (v : option X) f : put k v f k = v.
  Proof. unfold put. now rewrite Z.eqb_refl. Qed.

  Lemma call_ok fuel k a a' r i s x : 
    RenodeModel.do_call ops_ fuel k a = Some (Ok (a', r)) -> target k = Some i -> a_inst a (u32 i) = Some (Ok s) -> holds x s ->
    arguments_ok k ->
    (forall id n st, k = Step id n st -> n_last x <> RSemihost -> forall i, Z.of_nat i < n ->
       (forall i', (i' < i)%nat -> ref_halt (ref i' (n_mach x)) = None) -> good (ref i (n_mach x))) ->
    exists x', behaves k r x x' /\ rel (a_inst a' (u32 i)) x'.
  Proof.
    intros E T Ha H Ok_ G. destruct x as [m last].
    assert (Hh : t_status s = Halted) by apply H.
    assert (Hpc : t_pc s = m_pc m) by apply H.
    assert (Hm : t_mem s = m_mem m) by apply H.
    assert (Har : t_arch s = m_arch m) by apply H.
    destruct k; cbn [target] in T; try discriminate; injection T as <-; cbn [RenodeModel.do_call] in E;
      unfold RenodeModel.find in E; rewrite ?Ha in E; unfold RenodeTopSpec.behaves; cbn [n_mach n_last].
    - (* Destroy *) injection E as <- <-. exists None. split; [now split|]. cbn [a_inst]. now rewrite put_same.
    - (* Reset *) injection E as <- <-. eexists. split; [now split|]. rewrite Ha. exact H.
    - (* RegInfoSize *) injection E as <- <-. eexists. split; [now split|]. rewrite Ha. exact H.
    - (* RegInfo *) exists (Some (Inst m last)). split; [reflexivity|]. destruct (negb info); [injection E as <- <-; rewrite Ha; exact H|].
      destruct (a_len a (u32 id)); [|discriminate]. destruct (register_info _ _ _ _ _); cbn [bind] in E; try discriminate.
      injection E as <- _. rewrite Ha. exact H.
    - (* LoadExecutable *) unfold load_obj in E. cbn [d_elf d_write top_ops on] in E. unfold obj_elf in E. rewrite Hm in E.
      assert (Nb : reason_eqb (t_reason s) RSwBreakpoint = false).
      { destruct H as (_ & _ & _ & Hr & Hn). cbn [n_last] in *. rewrite Hr. destruct last; try reflexivity. contradiction. }
      destruct (elf f (m_mem m)) as [[e|] mem]; cbn [on] in E.
      + unfold via, write_register, guarded in E. cbn [set_mem t_status t_reason] in E. rewrite Hh, Nb, andb_false_r in E. cbn [is_halted] in E.
        change (text [112; 99]) with pc_name in E. rewrite String.eqb_refl in E. destruct H as ((L1 & L2 & L3 & L4 & L5) & H2 & H3 & H4 & H5).
        unfold peek, assign, poke. fold pc_name. rewrite String.eqb_refl. destruct (reg_id pc_name) as [p|] eqn:Hp.
        * destruct (size_ok (reg_size p)) eqn:Sz; cbn [is_ok] in E; (destruct st; [|discriminate]); injection E as <- <-;
            (eexists; split; [split; [reflexivity|]; split; reflexivity|]); cbn [upd a_inst]; rewrite put_same; cbn [rel];
            rewrite ?Hp, ?Sz; (split; [|now repeat split]); now repeat split.
        * destruct (csr_id pc_name) as [ci|] eqn:Ci; cbn [is_ok] in E; (destruct st; [|discriminate]); injection E as <- <-;
            (eexists; split; [split; [reflexivity|]; split; reflexivity|]); cbn [upd a_inst]; rewrite put_same; cbn [rel];
            rewrite ?Hp, ?Ci; (split; [|now repeat split]); (split; [cbn; now rewrite ?L1|now repeat split]).
      + destruct st; [|discriminate]. injection E as <- <-. eexists. split; [split; [reflexivity|]; split; reflexivity|].
        cbn [upd a_inst]. rewrite put_same. cbn [rel]. apply holds_mem; [exact H|exact Hpc].
    - (* LoadImage *) cbn [d_image top_ops on] in E. unfold via in E. cbn [arguments_ok] in Ok_. destruct (files f) as [l|] eqn:F.
      + destruct (C37_load_image l a0 s Hh Ok_) as (s' & El & M & B). rewrite El in E. injection E as <- <-.
        destruct (chunks_set_mem (S (length l)) l a0 s) as (y & mm & Ec). cbn [load_image] in El. rewrite Ec in El. injection El as Ey Es. subst s'.
        exists (Some (Inst (Mach (m_pc m) (m_arch m) mm) last)). split.
        * intros _. split; [cbn [r_ret RenodeModel.ret]; destruct (_ || _); reflexivity|]. eexists. split; [reflexivity|]. repeat split.
          intros z. cbn [m_mem]. rewrite <- Hm. exact (M z).
        * cbn [upd a_inst]. rewrite put_same. cbn [rel]. apply holds_mem; [exact H|exact Hpc].
      + cbn [load_image is_ok] in E. injection E as <- <-. exists (Some (Inst m last)). split; [intros _; now split|].
        cbn [upd a_inst]. rewrite put_same. exact H.
    - (* ReadReg *) destruct val; cbn [negb] in E.
      2:{ injection E as <- <-. eexists. split; [split; [reflexivity|now split]|]. rewrite Ha. exact H. }
      cbn [RenodeModel.reg_name top_ops d_read] in E. unfold u32 in E at 1. destruct (names (r0 mod 2 ^ 32)) as [nm|]; cbn [option_map] in E.
      2:{ injection E as <- <-. eexists. split; [split; [reflexivity|now split]|]. rewrite Ha. exact H. }
      cbn [on] in E. rewrite text_chars in E. unfold via, read_register, guarded in E. rewrite Hh in E. cbn [is_halted] in E.
      unfold peek. fold pc_name. destruct (reg_id nm) as [ri|].
      + unfold reg_value in E. rewrite Hpc, Har in E.
        destruct (size_ok (reg_size ri)); cbn [val_of] in E; injection E as <- <-; (eexists; split; [split; [reflexivity|now split]|]);
          cbn [upd a_inst]; rewrite put_same; exact H.
      + rewrite Har in E. destruct (csr_id nm) as [ci|]; cbn [val_of] in E; injection E as <- <-; (eexists; split; [split; [reflexivity|now split]|]);
          cbn [upd a_inst]; rewrite put_same; exact H.
    - (* WriteReg *) cbn [RenodeModel.reg_name top_ops d_write] in E. unfold u32 in E at 1. destruct (names (r0 mod 2 ^ 32)) as [nm|]; cbn [option_map] in E.
      2:{ injection E as <- <-. eexists. split; [now split|]. rewrite Ha. exact H. }
      cbn [on] in E. rewrite text_chars in E. unfold via, write_register, guarded in E. rewrite Hh in E. cbn [is_halted] in E.
      unfold peek, assign, poke. fold pc_name.
      assert (Nb : reason_eqb (t_reason s) RSwBreakpoint = false).
      { destruct H as (_ & _ & _ & Hr & Hn). cbn [n_last] in *. rewrite Hr. destruct last; try reflexivity. contradiction. }
      rewrite Nb, andb_false_r in E. destruct H as ((L1 & L2 & L3 & L4 & L5) & H2 & H3 & H4 & H5).
      destruct (reg_id nm) as [ri|] eqn:Hri.
      + destruct (size_ok (reg_size ri)) eqn:Sz; cbn [is_ok] in E.
        * injection E as <- <-. eexists. split; [split; reflexivity|]. cbn [upd a_inst]. rewrite put_same. rewrite ?Hri, ?Sz, ?Ci; cbn [rel].
          destruct (String.eqb nm pc_name); (split; [|first [exact (conj H2 (conj H3 (conj H4 H5)))|exact (conj eq_refl (conj H3 (conj H4 H5)))]]); (split; [|exact (conj L2 (conj L3 (conj L4 L5)))]); cbn [set_arch set_pcv t_arch m_arch n_mach]; now rewrite ?Har.
        * injection E as <- <-. eexists. split; [split; reflexivity|]. cbn [upd a_inst]. rewrite put_same. cbn [rel]. now repeat split.
      + destruct (csr_id nm) as [ci|] eqn:Ci; cbn [is_ok] in E; injection E as <- <-; (eexists; split; [split; reflexivity|]);
          cbn [upd a_inst]; rewrite put_same; rewrite ?Hri, ?Sz, ?Ci; cbn [rel]; (split; [|exact (conj H2 (conj H3 (conj H4 H5)))]); (split; [|exact (conj L2 (conj L3 (conj L4 L5)))]); cbn [set_arch t_arch m_arch n_mach]; now rewrite ?Har.
    - (* ReadMem *) cbn [d_rmem top_ops on] in E. unfold via in E. cbn [arguments_ok] in Ok_. destruct Ok_ as [O1 O2].
      exists (Some (Inst m last)). destruct (max_address <? a0) eqn:Q.
      + destruct (C36_rejected a0 n [] s) as (c & W & _); [left; lia|]. rewrite W in E. cbn [bytes_of] in E. injection E as <- <-.
        split; [intros _ _; now repeat split|]. cbn [upd a_inst]. rewrite put_same. exact H.
      + rewrite (C36_read_memory a0 n s Hh) in E by lia. cbn [bytes_of] in E. rewrite Hm in E.
        remember (map (fun i => m_mem m (a0 + Z.of_nat i)) (seq 0 (Z.to_nat (Z.min n (max_address - a0 + 1))))) as bs eqn:Hbs.
        injection E as <- <-. split; [intros _ _; split; [reflexivity|]; split; [reflexivity|reflexivity]|]. cbn [upd a_inst]. rewrite put_same. exact H.
    - (* WriteMem *) cbn [d_wmem top_ops on] in E. unfold via in E. cbn [arguments_ok] in Ok_. destruct Ok_ as [O1 O2].
      destruct (max_address <? a0) eqn:Q.
      + destruct (C36_rejected a0 0 bytes s) as (c & _ & W); [left; lia|]. rewrite W in E. cbn [val_of] in E. injection E as <- <-.
        exists (Some (Inst m last)). split.
        * intros _ _. split; [cbn [RenodeModel.ret r_ret]; lia|]. exists m. split; [reflexivity|]. repeat split.
          intros z. unfold written. replace ((a0 <=? z) && (z <? a0 + Z.of_nat (length bytes)) && (z <=? max_address)) with false by lia. reflexivity.
        * cbn [upd a_inst]. rewrite put_same. exact H.
      + destruct (C36_write_memory a0 bytes s Hh) as (s' & W & M & B & _); [lia|lia|]. rewrite W in E. cbn [val_of] in E.
        remember (Z.min (Z.of_nat (length bytes)) (max_address - a0 + 1)) as nb eqn:Hnb. injection E as <- <-.
        destruct (wm_set_mem a0 bytes s) as (y & mm & Ew). rewrite Ew in W. injection W as Ey Es. subst s'.
        exists (Some (Inst (Mach (m_pc m) (m_arch m) mm) last)). split.
        * intros _ _. split; [cbn [RenodeModel.ret r_ret]; lia|]. eexists. split; [reflexivity|]. repeat split.
          intros z. cbn [m_mem]. rewrite <- Hm. exact (M z).
        * cbn [upd a_inst]. rewrite put_same. cbn [rel]. apply holds_mem; [exact H|exact Hpc].
    - (* Step *) destruct (step_obj ops_ fuel n (Ok s)) as [[[[total st'] d'] tr]|] eqn:Es; [|discriminate]. injection E as <- <-.
      cbn [arguments_ok] in Ok_. unfold step_obj in Es. cbn [upd a_inst r_status ret_st r_ret]. destruct (n =? 0) eqn:N; cbn [orb].
      + injection Es as <- <- <- <-. exists (Some (Inst m last)). split.
        * intros _. exists 0. split; [reflexivity|]. now repeat split.
        * rewrite put_same. exact H.
      + cbn [d_reason top_ops obj_reason] in Es. assert (Hr : t_reason s = last) by apply H. rewrite Hr in Es.
        assert (Ns : last <> RSwBreakpoint) by apply H.
        destruct (reason_eqb last RSemihost) eqn:Sh.
        * assert (last = RSemihost) by (destruct last; try discriminate; reflexivity). subst last. rewrite H0 in Es. cbn [to_hreason] in Es.
          injection Es as <- <- <- <-. exists (Some (Inst m (t_reason s))). split.
          -- intros _. exists (-1). split; [reflexivity|]. now repeat split.
          -- rewrite put_same. exact H.
        * assert (El : RenodeModel.step_loop ops_ fuel n 0 (Ok s) [] = Some (total, st', d', tr)) by (destruct last; try discriminate; exact Es).
          assert (Gs : forall i, Z.of_nat i < n -> (forall i', (i' < i)%nat -> ref_halt (ref i' m) = None) -> good (ref i m)).
          { apply (G id n st eq_refl). cbn [n_last]. intros ->. discriminate. }
          destruct (renode_loop fuel n 0 (Inst m last) s [] total st' d' tr Ok_ H ltac:(intros; lia) Gs El) as (k & l2 & s2 & M1 & M2 & M3 & M4 & M5 & M6).
          exists (Some (Inst (ref k m) l2)). split.
          -- intros _. exists st'. split; [reflexivity|]. exists k, l2. split; [exact M1|]. split; [reflexivity|].
             split; [|exact M6]. specialize (M5 ltac:(lia)). rewrite Z.mod_small in M4 by lia. exact M4.
          -- rewrite put_same, M2. exact M3.
    - (* Halt *) unfold halt_obj in E. cbn [d_halt top_ops on] in E. unfold via, TopModel.halt in E. rewrite Hh in E.
      cbn [is_ok negb d_reason top_ops obj_reason] in E. assert (Hr : t_reason s = last) by apply H. rewrite Hr in E.
      exists (Some (Inst m last)). destruct last; cbn [to_hreason] in E; injection E as <- <-;
        (split; [split; [reflexivity|split; reflexivity]|]); cbn [upd a_inst]; rewrite put_same; rewrite ?Hr; exact H.
  Qed.

  Lemma concerns_ok fuel k a a' r j x : 
    RenodeModel.do_call ops_ fuel k a = Some (Ok (a', r)) -> 0 <= a_count a < 2 ^ 32 -> below a ->
    rel (a_inst a (u32 j)) x -> arguments_ok k ->
    (forall max b, k = Construct max (Some b) -> r_ret r mod 2 ^ 32 <> j mod 2 ^ 32) ->
    (forall id n st x1, k = Step id n st -> id mod 2 ^ 32 = j mod 2 ^ 32 -> x = Some x1 -> n_last x1 <> RSemihost -> forall i, Z.of_nat i < n ->
       (forall i', (i' < i)%nat -> ref_halt (ref i' (n_mach x1)) = None) -> good (ref i (n_mach x1))) ->
    exists x', concerns j k r x x' /\ rel (a_inst a' (u32 j)) x'.
  Proof.
    intros E Hc B R Ok_ Nb G. pose proof (call_cases _ _ _ _ _ _ E) as CC. unfold RenodeTopSpec.concerns.
    destruct (target k) as [i|] eqn:T.
    - destruct CC as (C1 & C2 & C3 & C4). destruct (i mod 2 ^ 32 =? j mod 2 ^ 32) eqn:J.
      + apply Z.eqb_eq in J. assert (J' : u32 i = u32 j) by exact J.
        destruct x as [x|]; destruct (a_inst a (u32 j)) as [[s| |]|] eqn:Ea; cbn [rel] in R; try contradiction.
        * rewrite <- J' in Ea |- *. apply (call_ok fuel k a a' r i s x E T Ea R Ok_).
          intros id n st Ek. apply (G id n st x Ek); [|reflexivity]. subst k. cbn [target] in T. injection T as <-. exact J.
        * rewrite J' in C4. destruct (C4 Ea) as [-> Rj]. exists None. split; [now split|]. now rewrite Ea.
      + exists x. split; [reflexivity|]. rewrite C3; [exact R|]. intros Q. unfold u32 in Q. lia.
    - destruct CC as (max & mem & d & -> & Ec & -> & ->). cbn [r_ret RenodeModel.ret a_inst] in *.
      assert (U : s32 (a_count a) mod 2 ^ 32 = a_count a).
      { change (u32 (s32 (a_count a)) = a_count a). rewrite u32_s32. unfold u32. apply Z.mod_small. exact Hc. }
      rewrite U in *. assert (Hn : a_inst a (a_count a) = None).
      { destruct (a_inst a (a_count a)) eqn:Q; [|reflexivity]. assert (X : a_inst a (a_count a) <> None) by congruence. apply B in X. lia. }
      unfold emplace. rewrite Hn. destruct (a_count a =? j mod 2 ^ 32) eqn:J.
      + apply Z.eqb_eq in J. unfold u32 in *. rewrite <- J in R |- *. rewrite Hn in R. destruct x; [contradiction|].
        destruct mem as [b|]; [exfalso; exact (Nb max b eq_refl J)|].
        cbn [create top_ops] in Ec. injection Ec as <-. exists (Some (born boot boot_pc)). split; [now split|].
        rewrite put_same. cbn [obj_new rel]. unfold obj_new. cbn [rel]. split; [|now repeat split].
        repeat split. intros z w. cbn. discriminate.
      + exists x. split; [reflexivity|]. unfold put. replace (u32 j =? a_count a) with false by (unfold u32; lia). exact R.
  Qed.
End S.

Section T.
  Context {C : Type}.
  Variable exec : Z -> Z -> arch (C := C) -> (Z -> Z) -> effect (C := C).
  Variable evicted : Z -> Z -> bool.
  Variable reg_id : string -> option Z.
  Variable reg_size : Z -> Z.
  Variable csr_id : string -> option Z.
  Variable csr_get : Z -> C -> Z.
  Variable csr_set : Z -> Z -> C -> C.
  Variable boot : arch (C := C).
  Variable boot_pc : Z.
  Context {File Blocks : Type}.
  Variable create_shared : Z * Z * Blocks -> top (C := C).
  Variable files : File -> option (list Z).
  Variable elf : File -> (Z -> Z) -> option Z * (Z -> Z).
  Variable enums : dbgreg -> Z.
  Variable names : Z -> option string.
  Notation ops_ := (top_ops exec evicted reg_id reg_size csr_id csr_get csr_set boot boot_pc create_shared files elf enums names).
  Notation session := (session exec reg_id reg_size csr_id csr_get csr_set boot boot_pc files elf names).
  Notation visited := (visited exec reg_id reg_size csr_id csr_get csr_set boot boot_pc files elf names).
  Notation steady := (steady exec reg_id reg_size csr_id csr_get csr_set boot boot_pc files elf names).

  Lemma session_run code fuel j : forall ks a a' rs x,
    RenodeModel.run ops_ fuel ks a = Some (Ok (a', rs)) -> 0 <= a_count a ->
    a_count a + Z.of_nat (length (filter is_construct ks)) + 1 < 2 ^ 32 -> below a -> rel code (a_inst a (u32 j)) x ->
    Forall arguments_ok ks ->
    (forall max b r, In (Construct max (Some b), r) (combine ks rs) -> r_ret r mod 2 ^ 32 <> j mod 2 ^ 32) ->
    (forall m, visited j x (combine ks rs) m -> good exec code m) ->
    exists x', session j x (combine ks rs) x' /\ rel code (a_inst a' (u32 j)) x'.
  Proof.
    induction ks as [|k ks IH]; intros a a' rs x E H0 Hc B R Ok_ Nb G.
    - injection E as <- <-. exists x. split; [constructor|exact R].
    - destruct (run_cons _ _ _ _ _ _ _ E) as (a1 & r & rs' & E1 & E2 & ->). cbn [combine] in *.
      assert (Hk : a_count a + 1 < 2 ^ 32) by (cbn [filter] in Hc; destruct (is_construct k); cbn [length] in Hc; lia).
      destruct (below_step _ _ _ _ _ _ E1 H0 Hk B) as (B1 & _ & C1 & _).
      destruct (concerns_ok exec evicted reg_id reg_size csr_id csr_get csr_set boot boot_pc create_shared files elf enums names code
                  fuel k a a1 r j x E1 ltac:(lia) B R (Forall_inv Ok_)) as (x1 & Q1 & Q2).
      { intros max b ->. apply (Nb max b r). now left. }
      { intros id n st x1 -> Hid -> Hs i Hi Hf. apply G. exists [], id, n, st, r, (combine ks rs'), x1, i.
        split; [reflexivity|]. split; [exact Hid|]. split; [constructor|]. split; [exact Hs|].
        split; [split; [exact Hi|apply (Forall_inv Ok_)]|]. split; [exact Hf|reflexivity]. }
      destruct (IH a1 a' rs' x1 E2) as (x2 & Q3 & Q4); [rewrite C1; destruct (is_construct k); lia| |exact B1|exact Q2|exact (Forall_inv_tail Ok_)| | |].
      + rewrite C1. cbn [filter] in Hc. destruct (is_construct k); cbn [length] in Hc; lia.
      + intros max b r1 Hi. apply (Nb max b r1). now right.
      + intros m (h1 & id & n & st & r1 & h2 & x3 & i & V1 & V2 & V3 & V4). apply G.
        exists ((k, r) :: h1), id, n, st, r1, h2, x3, i. split; [cbn [app]; now f_equal|]. split; [exact V2|].
        split; [econstructor; [exact Q1|exact V3]|exact V4].
      + exists x2. split; [econstructor; [exact Q1|exact Q3]|exact Q4].
  Qed.

  Lemma session_ok fuel j ks a rs : 
    RenodeModel.run ops_ fuel ks agent0 = Some (Ok (a, rs)) ->
    Z.of_nat (length (filter is_construct ks)) + 1 < 2 ^ 32 -> Forall arguments_ok ks ->
    (forall max b r, In (Construct max (Some b), r) (combine ks rs) -> r_ret r mod 2 ^ 32 <> j mod 2 ^ 32) ->
    steady j None (combine ks rs) -> exists x, session j None (combine ks rs) x.
  Proof.
    intros E Hc Ok_ Nb (code & G).
    destruct (session_run code fuel j ks agent0 a rs None E) as (x & Q & _).
    - cbn [agent0 a_count]. lia.
    - cbn [agent0 a_count]. lia.
    - intros i Hi. cbn [agent0 a_inst] in Hi. congruence.
    - exact I.
    - exact Ok_.
    - exact Nb.
    - exact G.
    - exists x. exact Q.
  Qed.

  (** Step never claims more than it was asked for, in any state. *)
  Lemma step_loop_count fuel : forall num count pc np (s : top (C := C)) c' p' np' s',
    TopModel.step_loop exec evicted fuel num count pc np s = (c', p', np', s') -> count <= num -> count <= c' <= num.
  Proof.
    induction fuel as [|f IH]; intros num count pc np s c' p' np' s'; cbn [TopModel.step_loop]; destruct (negb _ && _) eqn:B;
      try (intros X; injection X as <- <- <- <-; lia).
    destruct (iteration _ _ _ _ s) as [[go n1] s1]. apply andb_true_iff in B. destruct B as [_ B].
    destruct go; [|intros X; injection X as <- <- <- <-; lia]. intros X Hc. apply IH in X; lia.
  Qed.
  Lemma contract_ok : step_contract ops_.
  Proof.
    intros c d e d'. cbn [d_step top_ops]. unfold obj_step. destruct d as [s| |]; try discriminate.
    unfold TopModel.step. destruct (c <=? 0) eqn:Q; [discriminate|]. destruct (negb _); [discriminate|].
    set (s1 := set_halted false _).
    assert (Hn : exists n s2, (if t_need s1 then (1, step_past exec evicted (set_need false s1)) else (0, s1)) = (n, s2) /\ 0 <= n <= 1).
    { destruct (t_need s1); eexists; eexists; (split; [reflexivity|lia]). }
    destruct Hn as (n & s2 & -> & Hn).
    destruct (TopModel.step_loop exec evicted (Z.to_nat c) c n None (t_pc s2) s2) as [[[c' p'] np'] s'] eqn:E.
    apply step_loop_count in E; [|lia].
    destruct (reason_eqb _ _); [destruct p' as [p|]; [|discriminate]|]; cbn [val_of]; intros X Hc; apply (f_equal fst) in X; cbn [fst] in X; injection X as <-; lia.
  Qed.
End T.
