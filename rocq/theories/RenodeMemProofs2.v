(** * Proofs about the memory shared with Renode: builds without the checks, larger units *)
From Coq Require Import ZArith List Bool Lia ZifyBool ZifyNat.
From Verif Require Import CInt RenodeMem RenodeMemSpec RenodeMemProofs.
Import ListNotations.
Open Scope Z_scope.
Ltac Zify.zify_post_hook ::= idtac.

(** Builds without the checks: the same result wherever the checked build gives one. *)
Lemma unchecked_access avail m load a n h buf r :
  access true avail m load a n h buf = Done r -> access false avail m load a n h buf = Done r.
Proof.
  unfold access, ls_helper, hassert. destruct (m_unit m =? 0); [discriminate|]. cbn [andb].
  destruct (valid _ _ _); cbn [negb]; [|discriminate]. destruct (0 <? _); cbn [negb]; [|discriminate].
  destruct (a <? m_max m); cbn [negb]; [auto | discriminate].
Qed.
Lemma unchecked_elements avail m load addrs el blen size masks : forall i h buf r,
  elements true avail m load addrs masks i el blen size h buf = Done r ->
  elements false avail m load addrs masks i el blen size h buf = Done r.
Proof.
  induction masks as [|b masks IH]; intros i h buf r; cbn [elements]; [auto|]. destruct b; [|apply IH]. cbv zeta.
  destruct (nth_error addrs _) as [a0|]; [|discriminate]. unfold ls_helper, hassert. cbn [andb].
  destruct (valid _ _ _); cbn [negb rbind]; [|discriminate]. destruct (_ <? m_max m); cbn [negb rbind]; [|discriminate].
  destruct (ls_loop _ _ _ _ _ _ _ _ _ _) as [hb| | |]; cbn [rbind]; try discriminate. apply IH.
Qed.
Lemma unchecked_vaccess avail m load addrs masks el blen h buf r :
  vaccess true avail m load addrs masks el blen h buf = Done r ->
  vaccess false avail m load addrs masks el blen h buf = Done r.
Proof.
  unfold vaccess, hassert. destruct (m_unit m =? 0); [discriminate|]. cbn [andb]. cbv zeta.
  destruct (0 <? _); cbn [negb]; [apply unchecked_elements | discriminate].
Qed.
Lemma unchecked_make bs size ptrs base u h m :
  make true bs size ptrs base u h = Done m -> make false bs size ptrs base u h = Done m.
Proof.
  unfold make, hassert. cbv zeta. cbn [andb]. destruct (0x3fffff <? _); cbn [negb]; [auto | discriminate].
Qed.

(** Units of [2 ^ k] bytes: inside one block the memory behaves like one with
    one-byte units whose blocks have [bs * 2 ^ k] bytes. *)
Lemma mul_ge x u : 0 <= x -> 0 < u -> x <= x * u.
Proof. nia. Qed.
Lemma mul_mono x y u : x <= y -> 0 < u -> x * u <= y * u.
Proof. nia. Qed.
Lemma mul_nonneg x u : 0 <= x -> 0 < u -> 0 <= x * u.
Proof. nia. Qed.
Lemma mul_pos x u : 0 < x -> 0 < u -> 0 < x * u.
Proof. nia. Qed.
Ltac mul := first [apply mul_ge; lia | apply mul_mono; lia | apply mul_nonneg; lia | apply mul_pos; lia].
Lemma int_shl_ok a s : 0 <= s <= 31 -> 0 <= a -> a * 2 ^ s < 2 ^ 31 -> int_shl a s = Done (a * 2 ^ s).
Proof.
  intros Hs Ha H. unfold int_shl. replace ((s <? 0) || (31 <? s)) with false by lia.
  assert (0 <= a * 2 ^ s) by (pose proof (Z.pow_pos_nonneg 2 s); nia).
  rewrite in_i32 by lia. replace (a <? 0) with false by lia. reflexivity.
Qed.
Section Units.
  Context (avail : Z -> Z) (bs size : Z) (ptrs : list Z) (base u : Z) (h0 : heap) (m : rmem).
  Context (C : config_units avail bs size ptrs base u) (M : make true bs size ptrs base u h0 = Done m).
  Definition bytewise : rmem := RM 1 0 (bs * u) (bs * u) (base * u) ((base + size) * u) (m_blocks m).
  Lemma upos : 0 < u.
  Proof. destruct C as [[k [Hk ->]] _]. apply Z.pow_pos_nonneg; lia. Qed.
  Lemma umake : exists k rest, 0 <= k < 31 /\ u = 2 ^ k /\ m = RM u k (bs * u) bs base (base + size) (m_blocks m) /\
    ptrs = m_blocks m ++ rest /\ base + size <= bs * Z.of_nat (length (m_blocks m)) /\ wf avail bytewise.
  Proof.
    pose proof upos as Hu. destruct C as [[k [Hk Ek]] [Hb [Hbu [B0 [S0 [H2 [H3 [H4 [H5 [G1 G2]]]]]]]]]].
    assert (Q : base + size <= (base + size) * u) by mul.
    assert (Qb : bs <= bs * u) by mul.
    assert (Qu : u <= bs * u) by nia.
    revert M. unfold make, hassert. cbn [andb].
    rewrite !wrap_u64, (Z.mod_small (base + size)), (Z.mod_small (base + size + bs - 1)), (Z.mod_small (bs * u)) by lia.
    replace (0x3fffff <? base + size) with true by lia. cbn [negb]. replace (bs =? 0) with false by lia.
    set (nb := (base + size + bs - 1) / bs) in *.
    assert (N1 : base + size <= bs * nb).
    { unfold nb. pose proof (Z.div_mod (base + size + bs - 1) bs ltac:(lia)) as D.
      pose proof (Z.mod_pos_bound (base + size + bs - 1) bs ltac:(lia)). lia. }
    assert (N0 : 0 <= nb) by (unfold nb; apply Z.div_pos; lia).
    assert (N2 : nb <= Z.of_nat (length ptrs)).
    { unfold nb. assert (Q2 : (base + size + bs - 1) / bs < Z.of_nat (length ptrs) + 1) by (apply Z.div_lt_upper_bound; lia). lia. }
    cbv zeta. replace (2 ^ 31 <? nb) with false by lia. replace (Z.of_nat (length ptrs) <? nb) with false by lia.
    rewrite !wrap_i32 by lia. intro E. injection E as E. clearbody nb.
    assert (L : length (firstn (Z.to_nat nb) ptrs) = Z.to_nat nb) by (rewrite firstn_length; lia).
    exists k, (skipn (Z.to_nat nb) ptrs). split; [exact Hk|]. split; [exact Ek|]. rewrite <- E. cbn [m_blocks].
    split; [rewrite Ek at 2; rewrite Z.log2_pow2 by lia; reflexivity|].
    split; [symmetry; apply firstn_skipn|]. rewrite L. split; [lia|].
    unfold wf, bytewise. cbn [m_unit m_shift m_bs m_alloc m_base m_max m_blocks]. rewrite <- E. cbn [m_blocks]. rewrite L.
    split; [reflexivity|]. split; [reflexivity|]. split; [lia|]. split; [reflexivity|]. split; [mul|]. split; [apply Z.le_trans with (bs * nb * u); [mul | lia]|]. split; [exact H3|].
    rewrite <- (firstn_skipn (Z.to_nat nb) ptrs) in G1, G2. split.
    - clear - G1. revert G1. generalize (skipn (Z.to_nat nb) ptrs). generalize (firstn (Z.to_nat nb) ptrs). intros a b.
      induction a as [|x a IH]; intro N; [constructor|]. inversion N; subst. constructor; [|apply IH; assumption].
      intro I. apply H1. apply in_or_app. left. exact I.
    - apply Forall_app in G2. apply G2.
  Qed.

  Lemma ubound : (base + size) * u <= bs * u * Z.of_nat (length (m_blocks m)).
  Proof.
    destruct umake as [k [rest [_ [_ [_ [_ [_ Wf]]]]]]]. destruct Wf as [_ [_ [_ [_ [_ [X _]]]]]].
    unfold bytewise in X. cbn [m_bs m_max m_blocks] in X. exact X.
  Qed.
  Lemma unit_loop fuel fuel' load a blen pos c h buf : within_block bs base size a c -> 0 < c ->
    0 <= pos -> pos + c * u <= blen ->
    ls_loop avail m (S fuel) load a blen pos c h buf = ls_loop avail bytewise (S fuel') load (a * u) blen pos (c * u) h buf.
  Proof.
    intros [V1 [V2 V3]] Hc Hp Hl. pose proof upos as Hu. destruct umake as [k [rest [Hk [Ek [Em [Ep [Ex Wf]]]]]]].
    destruct C as [_ [Hb [Hbu [B0 [S0 [H2 [H3 _]]]]]]].
    pose proof (Z.mod_pos_bound a bs Hb) as Hmod.
    assert (K1 : c * u <= bs * u) by mul. assert (K2 : (a mod bs) * u + c * u <= bs * u) by (rewrite <- Z.mul_add_distr_r; mul).
    assert (K3 : 0 < c * u) by mul. assert (K4 : (a + c) * u <= (base + size) * u) by mul. rewrite Z.mul_add_distr_r in K4. assert (K5 : 0 <= a * u) by mul.
    assert (K6 : a + c <= (a + c) * u) by mul. assert (K7 : bs <= bs * u) by mul. assert (K8 : 0 <= (a mod bs) * u) by mul.
    rewrite (piece avail bytewise Wf fuel' load (a * u)); [| lia | lia | | lia | lia].
    2: { unfold bytewise. cbn [m_max]. lia. }
    cbv zeta. change (m_bs bytewise) with (bs * u). change (m_blocks bytewise) with (m_blocks m).
    rewrite Z.div_mul_cancel_r, Z.mul_mod_distr_r by lia. rewrite (Z.min_l (c * u)) by lia.
    replace (c * u - c * u >? 0) with false by lia.
    assert (P : exists p, nth_error (m_blocks m) (Z.to_nat (a / bs)) = Some p /\ nth (Z.to_nat (a / bs)) (m_blocks m) 0 = p /\ bs * u <= avail p).
    { destruct (block_at avail bytewise Wf (a * u)) as [p [P1 [P2 [P3 _]]]]; [unfold bytewise; cbn [m_max]; lia|].
      unfold bytewise in P1, P2, P3. cbn [m_bs m_blocks] in P1, P2, P3. rewrite Z.div_mul_cancel_r in P1, P2 by lia. exists p. auto. }
    destruct P as [p [P1 [P2 P3]]]. rewrite P2.
    rewrite Em. cbn [ls_loop m_bs m_blocks m_alloc m_shift]. replace (bs =? 0) with false by lia. rewrite P1.
    assert (O : a - a / bs * bs = a mod bs) by (pose proof (Z.div_mod a bs ltac:(lia)); lia).
    rewrite O, wrap_i32, int_sub_ok by lia. cbn [rbind]. rewrite (Z.min_l c) by lia.
    rewrite !int_shl_ok by (rewrite <- ?Ek; lia). rewrite <- Ek. cbn [rbind]. unfold copy.
    replace ((c * u <? 0) || (a mod bs * u <? 0) || (avail p <? a mod bs * u + c * u) || (pos <? 0) || (blen <? pos + c * u)) with false by lia.
    replace (c - c >? 0) with false by lia. destruct load; reflexivity.
  Qed.

  Lemma unit_helper checked load a blen pos c h buf : within_block bs base size a c -> 0 < c ->
    0 <= pos -> pos + c * u <= blen ->
    hassert checked (valid m a (wrap U64 (a + c))) h (ls_helper checked avail m load a blen pos c h buf) =
    ls_loop avail bytewise (S (Z.to_nat (c * u))) load (a * u) blen pos (c * u) h buf.
  Proof.
    intros V Hc Hp Hl. rewrite <- (unit_loop (Z.to_nat c) (Z.to_nat (c * u)) load a blen pos c h buf V Hc Hp Hl).
    pose proof upos as Hu. destruct umake as [k [rest [Hk [Ek [Em [Ep [Ex Wf]]]]]]]. destruct V as [V1 [V2 V3]].
    destruct C as [_ [Hb [Hbu [B0 [S0 [H2 [H3 _]]]]]]].
    assert (K : base + size <= (base + size) * u) by mul.
    unfold ls_helper, hassert, valid. rewrite wrap_u64, Z.mod_small by lia.
    assert (Q1 : m_base m = base) by (rewrite Em; reflexivity). assert (Q2 : m_max m = base + size) by (rewrite Em; reflexivity).
    rewrite Q1, Q2. replace ((base <=? a) && (a + c <=? base + size)) with true by lia. replace (a <? base + size) with true by lia.
    rewrite andb_false_r. reflexivity.
  Qed.

  Lemma munit : m_unit m = u.
  Proof. destruct umake as [k [rest [_ [_ [Em _]]]]]. rewrite Em. reflexivity. Qed.
  Lemma unit_load checked a c h buf : within_block bs base size a c -> 0 < c ->
    exists buf', rload checked avail m a (c * u) h buf = Done (h, buf') /\
      forall i, buf' i = if (0 <=? i) && (i <? c * u) then flat ptrs (bs * u) h (a * u + i) else buf i.
  Proof.
    intros V Hc. pose proof upos as Hu. unfold rload, access. rewrite munit. replace (u =? 0) with false by lia. cbv zeta.
    rewrite Z.quot_mul by lia. assert (K : 0 < c * u) by mul.
    unfold hassert at 2. replace (0 <? c) with true by lia. rewrite andb_false_r.
    rewrite unit_helper by (try assumption; lia).
    destruct umake as [k [rest [Hk [Ek [Em [Ep [Ex Wf]]]]]]]. destruct V as [V1 [V2 V3]].
    destruct C as [_ [Hb [Hbu [B0 [S0 [H2 [H3 _]]]]]]]. pose proof (Z.mod_pos_bound a bs Hb) as Hmod.
    assert (K1 : (a + c) * u <= (base + size) * u) by mul. rewrite Z.mul_add_distr_r in K1. assert (K2 : c * u <= bs * u) by mul. assert (K3 : 0 <= a * u) by mul.
    destruct (loop_load avail bytewise Wf (S (Z.to_nat (c * u))) (a * u) (c * u) 0 (c * u) h buf) as [buf' [E1 E2]];
      [lia | lia | unfold bytewise; cbn [m_max]; lia | lia | lia | lia |].
    exists buf'. split; [exact E1|]. intro i. rewrite E2, Z.sub_0_r, Z.add_0_l. unfold bytewise. cbn [m_bs m_blocks].
    destruct ((0 <=? i) && (i <? c * u)) eqn:I; [|reflexivity]. pose proof ubound. rewrite Ep. symmetry. apply flat_prefix; lia.
  Qed.
  Lemma unit_store checked a c h buf : within_block bs base size a c -> 0 < c ->
    exists h', rstore checked avail m a (c * u) h buf = Done (h', buf) /\
      (forall x, 0 <= x < (base + size) * u -> flat ptrs (bs * u) h' x = flat_write (flat ptrs (bs * u) h) (a * u) (c * u) buf x) /\
      (forall q o, foreign ptrs (bs * u) q o -> h' q o = h q o).
  Proof.
    intros V Hc. pose proof upos as Hu. unfold rstore, access. rewrite munit. replace (u =? 0) with false by lia. cbv zeta.
    rewrite Z.quot_mul by lia. assert (K : 0 < c * u) by mul.
    unfold hassert at 2. replace (0 <? c) with true by lia. rewrite andb_false_r.
    rewrite unit_helper by (try assumption; lia).
    destruct umake as [k [rest [Hk [Ek [Em [Ep [Ex Wf]]]]]]]. destruct V as [V1 [V2 V3]].
    destruct C as [_ [Hb [Hbu [B0 [S0 [H2 [H3 _]]]]]]]. pose proof (Z.mod_pos_bound a bs Hb) as Hmod.
    assert (K1 : (a + c) * u <= (base + size) * u) by mul. rewrite Z.mul_add_distr_r in K1. assert (K2 : c * u <= bs * u) by mul. assert (K3 : 0 <= a * u) by mul.
    pose proof ubound as K4.
    destruct (loop_store avail bytewise Wf (S (Z.to_nat (c * u))) (a * u) (c * u) 0 (c * u) h buf) as [h' [E1 [E2 E3]]];
      [lia | lia | unfold bytewise; cbn [m_max]; lia | lia | lia | lia |].
    unfold bytewise in E2, E3. cbn [m_bs m_blocks] in E2, E3.
    exists h'. split; [exact E1|]. split.
    - intros x Hx. rewrite Ep, flat_prefix by lia. rewrite E2 by lia. unfold flat_write. destruct (_ && _); [reflexivity|].
      symmetry. apply flat_prefix; lia.
    - intros q o F. apply E3. rewrite Ep in F. exact (foreign_prefix _ _ _ _ _ F).
  Qed.

  (** Vector accesses with one address for each element. *)
  Context (addrs : list Z) (c : Z) (total : nat).
  Context (Hc : 0 < c) (Ht : c * u * Z.of_nat total < 2 ^ 31) (Ha : Forall (fun a => 0 <= a * u < 2 ^ 64) addrs)
    (H1 : (1 < length addrs)%nat) (Hl : (total <= length addrs)%nat).
  Definition uaddrs : list Z := map (fun a => a * u) addrs.
  Lemma uaddrs_ok : Forall (fun a => 0 <= a < 2 ^ 64) uaddrs.
  Proof. unfold uaddrs. apply Forall_map. exact Ha. Qed.
  Lemma uel_addr i : el_addr uaddrs (c * u) i = nth (Z.to_nat i) addrs 0 * u.
  Proof.
    unfold el_addr, uaddrs. rewrite map_length. replace (1 <? length addrs)%nat with true by lia.
    change 0 with (0 * u) at 1. apply (map_nth (fun a => a * u)).
  Qed.
  Lemma unit_elements checked load blen : c * u * Z.of_nat total <= blen ->
    forall masks i h buf, 0 <= i -> i + Z.of_nat (length masks) <= Z.of_nat total ->
    (forall k, (k < length masks)%nat -> nth k masks false = true -> within_block bs base size (nth (Z.to_nat i + k) addrs 0) c) ->
    elements checked avail m load addrs masks i (c * u) blen c h buf =
    elements true avail bytewise load uaddrs masks i (c * u) blen (c * u) h buf.
  Proof.
    intros Hbl. pose proof upos as Hu. assert (Kc : 0 < c * u) by mul.
    induction masks as [|b masks IH]; intros i h buf Hi Hn Hin; [reflexivity|]. cbn [length] in Hn.
    assert (Next : forall h buf, elements checked avail m load addrs masks (i + 1) (c * u) blen c h buf =
      elements true avail bytewise load uaddrs masks (i + 1) (c * u) blen (c * u) h buf).
    { intros h1 buf1. apply IH; [lia | lia |]. intros k Hk Mk. replace (Z.to_nat (i + 1) + k)%nat with (Z.to_nat i + S k)%nat by lia.
      apply Hin; [cbn [length]; lia | exact Mk]. }
    cbn [elements]. destruct b; [|apply Next]. cbv zeta.
    assert (Lu : (1 <? length uaddrs)%nat = true) by (unfold uaddrs; rewrite map_length; lia). rewrite Lu.
    replace (1 <? length addrs)%nat with true by lia.
    destruct (nth_error addrs (Z.to_nat i)) as [a|] eqn:E; [|apply nth_error_None in E; lia].
    assert (Eu : nth_error uaddrs (Z.to_nat i) = Some (a * u)) by exact (map_nth_error (fun a => a * u) _ _ E). rewrite Eu.
    pose proof (Hin 0%nat ltac:(cbn [length]; lia) eq_refl) as V. rewrite Nat.add_0_r, (nth_error_nth _ _ 0 E) in V.
    assert (Kt : c * u * (i + 1) <= c * u * Z.of_nat total) by (apply Z.mul_le_mono_nonneg_l; lia).
    assert (Ki : 0 <= c * u * i) by (apply Z.mul_nonneg_nonneg; lia).
    rewrite (wrap_u32 (c * u * i)), (Z.mod_small (c * u * i)) by lia.
    rewrite unit_helper by (try assumption; lia).
    destruct umake as [k [rest [Hk [Ek [Em [Ep [Ex Wf]]]]]]]. destruct C as [_ [Hb [Hbu [B0 [S0 [H2 [H3 _]]]]]]].
    pose proof V as [V1 [V2 V3]]. pose proof (Z.mod_pos_bound a bs Hb) as Hmod.
    assert (K1 : (a + c) * u <= (base + size) * u) by mul. rewrite Z.mul_add_distr_r in K1. assert (K2 : c * u <= bs * u) by mul. assert (K3 : base * u <= a * u) by mul.
    assert (K4 : 0 <= base * u) by mul.
    rewrite (checked_helper avail bytewise Wf load (a * u) blen (c * u * i) (c * u) h buf) by lia.
    unfold bytewise at 2 3. cbn [m_base m_max].
    replace ((base * u <=? a * u) && (a * u + c * u <=? (base + size) * u)) with true by lia.
    destruct (ls_loop avail bytewise _ _ _ _ _ _ _ _) as [hb| | |]; cbn [rbind]; [apply Next | reflexivity ..].
  Qed.
  Lemma unit_inside k : within_block bs base size (nth k addrs 0) c -> inside bytewise uaddrs (c * u) (0 + Z.of_nat k).
  Proof.
    intros [V1 [V2 _]]. unfold inside. rewrite uel_addr, Z.add_0_l, Nat2Z.id. unfold bytewise. cbn [m_base m_max].
    pose proof upos. split; [mul | rewrite <- Z.mul_add_distr_r; mul].
  Qed.
  Lemma unit_vaccess checked load masks blen h buf : length masks = total -> c * u * Z.of_nat total <= blen ->
    (forall k, (k < length masks)%nat -> nth k masks false = true -> within_block bs base size (nth k addrs 0) c) ->
    vaccess checked avail m load addrs masks (c * u) blen h buf =
    elements true avail bytewise load uaddrs masks 0 (c * u) blen (c * u) h buf.
  Proof.
    intros L Hbl Hin. pose proof upos as Hu. unfold vaccess. rewrite munit. replace (u =? 0) with false by lia. cbv zeta.
    rewrite Z.quot_mul by lia. unfold hassert. replace (0 <? c) with true by lia. rewrite andb_false_r.
    apply unit_elements; [exact Hbl | lia | lia |]. exact Hin.
  Qed.
  Lemma unit_gather checked masks blen h buf : length masks = total -> c * u * Z.of_nat total <= blen ->
    (forall k, (k < length masks)%nat -> nth k masks false = true -> within_block bs base size (nth k addrs 0) c) ->
    exists buf', vaccess checked avail m true addrs masks (c * u) blen h buf = Done (h, buf') /\
      (forall j, (j < 0 \/ c * u * Z.of_nat total <= j) -> buf' j = buf j) /\
      (forall k j, (k < total)%nat -> 0 <= j < c * u ->
         buf' (c * u * Z.of_nat k + j) =
         if nth k masks false then flat ptrs (bs * u) h (nth k addrs 0 * u + j) else buf (c * u * Z.of_nat k + j)).
  Proof.
    intros L Hbl Hin. pose proof upos as Hu. assert (Kc : 0 < c * u) by mul. rewrite unit_vaccess by assumption.
    destruct umake as [kk [rest [Hk [Ek [Em [Ep [Ex Wf]]]]]]].
    destruct C as [_ [Hb [Hbu [B0 [S0 [H2 [H3 _]]]]]]].
    destruct (Nat.eq_dec total 0) as [T|T].
    { rewrite T in L. destruct masks; [|discriminate]. exists buf. split; [reflexivity|]. split; [reflexivity|]. lia. }
    assert (Kt : c * u <= c * u * Z.of_nat total) by (apply mul_ge; lia).
    destruct (elements_load avail bytewise Wf uaddrs (c * u) total ltac:(lia) Ht uaddrs_ok) with (blen := blen) (masks := masks) (i := 0) (h := h) (buf := buf)
      as [buf' [D1 [D2 D3]]].
    - right. unfold uaddrs. rewrite map_length. exact Hl.
    - unfold uaddrs. rewrite map_length. lia.
    - exact Hbl.
    - lia.
    - lia.
    - intros k Hk1 Mk. apply unit_inside. apply Hin; assumption.
    - exists buf'. split; [exact D1|]. rewrite L in D2, D3. split.
      + intros j Hj. apply D2. lia.
      + intros k j Hk1 Hj. specialize (D3 k j Hk1 Hj). rewrite Z.add_0_l in D3. rewrite D3.
        destruct (nth k masks false) eqn:Mk; [|reflexivity]. rewrite uel_addr, Nat2Z.id.
        destruct (Hin k ltac:(lia) Mk) as [V1 [V2 V3]].
        assert (K1 : (nth k addrs 0 + c) * u <= (base + size) * u) by mul. rewrite Z.mul_add_distr_r in K1.
        assert (K2 : 0 <= nth k addrs 0 * u) by mul. pose proof ubound.
        unfold bytewise. cbn [m_bs m_blocks]. rewrite Ep. symmetry. apply flat_prefix; lia.
  Qed.
End Units.
