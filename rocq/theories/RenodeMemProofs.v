(** * Proofs about the memory shared with Renode *)
From Coq Require Import ZArith List Bool Lia ZifyBool ZifyNat.
From Verif Require Import CInt RenodeMem RenodeMemSpec.
Import ListNotations.
Open Scope Z_scope.
Ltac Zify.zify_post_hook ::= Z.div_mod_to_equations.

Definition wf (avail : Z -> Z) (m : rmem) : Prop :=
  m_unit m = 1 /\ m_shift m = 0 /\ 0 < m_bs m < 2 ^ 31 /\ m_alloc m = m_bs m /\ 0 <= m_base m /\
  m_max m <= m_bs m * Z.of_nat (length (m_blocks m)) /\ m_max m + 2 ^ 31 <= 2 ^ 64 /\
  good_blocks avail (m_blocks m) (m_bs m).

Lemma wrap_i32 x : - 2 ^ 31 <= x < 2 ^ 31 -> wrap I32 x = x.
Proof. unfold wrap, half, modulus. cbn [is_signed bits]. intro H. rewrite Z.mod_small by lia. lia. Qed.
Lemma wrap_u64 x : wrap U64 x = x mod 2 ^ 64.
Proof. reflexivity. Qed.
Lemma wrap_u32 x : wrap U32 x = x mod 2 ^ 32.
Proof. reflexivity. Qed.
Lemma in_i32 x : - 2 ^ 31 <= x < 2 ^ 31 -> in_range I32 x = true.
Proof. intro H. unfold in_range, tmin, tmax, half. cbn [is_signed]. lia. Qed.
Lemma int_sub_ok a b : - 2 ^ 31 <= a - b < 2 ^ 31 -> int_sub a b = Done (a - b).
Proof. intro H. unfold int_sub. rewrite in_i32 by exact H. reflexivity. Qed.
Lemma int_shl_0 a : 0 <= a < 2 ^ 31 -> int_shl a 0 = Done a.
Proof.
  intro H. unfold int_shl. cbn [Z.ltb Z.compare orb]. change (2 ^ 0) with 1. rewrite Z.mul_1_r, in_i32 by lia.
  replace (a <? 0) with false by lia. reflexivity.
Qed.
Lemma div_in bs a k : 0 < bs -> 0 <= a mod bs + k < bs -> (a + k) / bs = a / bs /\ (a + k) mod bs = a mod bs + k.
Proof.
  intros Hb Hk. pose proof (Z.div_mod a bs ltac:(lia)) as E.
  assert (Q : (a + k) / bs = a / bs) by (symmetry; apply Z.div_unique with (a mod bs + k); [left; exact Hk | lia]).
  split; [exact Q|]. pose proof (Z.div_mod (a + k) bs ltac:(lia)) as E2. rewrite Q in E2. lia.
Qed.

Section P.
  Context (avail : Z -> Z) (m : rmem) (W : wf avail m).
  Notation bs := (m_bs m). Notation ptrs := (m_blocks m).
  Notation flat := (flat (m_blocks m) (m_bs m)).

  Lemma block_at a : 0 <= a < m_max m -> exists p, nth_error ptrs (Z.to_nat (a / bs)) = Some p /\
    nth (Z.to_nat (a / bs)) ptrs 0 = p /\ bs <= avail p /\ (Z.to_nat (a / bs) < length ptrs)%nat.
  Proof.
    intro H. destruct W as [_ [_ [Hb [_ [_ [Hm [_ [_ G]]]]]]]].
    assert (I : a / bs < Z.of_nat (length ptrs)) by (apply Z.div_lt_upper_bound; lia).
    assert (I0 : 0 <= a / bs) by (apply Z.div_pos; lia).
    destruct (nth_error ptrs (Z.to_nat (a / bs))) as [p|] eqn:E.
    - exists p. split; [reflexivity|]. split; [exact (nth_error_nth _ _ 0 E)|].
      split; [|lia]. rewrite Forall_forall in G. apply G. exact (nth_error_In _ _ E).
    - apply nth_error_None in E. lia.
  Qed.

  (** One piece of the loop. *)
  Lemma piece fuel load a blen pos size h buf :
    0 <= a -> 0 < size < 2 ^ 31 -> a + size <= m_max m -> 0 <= pos -> pos + size <= blen ->
    let p := nth (Z.to_nat (a / bs)) ptrs 0 in
    let n := Z.min size (bs - a mod bs) in
    ls_loop avail m (S fuel) load a blen pos size h buf =
    let hb := if load
      then (h, fun i => if (pos <=? i) && (i <? pos + n) then h p (a mod bs + (i - pos)) else buf i)
      else (fun q o => if (q =? p) && (a mod bs <=? o) && (o <? a mod bs + n) then buf (pos + (o - a mod bs)) else h q o, buf) in
    if size - n >? 0 then ls_loop avail m fuel load (a + n) blen (pos + n) (size - n) (fst hb) (snd hb) else Done hb.
  Proof.
    intros H0 H1 H2 H3 H4 p n. destruct (block_at a ltac:(lia)) as [p' [E1 [E2 [E3 E4]]]].
    destruct W as [_ [Hs [Hb [Ha [_ [_ [Hm _]]]]]]].
    rewrite <- E2 in E1, E3. fold p in E1, E3. clearbody p.
    cbn [ls_loop]. replace (bs =? 0) with false by lia. rewrite E1.
    assert (O : a - a / bs * bs = a mod bs) by (pose proof (Z.div_mod a bs ltac:(lia)); lia).
    pose proof (Z.mod_pos_bound a bs ltac:(lia)) as Hmod.
    rewrite O, wrap_i32, Ha, int_sub_ok by lia. cbn [rbind]. fold n. rewrite Hs.
    assert (Hn : 0 < n <= size /\ n <= bs - a mod bs) by (unfold n; lia).
    rewrite !int_shl_0 by lia. cbn [rbind]. unfold copy.
    replace ((n <? 0) || (a mod bs <? 0) || (avail p <? a mod bs + n) || (pos <? 0) || (blen <? pos + n)) with false by lia.
    rewrite wrap_u64, (Z.mod_small (a + n)) by lia. destruct load; reflexivity.
  Qed.

  Lemma loop_load fuel : forall a blen pos size h buf, 0 <= a -> 0 < size < 2 ^ 31 -> a + size <= m_max m ->
    0 <= pos -> pos + size <= blen -> size < Z.of_nat fuel ->
    exists buf', ls_loop avail m fuel true a blen pos size h buf = Done (h, buf') /\
      forall i, buf' i = if (pos <=? i) && (i <? pos + size) then flat h (a + (i - pos)) else buf i.
  Proof.
    induction fuel as [|fuel IH]; intros a blen pos size h buf H0 H1 H2 H3 H4 H5; [lia|].
    rewrite piece by assumption. cbv zeta. cbn [fst snd].
    set (n := Z.min size (bs - a mod bs)).
    assert (Hb : 0 < bs) by (destruct W as [_ [_ [Hb _]]]; lia).
    pose proof (Z.mod_pos_bound a bs Hb) as Hmod.
    assert (Hn : 0 < n <= size /\ n <= bs - a mod bs /\ (n = size \/ n = bs - a mod bs)) by (unfold n; lia). clearbody n.
    assert (F : forall k, 0 <= k < n -> h (nth (Z.to_nat (a / bs)) ptrs 0) (a mod bs + k) = flat h (a + k)).
    { intros k Hk. unfold RenodeMemSpec.flat. destruct (div_in bs a k Hb ltac:(lia)) as [-> ->]. reflexivity. }
    rewrite Z.gtb_ltb. destruct (0 <? size - n) eqn:G.
    - edestruct (IH (a + n) blen (pos + n) (size - n) h) as [buf' [E1 E2]]; [lia | lia | lia | lia | lia | lia |].
      exists buf'. split; [exact E1|]. intro i. rewrite E2.
      destruct ((pos + n <=? i) && (i <? pos + n + (size - n))) eqn:X.
      + replace ((pos <=? i) && (i <? pos + size)) with true by lia. f_equal. lia.
      + destruct ((pos <=? i) && (i <? pos + n)) eqn:Y.
        * replace ((pos <=? i) && (i <? pos + size)) with true by lia. apply F. lia.
        * replace ((pos <=? i) && (i <? pos + size)) with false by lia. reflexivity.
    - assert (n = size) by lia. subst n. eexists. split; [reflexivity|]. intro i. cbv beta.
      destruct ((pos <=? i) && (i <? pos + size)) eqn:Y; [apply F; lia | reflexivity].
  Qed.

  (** Storing a piece, seen flat. *)
  Lemma flat_piece h (buf : buffer) a pos n : 0 <= a < m_max m -> 0 < n <= bs - a mod bs ->
    let p := nth (Z.to_nat (a / bs)) ptrs 0 in
    let h1 := fun q o => if (q =? p) && (a mod bs <=? o) && (o <? a mod bs + n) then buf (pos + (o - a mod bs)) else h q o in
    (forall x, 0 <= x < bs * Z.of_nat (length ptrs) ->
       flat h1 x = if (a <=? x) && (x <? a + n) then buf (pos + (x - a)) else flat h x) /\
    (forall q o, foreign ptrs bs q o -> h1 q o = h q o).
  Proof.
    intros Ha Hn p h1. destruct (block_at a Ha) as [p' [E1 [E2 [E3 E4]]]]. rewrite <- E2 in E1, E3. fold p in E1, E3.
    assert (Hb : 0 < bs) by (destruct W as [_ [_ [Hb _]]]; lia).
    assert (ND : NoDup ptrs) by (destruct W as [_ [_ [_ [_ [_ [_ [_ [ND _]]]]]]]]; exact ND).
    pose proof (Z.mod_pos_bound a bs Hb) as Hmod. split.
    - intros x Hx. unfold RenodeMemSpec.flat, h1. pose proof (Z.mod_pos_bound x bs Hb) as Hxm.
      assert (I0 : 0 <= x / bs) by (apply Z.div_pos; lia).
      assert (I1 : x / bs < Z.of_nat (length ptrs)) by (apply Z.div_lt_upper_bound; lia).
      assert (J0 : 0 <= a / bs) by (apply Z.div_pos; lia).
      pose proof (Z.div_mod x bs ltac:(lia)) as Dx. pose proof (Z.div_mod a bs ltac:(lia)) as Da.
      destruct (Z.eq_dec (x / bs) (a / bs)) as [Q|Q].
      + rewrite Q. unfold p. rewrite Z.eqb_refl. cbn [andb].
        assert (R : (a mod bs <=? x mod bs) && (x mod bs <? a mod bs + n) = ((a <=? x) && (x <? a + n))).
        { rewrite Q in Dx. apply Bool.eq_iff_eq_true. rewrite !andb_true_iff, !Z.leb_le, !Z.ltb_lt. lia. }
        rewrite R. destruct ((a <=? x) && (x <? a + n)); [|reflexivity]. f_equal. rewrite Q in Dx. lia.
      + assert (P : nth (Z.to_nat (x / bs)) ptrs 0 <> p).
        { intro Y. apply Q. apply Z2Nat.inj; [lia | lia |]. apply (proj1 (NoDup_nth ptrs 0) ND); [lia | lia |]. exact Y. }
        apply Z.eqb_neq in P. rewrite P. cbn [andb].
        destruct ((a <=? x) && (x <? a + n)) eqn:Y; [|reflexivity]. exfalso. apply Q.
        destruct (div_in bs a (x - a) Hb) as [D _]; [lia|]. replace (a + (x - a)) with x in D by lia. exact D.
    - intros q o [F|F]; unfold h1.
      + assert (q <> p) by (intros ->; apply F; exact (nth_error_In _ _ E1)).
        replace (q =? p) with false by lia. reflexivity.
      + replace ((q =? p) && (a mod bs <=? o) && (o <? a mod bs + n)) with false by lia. reflexivity.
  Qed.
  Lemma loop_store fuel : forall a blen pos size h buf, 0 <= a -> 0 < size < 2 ^ 31 -> a + size <= m_max m ->
    0 <= pos -> pos + size <= blen -> size < Z.of_nat fuel ->
    exists h', ls_loop avail m fuel false a blen pos size h buf = Done (h', buf) /\
      (forall x, 0 <= x < bs * Z.of_nat (length ptrs) -> flat h' x = flat_write (flat h) a size (fun k => buf (pos + k)) x) /\
      (forall q o, foreign ptrs bs q o -> h' q o = h q o).
  Proof.
    assert (Hm : m_max m <= bs * Z.of_nat (length ptrs)) by (destruct W as [_ [_ [_ [_ [_ [Hm _]]]]]]; exact Hm).
    induction fuel as [|fuel IH]; intros a blen pos size h buf H0 H1 H2 H3 H4 H5; [lia|].
    rewrite piece by assumption. cbv zeta. cbn [fst snd].
    set (n := Z.min size (bs - a mod bs)).
    assert (Hb : 0 < bs) by (destruct W as [_ [_ [Hb _]]]; lia).
    pose proof (Z.mod_pos_bound a bs Hb) as Hmod.
    assert (Hn : 0 < n <= size /\ n <= bs - a mod bs /\ (n = size \/ n = bs - a mod bs)) by (unfold n; lia). clearbody n.
    destruct (flat_piece h buf a pos n) as [F1 F2]; [lia | lia |]. cbv zeta in F1, F2.
    set (h1 := fun q o => _) in *.
    rewrite Z.gtb_ltb. destruct (0 <? size - n) eqn:G.
    - destruct (IH (a + n) blen (pos + n) (size - n) h1 buf) as [h' [E1 [E2 E3]]]; [lia | lia | lia | lia | lia | lia |].
      exists h'. split; [exact E1|]. split.
      + intros x Hx. rewrite (E2 x Hx). unfold flat_write. rewrite (F1 x) by lia.
        destruct ((a + n <=? x) && (x <? a + n + (size - n))) eqn:X.
        * replace ((a <=? x) && (x <? a + size)) with true by lia. f_equal. lia.
        * destruct ((a <=? x) && (x <? a + n)) eqn:Y.
          -- replace ((a <=? x) && (x <? a + size)) with true by lia. reflexivity.
          -- replace ((a <=? x) && (x <? a + size)) with false by lia. reflexivity.
      + intros q o Ho. rewrite (E3 q o Ho). apply F2. exact Ho.
    - assert (n = size) by lia. subst n. exists h1. split; [reflexivity|]. split; [|exact F2].
      intros x Hx. rewrite (F1 x) by lia. reflexivity.
  Qed.

  Lemma hassert_true (h : heap) (k : res (heap * buffer)) : hassert true true h k = k.
  Proof. reflexivity. Qed.
  (** LoadStoreHelper with the checks. *)
  Lemma helper_rejects load a blen pos size h buf : m_max m <= a ->
    ls_helper true avail m load a blen pos size h buf = Rejected h.
  Proof. intro H. unfold ls_helper, hassert. replace (a <? m_max m) with false by lia. reflexivity. Qed.
  Lemma checked_helper load a blen pos size h buf : 0 <= a < 2 ^ 64 -> 0 < size < 2 ^ 31 ->
    hassert true (valid m a (wrap U64 (a + size))) h (ls_helper true avail m load a blen pos size h buf) =
    if (m_base m <=? a) && (a + size <=? m_max m)
    then ls_loop avail m (S (Z.to_nat size)) load a blen pos size h buf else Rejected h.
  Proof.
    intros Ha Hs. destruct W as [_ [_ [_ [_ [Hb0 [_ [Hm _]]]]]]].
    unfold hassert, valid. rewrite wrap_u64. cbn [andb].
    destruct ((m_base m <=? a) && (a + size <=? m_max m)) eqn:V.
    - rewrite (Z.mod_small (a + size)) by lia. rewrite V. cbn [negb]. unfold ls_helper, hassert. cbn [andb].
      replace (a <? m_max m) with true by lia. reflexivity.
    - destruct (Z_lt_dec (a + size) (2 ^ 64)) as [L|L].
      + rewrite (Z.mod_small (a + size)) by lia. rewrite V. reflexivity.
      + destruct (negb _); [reflexivity|]. apply helper_rejects. lia.
  Qed.

  Theorem load_exact a blen h buf : 0 <= a < 2 ^ 64 -> 0 <= blen < 2 ^ 31 ->
    (0 < blen -> m_base m <= a -> a + blen <= m_max m ->
       exists buf', rload true avail m a blen h buf = Done (h, buf') /\
         forall i, buf' i = if (0 <=? i) && (i <? blen) then flat h (a + i) else buf i) /\
    (~ (0 < blen /\ m_base m <= a /\ a + blen <= m_max m) -> rload true avail m a blen h buf = Rejected h).
  Proof.
    intros Ha Hl. assert (U : m_unit m = 1) by apply W. assert (B0 : 0 <= m_base m) by apply W.
    unfold rload, access. rewrite U. cbn [Z.eqb]. cbv zeta. rewrite Z.quot_1_r.
    destruct (0 <? blen) eqn:P.
    - rewrite hassert_true, checked_helper by lia. split.
      + intros _ H1 H2. replace ((m_base m <=? a) && (a + blen <=? m_max m)) with true by lia.
        destruct (loop_load (S (Z.to_nat blen)) a blen 0 blen h buf) as [buf' [E1 E2]]; [lia ..|].
        exists buf'. split; [exact E1|]. intro i. rewrite E2, Z.sub_0_r, Z.add_0_l. reflexivity.
      + intro N. replace ((m_base m <=? a) && (a + blen <=? m_max m)) with false by lia. reflexivity.
    - split; [lia|]. intros _. unfold hassert. cbn [andb negb]. destruct (negb _); reflexivity.
  Qed.
  Theorem store_exact a blen h buf : 0 <= a < 2 ^ 64 -> 0 <= blen < 2 ^ 31 ->
    (0 < blen -> m_base m <= a -> a + blen <= m_max m ->
       exists h', rstore true avail m a blen h buf = Done (h', buf) /\
         (forall x, 0 <= x < bs * Z.of_nat (length ptrs) -> flat h' x = flat_write (flat h) a blen buf x) /\
         (forall q o, foreign ptrs bs q o -> h' q o = h q o)) /\
    (~ (0 < blen /\ m_base m <= a /\ a + blen <= m_max m) -> rstore true avail m a blen h buf = Rejected h).
  Proof.
    intros Ha Hl. assert (U : m_unit m = 1) by apply W. assert (B0 : 0 <= m_base m) by apply W.
    unfold rstore, access. rewrite U. cbn [Z.eqb]. cbv zeta. rewrite Z.quot_1_r.
    destruct (0 <? blen) eqn:P.
    - rewrite hassert_true, checked_helper by lia. split.
      + intros _ H1 H2. replace ((m_base m <=? a) && (a + blen <=? m_max m)) with true by lia.
        destruct (loop_store (S (Z.to_nat blen)) a blen 0 blen h buf) as [h' [E1 [E2 E3]]]; [lia ..|].
        exists h'. split; [exact E1|]. split; [|exact E3]. intros x Hx. rewrite (E2 x Hx). reflexivity.
      + intro N. replace ((m_base m <=? a) && (a + blen <=? m_max m)) with false by lia. reflexivity.
    - split; [lia|]. intros _. unfold hassert. cbn [andb negb]. destruct (negb _); reflexivity.
  Qed.

  (** Elements. *)
  Section El.
    Context (addrs : list Z) (el : Z) (total : nat).
    Hypothesis He : 0 < el < 2 ^ 31.
    Hypothesis Ht : el * Z.of_nat total < 2 ^ 31.
    Hypothesis Ha : Forall (fun a => 0 <= a < 2 ^ 64) addrs.
    Hypothesis Hl : length addrs = 1%nat \/ (total <= length addrs)%nat.
    Hypothesis H1 : (0 < length addrs)%nat.
    Lemma el_addr_ok i : 0 <= i < Z.of_nat total ->
      let several := (1 <? length addrs)%nat in
      exists a0, nth_error addrs (if several then Z.to_nat i else 0%nat) = Some a0 /\
        (if several then a0 else wrap U64 (a0 + wrap U32 (i * el))) = el_addr addrs el i /\
        0 <= el_addr addrs el i < 2 ^ 64 /\ wrap U32 (el * i) = el * i.
    Proof.
      intros Hi several. assert (Hie : 0 <= i * el < 2 ^ 31) by nia.
      assert (L : ((if several then Z.to_nat i else 0) < length addrs)%nat) by (unfold several; destruct (1 <? length addrs)%nat eqn:S; lia).
      destruct (nth_error addrs (if several then Z.to_nat i else 0%nat)) as [a0|] eqn:E; [|apply nth_error_None in E; lia].
      exists a0. split; [reflexivity|]. pose proof (nth_error_nth _ _ 0 E) as N.
      assert (A0 : 0 <= a0 < 2 ^ 64) by (rewrite Forall_forall in Ha; apply Ha; exact (nth_error_In _ _ E)).
      rewrite !wrap_u32, (Z.mul_comm el i), (Z.mod_small (i * el)) by lia.
      unfold el_addr. fold several. destruct several.
      - rewrite N. auto.
      - rewrite N, wrap_u64. split; [reflexivity|]. split; [apply Z.mod_pos_bound; lia | reflexivity].
    Qed.
    Definition inside (i : Z) : Prop := m_base m <= el_addr addrs el i /\ el_addr addrs el i + el <= m_max m.

    Lemma elements_load blen : el * Z.of_nat total <= blen -> forall masks i h buf, 0 <= i -> i + Z.of_nat (length masks) <= Z.of_nat total ->
      (forall k, (k < length masks)%nat -> nth k masks false = true -> inside (i + Z.of_nat k)) ->
      exists buf', elements true avail m true addrs masks i el blen el h buf = Done (h, buf') /\
        (forall j, (j < el * i \/ el * (i + Z.of_nat (length masks)) <= j) -> buf' j = buf j) /\
        (forall k j, (k < length masks)%nat -> 0 <= j < el ->
           buf' (el * (i + Z.of_nat k) + j) =
           if nth k masks false then flat h (el_addr addrs el (i + Z.of_nat k) + j) else buf (el * (i + Z.of_nat k) + j)).
    Proof.
      intros Hbl. induction masks as [|b masks IH]; intros i h buf Hi Hn Hin.
      - exists buf. split; [reflexivity|]. split; [reflexivity|]. cbn. lia.
      - cbn [length] in Hn.
        assert (Next : forall h buf, exists buf', elements true avail m true addrs masks (i + 1) el blen el h buf = Done (h, buf') /\
        (forall j, (j < el * (i + 1) \/ el * (i + 1 + Z.of_nat (length masks)) <= j) -> buf' j = buf j) /\
        (forall k j, (k < length masks)%nat -> 0 <= j < el ->
           buf' (el * (i + 1 + Z.of_nat k) + j) =
           if nth k masks false then flat h (el_addr addrs el (i + 1 + Z.of_nat k) + j) else buf (el * (i + 1 + Z.of_nat k) + j))).
        { intros h0 buf0. apply IH; [lia | lia |]. intros k Hk Hb. replace (i + 1 + Z.of_nat k) with (i + Z.of_nat (S k)) by lia.
          apply Hin; [cbn; lia | exact Hb]. }
        cbn [elements]. destruct b.
        + destruct (el_addr_ok i ltac:(lia)) as [a0 [E1 [E2 [E3 E4]]]]. cbv zeta. rewrite E1, E2, E4.
          destruct (Hin 0%nat ltac:(cbn; lia) eq_refl) as [I1 I2]. rewrite Z.add_0_r in I1, I2.
          rewrite checked_helper by lia.
          replace ((m_base m <=? el_addr addrs el i) && (el_addr addrs el i + el <=? m_max m)) with true by lia.
          destruct (loop_load (S (Z.to_nat el)) (el_addr addrs el i) blen (el * i) el h buf) as [b1 [L1 L2]]; [lia | lia | lia | nia | nia | lia |].
          rewrite L1. cbn [rbind fst snd].
          destruct (Next h b1) as [buf' [N1 [N2 N3]]]. exists buf'. split; [exact N1|]. split.
          * intros j Hj. cbn [length] in Hj. rewrite N2 by nia. rewrite L2.
            replace ((el * i <=? j) && (j <? el * i + el)) with false by nia. reflexivity.
          * intros k j Hk Hj. destruct k as [|k].
            -- cbn [nth Z.of_nat]. rewrite Z.add_0_r, N2 by nia. rewrite L2.
               replace ((el * i <=? el * i + j) && (el * i + j <? el * i + el)) with true by lia. f_equal. lia.
            -- cbn [nth length] in *. replace (i + Z.of_nat (S k)) with (i + 1 + Z.of_nat k) by lia.
               rewrite N3 by lia. destruct (nth k masks false); [reflexivity|]. rewrite L2.
               replace ((el * i <=? el * (i + 1 + Z.of_nat k) + j) && (el * (i + 1 + Z.of_nat k) + j <? el * i + el)) with false by nia. reflexivity.
        + destruct (Next h buf) as [buf' [N1 [N2 N3]]]. exists buf'. split; [exact N1|]. split.
          * intros j Hj. cbn [length] in Hj. apply N2. nia.
          * intros k j Hk Hj. destruct k as [|k].
            -- cbn [nth Z.of_nat]. rewrite Z.add_0_r. apply N2. nia.
            -- cbn [nth length] in *. replace (i + Z.of_nat (S k)) with (i + 1 + Z.of_nat k) by lia. apply N3; lia.
    Qed.

    Lemma scatter_ext f g masks : forall i (bytes : Z -> Z), (forall x, 0 <= x < bs * Z.of_nat (length ptrs) -> f x = g x) ->
      forall x, 0 <= x < bs * Z.of_nat (length ptrs) -> flat_scatter f addrs masks i el bytes x = flat_scatter g addrs masks i el bytes x.
    Proof.
      revert f g. induction masks as [|b masks IH]; intros f g i bytes E x Hx; [apply E; exact Hx|].
      cbn [flat_scatter]. apply IH; [|exact Hx]. intros y Hy. destruct b; [|apply E; exact Hy].
      unfold flat_write. destruct (_ && _); [reflexivity | apply E; exact Hy].
    Qed.
    Lemma elements_store blen : el * Z.of_nat total <= blen -> forall masks i h buf, 0 <= i -> i + Z.of_nat (length masks) <= Z.of_nat total ->
      (forall k, (k < length masks)%nat -> nth k masks false = true -> inside (i + Z.of_nat k)) ->
      exists h', elements true avail m false addrs masks i el blen el h buf = Done (h', buf) /\
        (forall x, 0 <= x < bs * Z.of_nat (length ptrs) -> flat h' x = flat_scatter (flat h) addrs masks i el buf x) /\
        (forall q o, foreign ptrs bs q o -> h' q o = h q o).
    Proof.
      intros Hbl. assert (B0 : 0 <= m_base m) by apply W.
      induction masks as [|b masks IH]; intros i h buf Hi Hn Hin.
      - exists h. split; [reflexivity|]. split; reflexivity.
      - cbn [length] in Hn.
        assert (Next : forall h0, exists h', elements true avail m false addrs masks (i + 1) el blen el h0 buf = Done (h', buf) /\
          (forall x, 0 <= x < bs * Z.of_nat (length ptrs) -> flat h' x = flat_scatter (flat h0) addrs masks (i + 1) el buf x) /\
          (forall q o, foreign ptrs bs q o -> h' q o = h0 q o)).
        { intros h0. apply IH; [lia | lia |]. intros k Hk Hb. replace (i + 1 + Z.of_nat k) with (i + Z.of_nat (S k)) by lia.
          apply Hin; [cbn; lia | exact Hb]. }
        cbn [elements flat_scatter]. destruct b.
        + destruct (el_addr_ok i ltac:(lia)) as [a0 [E1 [E2 [E3 E4]]]]. cbv zeta. rewrite E1, E2, E4.
          destruct (Hin 0%nat ltac:(cbn; lia) eq_refl) as [I1 I2]. rewrite Z.add_0_r in I1, I2.
          rewrite checked_helper by lia.
          replace ((m_base m <=? el_addr addrs el i) && (el_addr addrs el i + el <=? m_max m)) with true by lia.
          destruct (loop_store (S (Z.to_nat el)) (el_addr addrs el i) blen (el * i) el h buf) as [h1 [L1 [L2 L3]]]; [lia | lia | lia | nia | nia | lia |].
          rewrite L1. cbn [rbind fst snd].
          destruct (Next h1) as [h' [N1 [N2 N3]]]. exists h'. split; [exact N1|]. split.
          * intros x Hx. rewrite (N2 x Hx). apply scatter_ext; [|exact Hx]. intros y Hy. apply L2. exact Hy.
          * intros q o Ho. rewrite (N3 q o Ho). apply L3. exact Ho.
        + apply Next.
    Qed.
    (** The first unmasked element outside stops the access; what was stored
        before is the scatter of the elements before it. *)
    Lemma elements_reject load blen : el * Z.of_nat total <= blen -> forall masks i h buf, 0 <= i -> i + Z.of_nat (length masks) <= Z.of_nat total ->
      forall j, (j < length masks)%nat -> nth j masks false = true -> ~ inside (i + Z.of_nat j) ->
      (forall k, (k < j)%nat -> nth k masks false = true -> inside (i + Z.of_nat k)) ->
      exists h', elements true avail m load addrs masks i el blen el h buf = Rejected h' /\
        (load = true -> h' = h) /\
        (load = false -> forall x, 0 <= x < bs * Z.of_nat (length ptrs) -> flat h' x = flat_scatter (flat h) addrs (firstn j masks) i el buf x).
    Proof.
      intros Hbl. assert (B0 : 0 <= m_base m) by apply W.
      induction masks as [|b masks IH]; intros i h buf Hi Hn j Hj Mj Oj Before; [cbn in Hj; lia|].
      cbn [length] in Hn, Hj. cbn [elements]. destruct j as [|j].
      - cbn [nth] in Mj. subst b. rewrite Z.add_0_r in Oj.
        destruct (el_addr_ok i ltac:(lia)) as [a0 [E1 [E2 [E3 E4]]]]. cbv zeta. rewrite E1, E2, E4, checked_helper by lia.
        unfold inside in Oj. replace ((m_base m <=? el_addr addrs el i) && (el_addr addrs el i + el <=? m_max m)) with false by lia.
        exists h. split; [reflexivity|]. split; [reflexivity|]. reflexivity.
      - cbn [nth] in Mj. assert (Oj' : ~ inside (i + 1 + Z.of_nat j)) by (replace (i + 1 + Z.of_nat j) with (i + Z.of_nat (S j)) by lia; exact Oj).
        assert (Before' : forall k, (k < j)%nat -> nth k masks false = true -> inside (i + 1 + Z.of_nat k)).
        { intros k Hk Mk. replace (i + 1 + Z.of_nat k) with (i + Z.of_nat (S k)) by lia. apply Before; [lia | exact Mk]. }
        cbn [firstn flat_scatter]. destruct b.
        + destruct (el_addr_ok i ltac:(lia)) as [a0 [E1 [E2 [E3 E4]]]]. cbv zeta. rewrite E1, E2, E4.
          destruct (Before 0%nat ltac:(lia) eq_refl) as [I1 I2]. rewrite Z.add_0_r in I1, I2.
          rewrite checked_helper by lia.
          replace ((m_base m <=? el_addr addrs el i) && (el_addr addrs el i + el <=? m_max m)) with true by lia.
          destruct load.
          * destruct (loop_load (S (Z.to_nat el)) (el_addr addrs el i) blen (el * i) el h buf) as [b1 [L1 L2]]; [lia | lia | lia | nia | nia | lia |].
            rewrite L1. cbn [rbind fst snd].
            destruct (IH (i + 1) h b1 ltac:(lia) ltac:(lia) j ltac:(lia) Mj Oj' Before') as [h' [N1 [N2 N3]]].
            exists h'. split; [exact N1|]. split; [exact N2 | discriminate].
          * destruct (loop_store (S (Z.to_nat el)) (el_addr addrs el i) blen (el * i) el h buf) as [h1 [L1 [L2 L3]]]; [lia | lia | lia | nia | nia | lia |].
            rewrite L1. cbn [rbind fst snd].
            destruct (IH (i + 1) h1 buf ltac:(lia) ltac:(lia) j ltac:(lia) Mj Oj' Before') as [h' [N1 [N2 N3]]].
            exists h'. split; [exact N1|]. split; [discriminate|]. intros _ x Hx. rewrite (N3 eq_refl x Hx).
            apply scatter_ext; [|exact Hx]. intros y Hy. apply L2. exact Hy.
        + apply IH; try assumption; lia.
    Qed.
  End El.
End P.

(** The constructor. *)
Lemma make_ok avail bs size ptrs base h :
  0 < bs < 2 ^ 31 -> 0 <= base -> 0 <= size -> 0x3fffff < base + size -> base + size + 2 ^ 31 <= 2 ^ 64 ->
  (base + size + bs - 1) / bs <= 2 ^ 31 -> base + size <= bs * Z.of_nat (length ptrs) -> good_blocks avail ptrs bs ->
  exists m, make true bs size ptrs base 1 h = Done m /\ wf avail m /\ m_bs m = bs /\ m_base m = base /\
    m_max m = base + size /\ exists rest, ptrs = m_blocks m ++ rest.
Proof.
  intros Hb H0 H1 H2 H3 H4 H5 [G1 G2]. unfold make, hassert. cbn [andb].
  rewrite !wrap_u64, (Z.mod_small (base + size)), (Z.mod_small (base + size + bs - 1)) by lia.
  replace (0x3fffff <? base + size) with true by lia. cbn [negb]. replace (bs =? 0) with false by lia.
  set (nb := (base + size + bs - 1) / bs) in *.
  assert (N1 : base + size <= bs * nb).
  { unfold nb. pose proof (Z.div_mod (base + size + bs - 1) bs ltac:(lia)) as D.
    pose proof (Z.mod_pos_bound (base + size + bs - 1) bs ltac:(lia)). lia. }
  assert (N0 : 0 <= nb) by (unfold nb; apply Z.div_pos; lia).
  assert (N2 : nb <= Z.of_nat (length ptrs)).
  { unfold nb. assert (Q : (base + size + bs - 1) / bs < Z.of_nat (length ptrs) + 1) by (apply Z.div_lt_upper_bound; lia). lia. }
  replace (2 ^ 31 <? nb) with false by lia. replace (Z.of_nat (length ptrs) <? nb) with false by lia.
  eexists. split; [reflexivity|].
  assert (L : length (firstn (Z.to_nat nb) ptrs) = Z.to_nat nb) by (rewrite firstn_length; lia).
  split; [|cbn [m_bs m_base m_max m_blocks]; repeat split; exists (skipn (Z.to_nat nb) ptrs); symmetry; apply firstn_skipn].
  unfold wf. cbn [m_unit m_shift m_bs m_alloc m_base m_max m_blocks]. rewrite L.
  split; [reflexivity|]. split; [reflexivity|]. split; [exact Hb|].
  split; [rewrite Z.mul_1_r, Z.mod_small, wrap_i32 by lia; reflexivity|]. split; [exact H0|]. split; [lia|]. split; [exact H3|].
  rewrite <- (firstn_skipn (Z.to_nat nb) ptrs) in G1, G2. split.
  - clear - G1. revert G1. generalize (skipn (Z.to_nat nb) ptrs). generalize (firstn (Z.to_nat nb) ptrs). intros a b.
    induction a as [|x a IH]; intro N; [constructor|]. inversion N; subst. constructor; [|apply IH; assumption].
    intro I. apply H1. apply in_or_app. left. exact I.
  - apply Forall_app in G2. apply G2.
Qed.

(** The caller's array and the part of it that is kept. *)
Lemma flat_prefix (kept rest : list Z) bs h x : 0 < bs -> 0 <= x < bs * Z.of_nat (length kept) ->
  flat (kept ++ rest) bs h x = flat kept bs h x.
Proof.
  intros Hb Hx. unfold flat. rewrite app_nth1; [reflexivity|].
  assert (x / bs < Z.of_nat (length kept)) by (apply Z.div_lt_upper_bound; lia). pose proof (Z.div_pos x bs ltac:(lia) Hb). lia.
Qed.
Lemma flat_rest avail (kept rest : list Z) bs h h' x : 0 < bs -> good_blocks avail (kept ++ rest) bs ->
  bs * Z.of_nat (length kept) <= x < bs * Z.of_nat (length (kept ++ rest)) ->
  (forall q o, foreign kept bs q o -> h' q o = h q o) -> flat (kept ++ rest) bs h' x = flat (kept ++ rest) bs h x.
Proof.
  intros Hb [ND _] Hx F. unfold flat. apply F. left.
  assert (I : Z.of_nat (length kept) <= x / bs) by (apply Z.div_le_lower_bound; lia).
  assert (J : x / bs < Z.of_nat (length (kept ++ rest))) by (apply Z.div_lt_upper_bound; lia).
  rewrite app_length in J. intro In1. rewrite app_nth2 in In1 by lia.
  assert (In2 : In (nth (Z.to_nat (x / bs) - length kept) rest 0) rest) by (apply nth_In; lia).
  revert ND In1 In2. generalize (nth (Z.to_nat (x / bs) - length kept) rest 0). clear. intros y ND A B.
  induction kept as [|k kept IH]; [contradiction|]. cbn [app] in ND. inversion ND; subst. destruct A as [-> | A]; [|auto].
  apply H1. apply in_or_app. right. exact B.
Qed.
Lemma foreign_prefix (kept rest : list Z) bs q o : foreign (kept ++ rest) bs q o -> foreign kept bs q o.
Proof. intros [F|F]; [left | right; exact F]. intro I. apply F. apply in_or_app. left. exact I. Qed.

Lemma config_wf avail bs size ptrs base h m : config avail bs size ptrs base -> make true bs size ptrs base 1 h = Done m ->
  wf avail m /\ m_bs m = bs /\ m_base m = base /\ m_max m = base + size /\ exists rest, ptrs = m_blocks m ++ rest.
Proof.
  intros [A [B [C [D [E [F [G H]]]]]]] M. destruct (make_ok avail bs size ptrs base h A B C D E F G H) as [m' [M' R]].
  assert (m' = m) by congruence. subst m'. exact R.
Qed.

(** What [flat_scatter] leaves alone. *)
Lemma scatter_outside addrs el bound masks : forall f i (bytes : Z -> Z) x, bound <= x ->
  (forall k, (k < length masks)%nat -> nth k masks false = true -> el_addr addrs el (i + Z.of_nat k) + el <= bound) ->
  flat_scatter f addrs masks i el bytes x = f x.
Proof.
  induction masks as [|b masks IH]; intros f i bytes x Hx H; [reflexivity|]. cbn [flat_scatter].
  rewrite IH; [|exact Hx | intros k Hk Mk; replace (i + 1 + Z.of_nat k) with (i + Z.of_nat (S k)) by lia; apply H; [cbn; lia | exact Mk]].
  destruct b; [|reflexivity]. unfold flat_write. specialize (H 0%nat ltac:(cbn; lia) eq_refl). rewrite Z.add_0_r in H.
  replace ((el_addr addrs el i <=? x) && (x <? el_addr addrs el i + el)) with false by lia. reflexivity.
Qed.
Lemma scatter_eq f g addrs masks el : forall i (bytes : Z -> Z) x, f x = g x ->
  flat_scatter f addrs masks i el bytes x = flat_scatter g addrs masks i el bytes x.
Proof.
  revert f g. induction masks as [|b masks IH]; intros f g i bytes x E; [exact E|]. cbn [flat_scatter]. apply IH.
  destruct b; [|exact E]. unfold flat_write. destruct (_ && _); [reflexivity | exact E].
Qed.

Section Public.
  Context (avail : Z -> Z) (bs size : Z) (ptrs : list Z) (base : Z) (h0 : heap) (m : rmem).
  Context (C : config avail bs size ptrs base) (M : make true bs size ptrs base 1 h0 = Done m).
  Lemma parts : exists rest, wf avail m /\ m_bs m = bs /\ m_base m = base /\ m_max m = base + size /\ ptrs = m_blocks m ++ rest /\
    0 < bs /\ 0 <= base /\ base + size <= bs * Z.of_nat (length (m_blocks m)) /\ good_blocks avail (m_blocks m ++ rest) bs.
  Proof.
    destruct (config_wf _ _ _ _ _ _ _ C M) as [W [E1 [E2 [E3 [rest E4]]]]]. exists rest.
    split; [exact W|]. split; [exact E1|]. split; [exact E2|]. split; [exact E3|]. split; [exact E4|].
    destruct C as [A [B [_ [_ [_ [_ [_ H]]]]]]]. split; [lia|]. split; [exact B|]. split; [|rewrite <- E4; exact H].
    destruct W as [_ [_ [_ [_ [_ [X _]]]]]]. rewrite E1, E3 in X. exact X.
  Qed.
  Lemma pub_load a n h buf : 0 <= a < 2 ^ 64 -> 0 <= n < 2 ^ 31 ->
    (0 < n -> within base size a n ->
       exists buf', rload true avail m a n h buf = Done (h, buf') /\
         forall i, buf' i = if (0 <=? i) && (i <? n) then flat ptrs bs h (a + i) else buf i) /\
    (~ (0 < n /\ within base size a n) -> rload true avail m a n h buf = Rejected h).
  Proof.
    intros Ha Hn. destruct parts as [rest [W [E1 [E2 [E3 [E4 [Hb [B0 [X G]]]]]]]]].
    destruct (load_exact avail m W a n h buf Ha Hn) as [L1 L2]. rewrite E1, E2, E3 in L1. rewrite E2, E3 in L2. split; [|exact L2].
    intros N [V1 V2]. destruct (L1 N V1 V2) as [buf' [D1 D2]]. exists buf'. split; [exact D1|]. intro i. rewrite D2.
    destruct ((0 <=? i) && (i <? n)) eqn:I; [|reflexivity]. rewrite E4, flat_prefix by lia. reflexivity.
  Qed.
  Lemma widen h h' (g : Z -> Z) : 
    (forall x, 0 <= x < bs * Z.of_nat (length (m_blocks m)) -> flat (m_blocks m) bs h' x = g x) ->
    (forall q o, foreign (m_blocks m) bs q o -> h' q o = h q o) ->
    (forall x, base + size <= x -> g x = flat ptrs bs h x) ->
    (forall x, 0 <= x < bs * Z.of_nat (length ptrs) -> flat ptrs bs h' x = g x) /\
    (forall q o, foreign ptrs bs q o -> h' q o = h q o).
  Proof.
    intros H1 H2 H3. destruct parts as [rest [W [E1 [E2 [E3 [E4 [Hb [B0 [X G]]]]]]]]]. split.
    - intros x Hx. destruct (Z_lt_dec x (bs * Z.of_nat (length (m_blocks m)))) as [L|L].
      + rewrite E4, flat_prefix by lia. apply H1. lia.
      + rewrite H3 by lia. rewrite E4 in Hx |- *. apply (flat_rest avail); [exact Hb | exact G | lia | exact H2].
    - intros q o F. apply H2. rewrite E4 in F. exact (foreign_prefix _ _ _ _ _ F).
  Qed.
  Lemma pub_store a n h buf : 0 <= a < 2 ^ 64 -> 0 <= n < 2 ^ 31 ->
    (0 < n -> within base size a n ->
       exists h', rstore true avail m a n h buf = Done (h', buf) /\
         (forall x, 0 <= x < bs * Z.of_nat (length ptrs) -> flat ptrs bs h' x = flat_write (flat ptrs bs h) a n buf x) /\
         (forall q o, foreign ptrs bs q o -> h' q o = h q o)) /\
    (~ (0 < n /\ within base size a n) -> rstore true avail m a n h buf = Rejected h).
  Proof.
    intros Ha Hn. destruct parts as [rest [W [E1 [E2 [E3 [E4 [Hb [B0 [X G]]]]]]]]].
    destruct (store_exact avail m W a n h buf Ha Hn) as [L1 L2]. rewrite E1, E2, E3 in L1. rewrite E2, E3 in L2. split; [|exact L2].
    intros N [V1 V2]. destruct (L1 N V1 V2) as [h' [D1 [D2 D3]]]. exists h'. split; [exact D1|].
    apply widen; [|exact D3|].
    - intros x Hx. rewrite (D2 x Hx). unfold flat_write. destruct (_ && _); [reflexivity|]. rewrite E4, flat_prefix by lia. reflexivity.
    - intros x Hx. unfold flat_write. replace ((a <=? x) && (x <? a + n)) with false by lia. reflexivity.
  Qed.

  Context (addrs : list Z) (masks : list bool) (el : Z).
  Context (He : 0 < el) (Ht : el * Z.of_nat (length masks) < 2 ^ 31) (Hel : el < 2 ^ 31)
    (Ha : Forall (fun a => 0 <= a < 2 ^ 64) addrs)
    (Hl : length addrs = 1%nat \/ (0 < length addrs /\ length masks <= length addrs)%nat).
  Lemma pub_gather n h buf : el * Z.of_nat (length masks) <= n ->
    (forall k, (k < length masks)%nat -> nth k masks false = true -> within base size (el_addr addrs el (Z.of_nat k)) el) ->
    exists buf', vaccess true avail m true addrs masks el n h buf = Done (h, buf') /\
      (forall j, (j < 0 \/ el * Z.of_nat (length masks) <= j) -> buf' j = buf j) /\
      (forall k j, (k < length masks)%nat -> 0 <= j < el ->
         buf' (el * Z.of_nat k + j) =
         if nth k masks false then flat ptrs bs h (el_addr addrs el (Z.of_nat k) + j) else buf (el * Z.of_nat k + j)).
  Proof.
    intros Hn Hin. destruct parts as [rest [W [E1 [E2 [E3 [E4 [Hb [B0 [X G]]]]]]]]].
    assert (U : m_unit m = 1) by apply W. unfold vaccess. rewrite U. cbn [Z.eqb]. cbv zeta. rewrite Z.quot_1_r.
    unfold hassert. replace (0 <? el) with true by lia. cbn [andb negb].
    destruct (elements_load avail m W addrs el (length masks) ltac:(lia) Ht Ha ltac:(lia) ltac:(lia) n Hn masks 0 h buf) as [buf' [D1 [D2 D3]]].
    - lia.
    - lia.
    - intros k Hk Mk. unfold inside. rewrite E2, E3. exact (Hin k Hk Mk).
    - exists buf'. split; [exact D1|]. rewrite E1 in D3. split.
      + intros j Hj. apply D2. lia.
      + intros k j Hk Hj. specialize (D3 k j Hk Hj). rewrite !Z.add_0_l in D3. rewrite D3.
        destruct (nth k masks false) eqn:Mk; [|reflexivity]. destruct (Hin k Hk Mk) as [I1 I2]. rewrite E4, flat_prefix by lia. reflexivity.
  Qed.
  Lemma pub_scatter n h buf : el * Z.of_nat (length masks) <= n ->
    (forall k, (k < length masks)%nat -> nth k masks false = true -> within base size (el_addr addrs el (Z.of_nat k)) el) ->
    exists h', vaccess true avail m false addrs masks el n h buf = Done (h', buf) /\
      (forall x, 0 <= x < bs * Z.of_nat (length ptrs) -> flat ptrs bs h' x = flat_scatter (flat ptrs bs h) addrs masks 0 el buf x) /\
      (forall q o, foreign ptrs bs q o -> h' q o = h q o).
  Proof.
    intros Hn Hin. destruct parts as [rest [W [E1 [E2 [E3 [E4 [Hb [B0 [X G]]]]]]]]].
    assert (U : m_unit m = 1) by apply W. unfold vaccess. rewrite U. cbn [Z.eqb]. cbv zeta. rewrite Z.quot_1_r.
    unfold hassert. replace (0 <? el) with true by lia. cbn [andb negb].
    destruct (elements_store avail m W addrs el (length masks) ltac:(lia) Ht Ha ltac:(lia) ltac:(lia) n Hn masks 0 h buf) as [h' [D1 [D2 D3]]].
    - lia.
    - lia.
    - intros k Hk Mk. unfold inside. rewrite E2, E3. exact (Hin k Hk Mk).
    - exists h'. split; [exact D1|]. rewrite E1 in D2, D3. apply widen; [|exact D3|].
      + intros x Hx. rewrite (D2 x Hx). apply scatter_eq. rewrite E4, flat_prefix by lia. reflexivity.
      + intros x Hx. apply scatter_outside with (bound := base + size); [exact Hx|]. intros k Hk Mk. exact (proj2 (Hin k Hk Mk)).
  Qed.
  Lemma pub_reject load n h buf j : el * Z.of_nat (length masks) <= n ->
    (j < length masks)%nat -> nth j masks false = true -> ~ within base size (el_addr addrs el (Z.of_nat j)) el ->
    (forall k, (k < j)%nat -> nth k masks false = true -> within base size (el_addr addrs el (Z.of_nat k)) el) ->
    exists h', vaccess true avail m load addrs masks el n h buf = Rejected h' /\ (load = true -> h' = h) /\
      (load = false -> forall x, 0 <= x < base + size ->
         flat ptrs bs h' x = flat_scatter (flat ptrs bs h) addrs (firstn j masks) 0 el buf x).
  Proof.
    intros Hn Hj Mj Oj Hin. destruct parts as [rest [W [E1 [E2 [E3 [E4 [Hb [B0 [X G]]]]]]]]].
    assert (U : m_unit m = 1) by apply W. unfold vaccess. rewrite U. cbn [Z.eqb]. cbv zeta. rewrite Z.quot_1_r.
    unfold hassert. replace (0 <? el) with true by lia. cbn [andb negb].
    destruct (elements_reject avail m W addrs el (length masks) ltac:(lia) Ht Ha ltac:(lia) ltac:(lia) load n Hn masks 0 h buf) with (j := j) as [h' [D1 [D2 D3]]].
    - lia.
    - lia.
    - exact Hj.
    - exact Mj.
    - unfold inside. rewrite E2, E3. exact Oj.
    - intros k Hk Mk. unfold inside. rewrite E2, E3. exact (Hin k Hk Mk).
    - exists h'. split; [exact D1|]. split; [exact D2|]. intros L x Hx. specialize (D3 L x). rewrite E1 in D3.
      rewrite E4, flat_prefix by lia. rewrite D3 by lia. apply scatter_eq. rewrite flat_prefix by lia. reflexivity.
  Qed.
End Public.
