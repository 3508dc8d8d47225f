(** * Proofs about vector loads and stores *)
From Verif Require Import CInt Lane LaneSpec VecModel VecSpec ConvModel ConvSpec MemModel MemSpec
  LaneProofs VecProofs VecEl VecFrame ConvProofs ConvProofs2.
From Coq Require Import ZifyBool ZifyNat.
Import ListNotations.
Ltac Zify.zify_post_hook ::= Z.div_mod_to_equations.

Lemma lanebytes_sizeof T : lanebytes T = sizeof T. Proof. destruct T; reflexivity. Qed.
Lemma num_ops_regs o : num_ops (mo_strip o) = regs_of o. Proof. reflexivity. Qed.
Lemma regs_14 o : regs_of o = 1 \/ regs_of o = 4.
Proof. unfold regs_of. destruct (mo_strip o); auto. Qed.
Lemma elts_small T : small T -> 8 <= elts T <= 32.
Proof. intros H. smalls H; vm_compute; split; discriminate. Qed.
Lemma xs2_ok o : mo_xs2 o <> None -> xs2_val o = Ok (xs2_u o).
Proof. unfold xs2_val, xs2_u. destruct (mo_xs2 o); [|congruence]. intros _. now rewrite wrapU32. Qed.
Lemma xs2_range o : 0 <= xs2_u o < 2 ^ 32.
Proof. unfold xs2_u. destruct (mo_xs2 o); [apply Z.mod_pos_bound|]; lia. Qed.
Lemma mcount_ok T o : small T -> op_ok o -> mcount T o = Ok (nsel T o) /\ 0 <= nsel T o <= regs_of o * elts T.
Proof.
  intros HT Ho. unfold mcount, nsel. rewrite num_ops_regs, nlanes_elts by assumption.
  pose proof (elts_small T HT). pose proof (regs_14 o). pose proof (xs2_range o).
  rewrite wrapU32, Z.mod_small by lia.
  destruct (mo_len o) eqn:E; [|split; [reflexivity|lia]].
  rewrite xs2_ok by (apply Ho; auto). cbn [bind]. split; [reflexivity|lia].
Qed.
Lemma mstride_ok T o : small T -> op_ok o -> exists st, mstride T o = Ok st /\ 0 <= st < 2 ^ 32 /\
  st * sizeof T = stride_of T o /\ (mo_stride o = true -> st = xs2_u o).
Proof.
  intros HT Ho. unfold mstride, stride_of. rewrite lanebytes_sizeof.
  destruct (mo_stride o) eqn:E.
  - rewrite xs2_ok by (apply Ho; auto). exists (xs2_u o). pose proof (xs2_range o). auto.
  - exists (elts T). pose proof (elts_small T HT). pose proof (elts_sizeof T HT).
    split; [reflexivity|]. split; [lia|]. split; [assumption|discriminate].
Qed.
Lemma mbase_ok o : mbase o = base_of o /\ 0 <= base_of o < 2 ^ 32.
Proof.
  unfold mbase, base_of. rewrite wrapU32. destruct (mo_small o).
  - change 0x7fffffff with (Z.ones 31). rewrite Z.land_ones by lia. split; [|lia].
    change (2 ^ 32) with (2 ^ 31 * 2). rewrite Z.rem_mul_r by lia.
    rewrite Z.mul_comm, Z_mod_plus_full, Z.mod_mod by lia. reflexivity.
  - split; [reflexivity|]. apply Z.mod_pos_bound. lia.
Qed.

(** Address of element [e] when pieces have [c] lanes. *)
Definition ad (T : ity) (base sb c e : Z) : Z := (base + (e / c) * sb) mod 2 ^ 32 + (e mod c) * sizeof T.
Lemma eaddr_ad T o q e : small T -> eaddr T o q e =
  ad T (base_of o) (stride_of T o) (if q then elts T / 4 else elts T) e.
Proof. intros HT. unfold eaddr, ad, piece. now rewrite nlanes_elts, lanebytes_sizeof by assumption. Qed.

Lemma divmod c m j : 0 <= j < c -> (m * c + j) / c = m /\ (m * c + j) mod c = j.
Proof.
  intros H. split.
  - rewrite Z.div_add_l by lia. rewrite Z.div_small by lia. lia.
  - rewrite Z.add_comm, Z_mod_plus_full. apply Z.mod_small; lia.
Qed.

(** ** Loads *)
Lemma vld_addrs_ok T nops n stride base : small T -> 0 <= nops -> 0 <= n <= nops * elts T -> 0 <= base < 2 ^ 32 ->
  exists a, vld_addrs T nops n stride base = Ok a /\
    forall e, 0 <= e < n -> a e = Some (ad T base (stride * sizeof T) (elts T) e).
Proof.
  intros HT H0 Hn Hb. unfold vld_addrs. pose proof (elts_small T HT) as He.
  set (sb := stride * sizeof T).
  set (f := fun op (st : cells Z * Z * Z) =>
         let '(a, el, b) := st in
         let count := Z.min el (elts T) in
         a' <- for_n (Z.to_nat count) (fun i a => set_cell n a (op * elts T + i) (b + i * sizeof T)) a ;;
         Ok (a', el - count, wrap U32 (b + sb))).
  destruct (for_n_inv (S := cells Z * Z * Z)
    (fun op st => let '(a, el, b) := st in
       (forall e, 0 <= e < Z.min n (op * elts T) -> a e = Some (ad T base sb (elts T) e)) /\
       el = n - Z.min n (op * elts T) /\ b = (base + op * sb) mod 2 ^ 32)
    f (Z.to_nat nops) (fun _ => None, n, base)) as ([[a el] b] & E & H1 & H2 & H3).
  - split; [intros; lia|]. split; [lia|]. rewrite Z.mul_0_l, Z.add_0_r, Z.mod_small by lia. reflexivity.
  - intros op [[a el] b] Hop (H1 & H2 & H3). unfold f. cbv zeta.
    set (count := Z.min el (elts T)).
    assert (0 <= count <= elts T /\ (0 < count -> op * elts T + count <= n)) as [Hc Hc'] by lia.
    destruct (for_n_inv (S := cells Z)
      (fun i a' => (forall e, 0 <= e < Z.min n (op * elts T) -> a' e = Some (ad T base sb (elts T) e)) /\
         (forall t, 0 <= t < i -> a' (op * elts T + t) = Some (b + t * sizeof T)))
      (fun i a => set_cell n a (op * elts T + i) (b + i * sizeof T)) (Z.to_nat count) a) as (a' & -> & K1 & K2).
    + split; [exact H1|lia].
    + intros i a1 Hi (K1 & K2). unfold set_cell.
      replace ((0 <=? op * elts T + i) && (op * elts T + i <? n)) with true by nia.
      eexists. split; [reflexivity|]. split.
      * intros e Hee. unfold upd. destruct (Z.eqb_spec e (op * elts T + i)); [lia|]. now apply K1.
      * intros t Ht. unfold upd. destruct (Z.eqb_spec (op * elts T + t) (op * elts T + i)).
        -- now replace t with i by lia.
        -- apply K2. lia.
    + cbn [bind]. eexists. split; [reflexivity|]. split; [|split].
      * intros e Hee. destruct (Z.lt_ge_cases e (op * elts T)) as [L|L].
        -- apply K1. lia.
        -- replace e with (op * elts T + (e - op * elts T)) by lia. rewrite K2 by lia. f_equal.
           unfold ad. destruct (divmod (elts T) op (e - op * elts T)) as [-> ->]; [lia|]. now rewrite H3.
      * lia.
      * rewrite wrapU32, H3, Zplus_mod_idemp_l. f_equal. lia.
  - rewrite E. cbn [bind fst]. exists a. split; [reflexivity|]. intros e Hee. apply H1. lia.
Qed.

Lemma load_all_ok T m n a (A : Z -> Z) : 0 <= n -> (forall e, 0 <= e < n -> a e = Some (A e)) ->
  exists vs, load_all T m n a = Ok vs /\ forall e, 0 <= e < n -> vs e = mem_get T m (A e).
Proof.
  intros Hn Ha. unfold load_all.
  destruct (for_n_inv (S := Z -> Z) (fun i vs => forall e, 0 <= e < i -> vs e = mem_get T m (A e))
    (fun i vs => match a i with Some ad => Ok (upd vs i (mem_get T m ad)) | None => UB Uninitialised end)
    (Z.to_nat n) (fun _ => 0)) as (vs & E & H).
  - intros; lia.
  - intros i s Hi H. rewrite Ha by lia. eexists. split; [reflexivity|]. intros e Hee. unfold upd.
    destruct (Z.eqb_spec e i) as [->|]; [reflexivity|]. apply H. lia.
  - exists vs. split; [exact E|]. intros e Hee. apply H. lia.
Qed.

Lemma fill_lanes T b0 (f : Z -> Z) : small T -> (forall e, 0 <= e < elts T -> in_range T (f e) = true) ->
  exists b, for_n (Z.to_nat (elts T)) (fun j b => Ok (lane_put T b j (f j))) b0 = Ok b /\
    (forall j, 0 <= j < 32 -> 0 <= b j < 256) /\
    forall e, 0 <= e < elts T -> lane T b e = f e.
Proof.
  intros HT Hf. destruct (fill_ok T b0 f HT) as (b & E & H). exists b. split; [exact E|].
  pose proof (elts_sizeof T HT). pose proof (sizeof_pos T). split.
  - intros j Hj. assert (0 <= j / sizeof T < elts T) by (split; [apply Z.div_pos; lia|apply Z.div_lt_upper_bound; lia]).
    rewrite (Z.div_mod j (sizeof T)) by lia. rewrite Z.mul_comm. rewrite H by (try apply Z.mod_pos_bound; lia).
    apply byte_range.
  - intros e He. rewrite lane_lane_get. rewrite (lane_get_bytes T b e (f e)) by (intros; now apply H).
    apply wrap_id. now apply Hf.
Qed.

Lemma vld_write_ok T nops n vals vd junk rf : small T -> 0 <= nops <= g_n vd ->
  (forall e, 0 <= e < n -> in_range T (vals e) = true) ->
  exists rf', vld_write T nops n vals vd junk rf = Ok rf' /\
    (forall k e, 0 <= k < nops -> 0 <= e < elts T ->
       lane T (rf' (g_base vd + k)) e = if k * elts T + e <? n then vals (k * elts T + e) else 0) /\
    regs_outside (g_base vd) nops rf rf' /\
    (forall k j, 0 <= k < nops -> 0 <= j < 32 -> 0 <= rf' (g_base vd + k) j < 256).
Proof.
  intros HT Hn Hv. unfold vld_write.
  destruct (for_n_inv (S := vregs)
    (fun i r => (forall k e, 0 <= k < i -> 0 <= e < elts T ->
       lane T (r (g_base vd + k)) e = if k * elts T + e <? n then vals (k * elts T + e) else 0) /\
      (forall x, ~ (g_base vd <= x < g_base vd + i) -> r x = rf x) /\
      (forall k j, 0 <= k < i -> 0 <= j < 32 -> 0 <= r (g_base vd + k) j < 256))
    (fun op (rf : vregs) =>
    if op <? g_n vd then
      b <- for_n (Z.to_nat (elts T)) (fun e b =>
             let idx := op * elts T + e in
             Ok (lane_put T b e (if idx <? n then vals idx else 0))) (junk op) ;;
      Ok (upd rf (g_base vd + op) b)
    else UB OutOfBounds) (Z.to_nat nops) rf) as (rf' & E & H1 & H2 & H3).
  - split; [lia|]. split; [reflexivity|lia].
  - intros op r Hop (H1 & H2 & H3). destruct (op <? g_n vd) eqn:X; [|lia]. clear X. cbv zeta.
    destruct (fill_lanes T (junk op) (fun e => if op * elts T + e <? n then vals (op * elts T + e) else 0) HT)
      as (b & -> & B1 & B2).
    { intros e He. destruct (op * elts T + e <? n) eqn:X; [apply Hv; nia|]. destruct T; reflexivity. }
    cbn [bind]. eexists. split; [reflexivity|]. split; [|split].
    + intros k e Hk He. unfold upd. destruct (Z.eqb_spec (g_base vd + k) (g_base vd + op)).
      * rewrite B2 by lia. now replace k with op by lia.
      * apply H1; lia.
    + intros x Hx. unfold upd. destruct (Z.eqb_spec x (g_base vd + op)); [lia|]. apply H2; lia.
    + intros k j Hk Hj. unfold upd. destruct (Z.eqb_spec (g_base vd + k) (g_base vd + op)); [now apply B1|].
      apply H3; lia.
  - exists rf'. split; [exact E|]. split; [|split].
    + intros k e Hk He. apply H1; lia.
    + intros x Hx. apply H2. lia.
    + intros k j Hk Hj. apply H3; lia.
Qed.

Lemma post_ok T o n stride (q : bool) x : small T -> op_ok o -> n = nsel T o -> q = mo_quad o ->
  stride * sizeof T = stride_of T o -> 0 <= n ->
  exists p, post_addr T o n stride = Ok p /\ post_spec T o q x (write_post o p x).
Proof.
  intros HT Ho -> -> Hs Hn. unfold post_addr, post_spec, write_post, increment.
  destruct (mo_post o) as [r|]; [|exists None; split; [reflexivity|reflexivity]].
  destruct (mbase_ok o) as [-> Hb]. rewrite num_ops_regs.
  assert (U : forall v : Z, (forall r0, r0 <> r -> upd x r v r0 = x r0) /\ upd x r v r = v).
  { intros v. unfold upd. split; [intros r0 H0; now destruct (Z.eqb_spec r0 r)|]. now rewrite Z.eqb_refl. }
  destruct (0 <? nsel T o) eqn:E.
  2: { exists (Some (base_of o)). split; [reflexivity|]. split; [apply U|].
       rewrite (proj2 (U _)). replace (nsel T o =? 0) with true by lia. reflexivity. }
  replace (nsel T o =? 0) with false by lia. rewrite lanebytes_sizeof.
  destruct (mo_len o) eqn:EL, (mo_stride o) eqn:ES; cbn [andb negb].
  - eexists. split; [reflexivity|]. split; [apply U|]. rewrite (proj2 (U _)). apply wrapU32.
  - eexists. split; [reflexivity|]. split; [apply U|]. rewrite (proj2 (U _)). apply wrapU32.
  - eexists. split; [reflexivity|]. split; [apply U|]. rewrite (proj2 (U _)). rewrite wrapU32.
    rewrite Hs. reflexivity.
  - unfold xs2_val. destruct (mo_xs2 o) as [y|] eqn:EX.
    + cbn [bind]. eexists. split; [reflexivity|]. split; [apply U|]. rewrite (proj2 (U _)). rewrite !wrapU32.
      rewrite <- (Zplus_mod_idemp_r (y mod 2 ^ 32 * sizeof T)), Zmult_mod_idemp_l, Zplus_mod_idemp_r. reflexivity.
    + eexists. split; [reflexivity|]. split; [apply U|]. rewrite (proj2 (U _)). apply wrapU32.
Qed.

Lemma trunc_mem T m a : trunc T (uval (Z.to_nat (lanebytes T)) m a) = mem_get T m a.
Proof. unfold mem_get. now rewrite trunc_wrap, uval_le, lanebytes_sizeof. Qed.

Lemma vld_ok T o junk s : small T -> op_ok o -> mo_quad o = false -> regs_of o <= g_n (mo_v o) ->
  exists rf x, exec_vld T o junk s = Ok (MS (m_mem s) rf x) /\
    (forall k j, 0 <= k < regs_of o -> 0 <= j < nlanes T ->
       lane T (rf (g_base (mo_v o) + k)) j =
       let e := k * nlanes T + j in
       if e <? nsel T o then trunc T (uval (Z.to_nat (lanebytes T)) (m_mem s) (eaddr T o false e)) else 0) /\
    regs_outside (g_base (mo_v o)) (regs_of o) (m_v s) rf /\
    (forall k j, 0 <= k < regs_of o -> 0 <= j < 32 -> 0 <= rf (g_base (mo_v o) + k) j < 256) /\
    post_spec T o false (m_x s) x.
Proof.
  intros HT Ho Hq Hg. unfold exec_vld. rewrite num_ops_regs.
  destruct (mcount_ok T o HT Ho) as [-> Hn]. cbn [bind].
  destruct (mstride_ok T o HT Ho) as (st & -> & Hst & Hst2 & _). cbn [bind].
  destruct (mbase_ok o) as [-> Hb].
  pose proof (regs_14 o) as H14.
  destruct (vld_addrs_ok T (regs_of o) (nsel T o) st (base_of o)) as (a & -> & Ha); auto; try lia. cbn [bind].
  destruct (load_all_ok T (m_mem s) (nsel T o) a _ ltac:(lia) Ha) as (vs & -> & Hv). cbn [bind].
  destruct (vld_write_ok T (regs_of o) (nsel T o) vs (mo_v o) junk (m_v s) HT ltac:(lia)) as (rf & -> & W1 & W2 & W3).
  { intros e He. rewrite Hv by assumption. apply wrap_range. }
  cbn [bind].
  destruct (post_ok T o (nsel T o) st false (m_x s) HT Ho eq_refl (eq_sym Hq) Hst2 ltac:(lia)) as (p & -> & HP).
  cbn [bind]. eexists _, _. split; [reflexivity|]. split; [|split; [exact W2|split; [exact W3|exact HP]]].
  intros k j Hk Hj. rewrite nlanes_elts in * by assumption. cbv zeta. rewrite W1 by assumption.
  destruct (k * elts T + j <? nsel T o) eqn:X; [|reflexivity].
  rewrite Hv by (pose proof (elts_small T HT); nia). rewrite trunc_mem, eaddr_ad by assumption. now rewrite Hst2.
Qed.

(** ** Stores *)
Lemma st_loop T n reg lane0 K a ai b : 0 <= K -> 0 <= ai <= n ->
  exists a', for_n (Z.to_nat K) (fun j => st_entry T n reg lane0 j) (a, ai, b) = Ok (a', Z.min n (ai + K), b) /\
    (forall e, 0 <= e < ai -> a' e = a e) /\
    (forall t, 0 <= t < K -> ai + t < n -> a' (ai + t) = Some (b + t * sizeof T, lane_get T reg (lane0 + t))).
Proof.
  intros HK Hai.
  destruct (for_n_inv (S := cells (Z * Z) * Z * Z)
    (fun j st => let '(a', ai', b') := st in ai' = Z.min n (ai + j) /\ b' = b /\
       (forall e, 0 <= e < ai -> a' e = a e) /\
       (forall t, 0 <= t < j -> ai + t < n -> a' (ai + t) = Some (b + t * sizeof T, lane_get T reg (lane0 + t))))
    (fun j => st_entry T n reg lane0 j) (Z.to_nat K) (a, ai, b)) as ([[a' ai'] b'] & E & -> & -> & H1 & H2).
  - split; [lia|]. split; [reflexivity|]. split; [reflexivity|lia].
  - intros j [[a' ai'] b'] Hj (-> & -> & H1 & H2). unfold st_entry.
    destruct (Z.min n (ai + j) <? n) eqn:X.
    + replace (Z.min n (ai + j)) with (ai + j) by lia. unfold set_cell.
      replace ((0 <=? ai + j) && (ai + j <? n)) with true by lia. cbn [bind]. eexists. split; [reflexivity|].
      split; [lia|]. split; [reflexivity|]. split.
      * intros e He. unfold upd. destruct (Z.eqb_spec e (ai + j)); [lia|]. now apply H1.
      * intros t Ht Htn. unfold upd. destruct (Z.eqb_spec (ai + t) (ai + j)).
        -- now replace t with j by lia.
        -- apply H2; lia.
    + eexists. split; [reflexivity|]. split; [lia|]. split; [reflexivity|]. split; [exact H1|].
      intros t Ht Htn. apply H2; lia.
  - exists a'. rewrite E. replace (ai + Z.of_nat (Z.to_nat K)) with (ai + K) by lia. split; [reflexivity|].
    split; [exact H1|]. intros t Ht. apply H2. lia.
Qed.

Lemma elts4 T : small T -> elts T = 4 * (elts T / 4).
Proof. intros HT. smalls HT; reflexivity. Qed.
Section Entries.
  Variables (T : ity) (n stride base : Z) (vs : vgroup) (rf : vregs).
  Hypothesis HT : small T.
  Hypothesis Hn : 0 <= n.
  Hypothesis Hb : 0 <= base < 2 ^ 32.
  Let sb := stride * sizeof T.
  Definition ent c e := Some (ad T base sb c e, lane_get T (rf (g_base vs + e / elts T)) (e mod elts T)).
  (** After [m] pieces of [c] lanes. *)
  Definition stI c m (st : cells (Z * Z) * Z * Z) : Prop :=
    let '(a, ai, b) := st in ai = Z.min n (m * c) /\ b = (base + m * sb) mod 2 ^ 32 /\
      forall e, 0 <= e < ai -> a e = ent c e.

  Lemma piece_ok c m r lane0 st : 0 < c -> 0 <= m -> 0 <= lane0 -> lane0 + c <= elts T ->
    m * c = r * elts T + lane0 -> stI c m st ->
    exists st', for_n (Z.to_nat c) (fun j => st_entry T n (rf (g_base vs + r)) lane0 j) st = Ok st' /\
      stI c (m + 1) (st_advance T stride st').
  Proof.
    destruct st as [[a ai] b]. intros Hc Hm Hl Hlc Hr (-> & -> & Ha).
    assert (0 <= m * c) by nia.
    destruct (st_loop T n (rf (g_base vs + r)) lane0 c a (Z.min n (m * c)) ((base + m * sb) mod 2 ^ 32))
      as (a' & -> & H1 & H2); [lia|lia|].
    eexists. split; [reflexivity|]. unfold st_advance, stI. split; [lia|]. split.
    { rewrite wrapU32, Zplus_mod_idemp_l. f_equal. unfold sb. lia. }
    intros e He. destruct (Z.lt_ge_cases e (m * c)) as [L|L].
    - rewrite H1 by lia. apply Ha. lia.
    - assert (n > m * c) by lia. replace (Z.min n (m * c)) with (m * c) in * by lia.
      replace e with (m * c + (e - m * c)) by lia. rewrite H2 by lia. unfold ent, ad.
      destruct (divmod c m (e - m * c)) as [-> ->]; [lia|].
      replace (m * c + (e - m * c)) with (r * elts T + (lane0 + (e - m * c))) by lia.
      destruct (divmod (elts T) r (lane0 + (e - m * c))) as [-> ->]; [lia|]. reflexivity.
  Qed.

  Lemma entries_ok quad nops : 0 <= nops <= g_n vs -> n <= nops * elts T ->
    exists c, vst_entries T quad nops n stride base vs rf = Ok c /\
      forall e, 0 <= e < n -> c e = ent (if quad then elts T / 4 else elts T) e.
  Proof.
    intros Hg Hn2. unfold vst_entries.
    pose proof (elts_small T HT) as He.
    set (c := if quad then elts T / 4 else elts T).
    set (P := if quad then 4 else 1).
    assert (HP : elts T = P * c).
    { unfold P, c. destruct quad; [now apply elts4|lia]. }
    assert (Hc : 0 < c) by (unfold c; destruct quad; lia).
    set (f := fun op st =>
         reg <- get_reg vs rf op ;;
         if quad then
           let qs := elts T / 4 in
           for_n 4 (fun i st =>
             st' <- for_n (Z.to_nat qs) (fun j => st_entry T n reg (i * qs) j) st ;;
             Ok (st_advance T stride st')) st
         else
           st' <- for_n (Z.to_nat (elts T)) (fun j => st_entry T n reg 0 j) st ;;
           Ok (st_advance T stride st')).
    destruct (for_n_inv (S := cells (Z * Z) * Z * Z) (fun op st => stI c (op * P) st) f (Z.to_nat nops)
      (fun _ => None, 0, base)) as ([[a ai] b] & E & H1 & H2 & H3).
    - unfold stI. split; [lia|]. split; [|lia]. rewrite Z.add_0_r, Z.mod_small by lia. reflexivity.
    - intros op st Hop HI. unfold f. rewrite get_reg_ok by lia. cbn [bind]. cbv zeta.
      subst P c. destruct quad.
      + destruct (for_n_inv (S := cells (Z * Z) * Z * Z) (fun i st => stI (elts T / 4) (op * 4 + i) st)
          (fun i st =>
             st' <- for_n (Z.to_nat (elts T / 4)) (fun j => st_entry T n (rf (g_base vs + op)) (i * (elts T / 4)) j) st ;;
             Ok (st_advance T stride st')) 4 st) as (st' & E' & HI').
        * now rewrite Z.add_0_r.
        * intros i s1 Hi HI1.
          destruct (piece_ok (elts T / 4) (op * 4 + i) op (i * (elts T / 4)) s1) as (s2 & -> & HI2); try lia; try nia; auto.
          cbn [bind]. eexists. split; [reflexivity|]. now rewrite Z.add_assoc.
        * exists st'. split; [exact E'|]. replace ((op + 1) * 4) with (op * 4 + Z.of_nat 4) by lia. exact HI'.
      + destruct (piece_ok (elts T) (op * 1) op 0 st) as (s2 & -> & HI2); try lia; auto.
        cbn [bind]. eexists. split; [reflexivity|]. now replace ((op + 1) * 1) with (op * 1 + 1) by lia.
    - rewrite E. cbn [bind fst]. exists a. split; [reflexivity|]. intros e He'. apply H3. nia.
  Qed.
End Entries.

Lemma byte_lane T b e k : small T -> (forall j, 0 <= j < 32 -> 0 <= b j < 256) -> 0 <= e < elts T -> 0 <= k < sizeof T ->
  byte (lane_get T b e) k = b (e * sizeof T + k).
Proof.
  intros HT Hb He Hk. pose proof (elts_sizeof T HT). pose proof (sizeof_pos T).
  set (v := lane_get T b e).
  pose proof (le_bytes v (Z.to_nat (sizeof T)) (e * sizeof T) 0 ltac:(lia)) as L.
  change (256 ^ 0) with 1 in L. rewrite Z.div_1_r, Z2Nat.id, pow256 in L by lia.
  assert (V : v mod modulus T = le b (e * sizeof T) (Z.to_nat (sizeof T))).
  { unfold v, lane_get.
    pose proof (le_range b (Z.to_nat (sizeof T)) (e * sizeof T)) as R. rewrite Z2Nat.id, pow256 in R by lia.
    set (x := le b (e * sizeof T) (Z.to_nat (sizeof T))) in *.
    assert (0 <= x < modulus T) by (apply R; intros; apply Hb; nia).
    apply (wrap_inj T).
    - apply Z.mod_pos_bound. destruct T; reflexivity.
    - assumption.
    - rewrite wrap_mod. apply wrap_id. apply wrap_range. }
  rewrite V in L.
  assert (Q := le_inj (Z.to_nat (sizeof T)) (fun j => byte v (j - e * sizeof T + 0)) b (e * sizeof T)).
  specialize (Q (fun j _ => byte_range _ _)). 
  specialize (Q ltac:(intros j Hj; apply Hb; nia) L k ltac:(lia)). cbv beta in Q.
  rewrite <- Q. f_equal. lia.
Qed.

Lemma store_all_ok T o q rf m c : small T -> wf rf -> 0 <= nsel T o ->
  (forall e, 0 <= e < nsel T o -> c e = Some (eaddr T o q e, lane_get T (rf (g_base (mo_v o) + e / elts T)) (e mod elts T))) ->
  exists m', store_all T (nsel T o) c m = Ok m' /\ stored T o q rf m m'.
Proof.
  intros HT Hwf Hn Hc. unfold store_all. set (n := nsel T o) in *.
  pose proof (elts_small T HT).
  destruct (for_n_inv (S := Z -> Z)
    (fun i m' => forall A,
      (exists e, 0 <= e < i /\ covers T o q e A /\
         (forall e', e < e' < i -> ~ covers T o q e' A) /\ m' A = ebyte T o q rf e A) \/
      ((forall e, 0 <= e < i -> ~ covers T o q e A) /\ m' A = m A))
    (fun i m => match c i with Some (ad, v) => Ok (mem_put T m ad v) | None => UB Uninitialised end)
    (Z.to_nat n) m) as (m' & E & H1).
  - intros A. right. split; [lia|reflexivity].
  - intros i m1 Hi H1. rewrite Hc by lia. eexists. split; [reflexivity|]. intros A.
    unfold mem_put. destruct ((eaddr T o q i <=? A) && (A <? eaddr T o q i + sizeof T)) eqn:X.
    + left. exists i. split; [lia|]. split; [unfold covers; rewrite lanebytes_sizeof; lia|]. split; [lia|].
      fold (byte (lane_get T (rf (g_base (mo_v o) + i / elts T)) (i mod elts T)) (A - eaddr T o q i)).
      rewrite byte_lane; [|assumption|apply Hwf|apply Z.mod_pos_bound; lia|lia].
      unfold ebyte. now rewrite lanebytes_sizeof, nlanes_elts by assumption.
    + assert (~ covers T o q i A) by (unfold covers; rewrite lanebytes_sizeof; lia).
      destruct (H1 A) as [(e & K1 & K2 & K3 & K4)|(K1 & K2)].
      * left. exists e. split; [lia|]. split; [exact K2|]. split; [|exact K4]. intros e' He'.
        destruct (Z.eq_dec e' i) as [->|]; [assumption|apply K3; lia].
      * right. split; [|exact K2]. intros e He. destruct (Z.eq_dec e i) as [->|]; [assumption|apply K1; lia].
  - exists m'. split; [exact E|]. intros A. specialize (H1 A). rewrite Z2Nat.id in H1 by lia. exact H1.
Qed.

Lemma vst_ok T o s : small T -> op_ok o -> wf (m_v s) -> regs_of o <= g_n (mo_v o) ->
  exists m x, exec_vst T o s = Ok (MS m (m_v s) x) /\
    stored T o (mo_quad o) (m_v s) (m_mem s) m /\ post_spec T o (mo_quad o) (m_x s) x.
Proof.
  intros HT Ho Hwf Hg. unfold exec_vst. rewrite num_ops_regs.
  destruct (mcount_ok T o HT Ho) as [-> Hn]. cbn [bind].
  destruct (mstride_ok T o HT Ho) as (st & -> & Hst & Hst2 & _). cbn [bind].
  destruct (mbase_ok o) as [-> Hb].
  pose proof (regs_14 o) as H14.
  destruct (entries_ok T (nsel T o) st (base_of o) (mo_v o) (m_v s) HT ltac:(lia) Hb (mo_quad o) (regs_of o))
    as (c & -> & Hc); [lia|lia|]. cbn [bind].
  destruct (store_all_ok T o (mo_quad o) (m_v s) (m_mem s) c HT Hwf ltac:(lia)) as (m & -> & Hm).
  { intros e He. rewrite Hc by assumption. unfold ent. rewrite Hst2, eaddr_ad by assumption. reflexivity. }
  cbn [bind].
  destruct (post_ok T o (nsel T o) st (mo_quad o) (m_x s) HT Ho eq_refl eq_refl Hst2 ltac:(lia)) as (p & -> & HP).
  cbn [bind]. eexists _, _. split; [reflexivity|]. split; assumption.
Qed.

(** ** Store then load *)
Lemma disjoint_elems T o e e' A : small T -> op_ok o ->
  32 <= stride_of T o -> base_of o + (regs_of o - 1) * stride_of T o + 32 <= 2 ^ 32 ->
  0 <= e < regs_of o * elts T -> 0 <= e' < regs_of o * elts T -> e <> e' ->
  covers T o false e A -> ~ covers T o false e' A.
Proof.
  intros HT Ho Hs Hw He He' Hne. unfold covers. rewrite !eaddr_ad, lanebytes_sizeof by assumption. unfold ad.
  pose proof (elts_small T HT) as Hel. pose proof (elts_sizeof T HT) as H32. pose proof (sizeof_pos T).
  destruct (mbase_ok o) as [_ Hb]. set (S := stride_of T o) in *. set (B := base_of o) in *.
  assert (Q : forall x, 0 <= x < regs_of o * elts T -> 0 <= x / elts T < regs_of o /\ 0 <= x mod elts T < elts T /\
     (B + x / elts T * S) mod 2 ^ 32 = B + x / elts T * S /\ x = x / elts T * elts T + x mod elts T).
  { intros x Hx.
    assert (0 <= x / elts T < regs_of o).
    { split; [apply Z.div_pos; lia|]. apply Z.div_lt_upper_bound; lia. }
    split; [assumption|]. split; [apply Z.mod_pos_bound; lia|]. split; [apply Z.mod_small; nia|].
    rewrite (Z.div_mod x (elts T)) at 1 by lia. lia. }
  destruct (Q e He) as (a1 & a2 & a3 & a4). destruct (Q e' He') as (b1 & b2 & b3 & b4). rewrite a3, b3. clear Q a3 b3.
  set (k := e / elts T) in *. set (k' := e' / elts T) in *. set (j := e mod elts T) in *. set (j' := e' mod elts T) in *.
  clearbody k k' j j' S B. intros C1 C2.
  assert (0 <= j * sizeof T <= 32 - sizeof T) by nia. assert (0 <= j' * sizeof T <= 32 - sizeof T) by nia.
  assert (k = k').
  { destruct (Z.lt_trichotomy k k') as [L|[L|L]]; [|exact L|]; exfalso.
    - assert (k * S + S <= k' * S) by nia. lia.
    - assert (k' * S + S <= k * S) by nia. lia. }
  subst k'. assert (j <> j') by lia. nia.
Qed.

Lemma covers_self T o e t : small T -> 0 <= t < sizeof T -> covers T o false e (eaddr T o false e + t).
Proof. intros HT Ht. unfold covers. rewrite lanebytes_sizeof. lia. Qed.

Lemma store_load T o vd junk s s1 : small T -> op_ok o -> wf (m_v s) -> mo_quad o = false ->
  regs_of o <= g_n (mo_v o) -> regs_of o <= g_n vd ->
  32 <= stride_of T o -> base_of o + (regs_of o - 1) * stride_of T o + 32 <= 2 ^ 32 ->
  exec_vst T o s = Ok s1 ->
  let o' := MO (mo_len o) (mo_stride o) (mo_strip o) false (mo_base o) (mo_xs2 o) vd None (mo_small o) in
  exists s2, exec_vld T o' junk s1 = Ok s2 /\ m_mem s2 = m_mem s1 /\
    forall k j, 0 <= k < regs_of o -> 0 <= j < nlanes T ->
    lane T (m_v s2 (g_base vd + k)) j =
    if k * nlanes T + j <? nsel T o then lane T (m_v s (g_base (mo_v o) + k)) j else 0.
Proof.
  intros HT Ho Hwf Hq Hg Hgd Hs Hw E o'.
  destruct (vst_ok T o s HT Ho Hwf Hg) as (m & x & E' & Hm & _). rewrite E' in E. injection E as <-.
  rewrite Hq in Hm.
  destruct (vld_ok T o' junk (MS m (m_v s) x) HT) as (rf & x' & -> & L1 & _).
  { exact Ho. } { reflexivity. } { exact Hgd. }
  eexists. split; [reflexivity|]. split; [reflexivity|]. cbn [m_v]. intros k j Hk Hj.
  pose proof (L1 k j Hk Hj) as L. cbn [mo_v o' m_mem] in L. cbv zeta in L. rewrite L. clear L.
  change (nsel T o') with (nsel T o). change (eaddr T o' false (k * nlanes T + j)) with (eaddr T o false (k * nlanes T + j)).
  destruct (k * nlanes T + j <? nsel T o) eqn:X; [|reflexivity].
  rewrite nlanes_elts in * by assumption. pose proof (elts_small T HT).
  set (e := k * elts T + j) in *. assert (0 <= e) by nia.
  destruct (mcount_ok T o HT Ho) as [_ Hn].
  unfold lane. rewrite <- lanebytes_sizeof || idtac. fold (lanebytes T). f_equal.
  rewrite !uval_le.
  rewrite (le_ext m (fun A => m_v s (g_base (mo_v o) + k) (j * lanebytes T + (A - eaddr T o false e)))).
  - clear. generalize (eaddr T o false e) as off. intros off.
    assert (G : forall n d, le (fun A => m_v s (g_base (mo_v o) + k) (j * lanebytes T + (A - off))) (off + d) n =
      le (m_v s (g_base (mo_v o) + k)) (j * lanebytes T + d) n).
    { induction n as [|n IH]; intros d; [reflexivity|]. cbn [le].
      rewrite <- !Z.add_assoc, IH. f_equal. f_equal. lia. }
    specialize (G (Z.to_nat (lanebytes T)) 0). now rewrite !Z.add_0_r in G.
  - intros t Ht. rewrite lanebytes_sizeof in Ht.
    assert (Ht' : 0 <= t < sizeof T) by (pose proof (sizeof_pos T); lia).
    pose proof (covers_self T o e t HT Ht') as C.
    destruct (Hm (eaddr T o false e + t)) as [(e' & K1 & K2 & K3 & K4)|(K1 & _)].
    + destruct (Z.eq_dec e' e) as [->|Hne].
      * rewrite K4. unfold ebyte. rewrite nlanes_elts by assumption. unfold e.
        destruct (divmod (elts T) k j) as [-> ->]; [lia|]. reflexivity.
      * exfalso. apply (disjoint_elems T o e e' (eaddr T o false e + t)); auto; try lia. all: nia.
    + exfalso. apply (K1 e); [lia|exact C].
Qed.

(** ** vdup, getvl *)
Lemma vdup_ok T (strip : bool) vd x junk rf : small T -> (if strip then 4 else 1) <= g_n vd ->
  exists rf', exec_vdup T strip vd x junk rf = Ok rf' /\
    (forall k j, 0 <= k < (if strip then 4 else 1) -> 0 <= j < nlanes T ->
       lane T (rf' (g_base vd + k)) j = trunc T x) /\
    regs_outside (g_base vd) (if strip then 4 else 1) rf rf'.
Proof.
  intros HT Hg. unfold exec_vdup. change (num_ops strip) with (if strip then 4 else 1).
  set (N := if strip then 4 else 1) in *. assert (0 < N) by (unfold N; destruct strip; lia).
  destruct (for_n_inv (S := vregs)
    (fun i r => (forall k e, 0 <= k < i -> 0 <= e < elts T -> lane T (r (g_base vd + k)) e = trunc T x) /\
      (forall y, ~ (g_base vd <= y < g_base vd + i) -> r y = rf y))
    (fun op (rf : vregs) =>
    if op <? g_n vd then
      b <- for_n (Z.to_nat (elts T)) (fun e b => Ok (lane_put T b e (wrap T x))) (junk op) ;;
      Ok (upd rf (g_base vd + op) b)
    else UB OutOfBounds) (Z.to_nat N) rf) as (rf' & E & H1 & H2).
  - split; [lia|reflexivity].
  - intros op r Hop (H1 & H2). destruct (op <? g_n vd) eqn:X; [|lia]. clear X.
    destruct (fill_lanes T (junk op) (fun _ => wrap T x) HT) as (b & -> & B1 & B2).
    { intros. apply wrap_range. }
    cbn [bind]. eexists. split; [reflexivity|]. split.
    + intros k e Hk He. unfold upd. destruct (Z.eqb_spec (g_base vd + k) (g_base vd + op)).
      * rewrite B2 by lia. now rewrite trunc_wrap.
      * apply H1; lia.
    + intros y Hy. unfold upd. destruct (Z.eqb_spec y (g_base vd + op)); [lia|]. apply H2; lia.
  - exists rf'. split; [exact E|]. rewrite nlanes_elts by assumption. split.
    + intros k j Hk Hj. apply H1; lia.
    + intros y Hy. apply H2. lia.
Qed.

Lemma getvl_ok T (strip : bool) rs1 rs2 : small T ->
  let cap := (if strip then 4 else 1) * nlanes T in
  let lim (r : option Z) := match r with Some x => x mod 2 ^ 32 | None => cap end in
  exec_getvl T strip rs1 rs2 = Z.min cap (Z.min (lim rs1) (lim rs2)) /\ 0 < cap.
Proof.
  intros HT. cbv zeta. unfold exec_getvl. rewrite nlanes_elts by assumption.
  pose proof (elts_small T HT). rewrite wrapU32.
  assert (E : (if strip then (elts T * 4) mod 2 ^ 32 else elts T) = (if strip then 4 else 1) * elts T).
  { destruct strip; [rewrite Z.mod_small|]; lia. }
  rewrite E. split; [|destruct strip; lia].
  destruct rs1, rs2; rewrite ?wrapU32; destruct strip; lia.
Qed.

Lemma strip_loop_ok T strip : small T -> forall fuel n done, 0 <= n < 2 ^ 32 -> n <= Z.of_nat fuel ->
  exists l, strip_loop fuel T strip n done = Some (done + n, l) /\
    (forall v, In v l -> 1 <= v <= (if strip then 4 else 1) * nlanes T) /\
    fold_right Z.add 0 l = n.
Proof.
  intros HT. induction fuel as [|f IH]; intros n done Hn Hf; cbn [strip_loop].
  - replace (n =? 0) with true by lia. exists []. split; [f_equal; f_equal; lia|]. split; [contradiction|].
    cbn [fold_right]. lia.
  - destruct (Z.eqb_spec n 0) as [->|Hne].
    + exists []. split; [f_equal; f_equal; lia|]. split; [contradiction|reflexivity].
    + destruct (getvl_ok T strip (Some n) None HT) as [E Hc]. cbv zeta in E. rewrite Z.mod_small in E by lia.
      set (cap := (if strip then 4 else 1) * nlanes T) in *.
      set (vl := exec_getvl T strip (Some n) None) in *.
      destruct (IH (n - vl) (done + vl)) as (l & -> & L1 & L2); [lia|lia|].
      exists (vl :: l). split; [f_equal; f_equal; lia|]. split.
      * intros v [<-|Hv]; [lia|now apply L1].
      * cbn [fold_right]. lia.
Qed.
