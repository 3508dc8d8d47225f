(** * Generic facts about the element loops *)
From Verif Require Import CInt Lane LaneSpec VecModel VecSpec LaneProofs.
From Coq Require Import ZifyBool ZifyNat.
Import ListNotations.
Ltac Zify.zify_post_hook ::= Z.div_mod_to_equations.

(** ** Loops *)
Lemma for_n_inv {S} (I : Z -> S -> Prop) f n : forall s0,
  I 0 s0 ->
  (forall i s, 0 <= i < Z.of_nat n -> I i s -> exists s', f i s = Ok s' /\ I (i + 1) s') ->
  exists s', for_n n f s0 = Ok s' /\ I (Z.of_nat n) s'.
Proof.
  induction n as [|m IH]; intros s0 H0 Hs.
  - exists s0. split; [reflexivity|assumption].
  - cbn [for_n]. destruct (IH s0 H0) as (s1 & -> & H1).
    { intros i s Hi. apply Hs. lia. }
    cbn [bind]. destruct (Hs (Z.of_nat m) s1) as (s2 & -> & H2); [lia|assumption|].
    exists s2. split; [reflexivity|]. now replace (Z.of_nat (Datatypes.S m)) with (Z.of_nat m + 1) by lia.
Qed.

(** ** Bytes of lanes *)
Definition small (T : ity) : Prop := In T [I8; I16; I32; U8; U16; U32].
Lemma small_all T : small T -> In T all6.
Proof. unfold small. cbn. intuition. Qed.
Ltac smalls H := unfold small in H; cbn [In] in H;
  repeat match type of H with _ \/ _ => destruct H as [H|H] end; try contradiction; subst.

Lemma sizeof_pos T : 0 < sizeof T. Proof. destruct T; reflexivity. Qed.
Lemma elts_sizeof T : small T -> elts T * sizeof T = 32.
Proof. intros H. smalls H; reflexivity. Qed.
Lemma elts_pos T : small T -> 0 < elts T.
Proof. intros H. smalls H; reflexivity. Qed.
Lemma nlanes_elts T : small T -> nlanes T = elts T.
Proof. intros H. smalls H; reflexivity. Qed.
Lemma bits_sizeof T : bits T = 8 * sizeof T. Proof. destruct T; reflexivity. Qed.

(** Byte [j] of the value [v]. *)
Definition byte (v j : Z) : Z := (v / 256 ^ j) mod 256.
Lemma byte_range v j : 0 <= byte v j < 256.
Proof. apply Z.mod_pos_bound. lia. Qed.

Lemma le_ext b b' n : forall off, (forall j, 0 <= j < Z.of_nat n -> b (off + j) = b' (off + j)) ->
  le b off n = le b' off n.
Proof.
  induction n as [|m IH]; intros off H; [reflexivity|]. cbn [le].
  rewrite (IH (off + 1)).
  - specialize (H 0 ltac:(lia)). rewrite Z.add_0_r in H. now rewrite H.
  - intros j Hj. rewrite <- !Z.add_assoc. apply H. lia.
Qed.
Lemma le_bytes v n : forall off k, 0 <= k ->
  le (fun j => byte v (j - off + k)) off n = (v / 256 ^ k) mod 256 ^ Z.of_nat n.
Proof.
  induction n as [|m IH]; intros off k Hk; [cbn; now rewrite Z.mod_1_r|].
  cbn [le].
  rewrite (le_ext _ (fun j => byte v (j - (off + 1) + (k + 1)))) by (intros; f_equal; lia).
  rewrite IH by lia. replace (off - off + k) with k by lia.
  replace (Z.of_nat (S m)) with (1 + Z.of_nat m) by lia.
  rewrite (Z.pow_add_r 256 k 1), (Z.pow_add_r 256 1 (Z.of_nat m)) by lia.
  change (256 ^ 1) with 256.
  rewrite (Z.rem_mul_r (v / 256 ^ k) 256 (256 ^ Z.of_nat m)) by lia.
  unfold byte. f_equal. f_equal. f_equal.
  now rewrite Z.div_div by lia.
Qed.

Lemma pow256 T : 256 ^ sizeof T = modulus T.
Proof. destruct T; reflexivity. Qed.

Lemma wrap_mod T v : wrap T (v mod modulus T) = wrap T v.
Proof.
  rewrite (Z.mod_eq v (modulus T)) by (destruct T; discriminate).
  apply (wrap_eqm T _ _ (- (v / modulus T))). ring.
Qed.

(** A register holding the bytes of [v] at lane [e] reads back [wrap T v]. *)
Lemma lane_get_bytes T b e v :
  (forall j, 0 <= j < sizeof T -> b (e * sizeof T + j) = byte v j) ->
  lane_get T b e = wrap T v.
Proof.
  intros H. unfold lane_get.
  rewrite (le_ext _ (fun j => byte v (j - e * sizeof T + 0))).
  2:{ pose proof (sizeof_pos T).
      intros j Hj. rewrite H by lia. f_equal. lia. }
  rewrite le_bytes by lia. rewrite Z.pow_0_r, Z.div_1_r.
  pose proof (sizeof_pos T). rewrite Z2Nat.id by lia. rewrite pow256. apply wrap_mod.
Qed.
Lemma lane_get_ext T b b' e :
  (forall j, e * sizeof T <= j < (e + 1) * sizeof T -> b j = b' j) ->
  lane_get T b e = lane_get T b' e.
Proof.
  intros H. unfold lane_get. f_equal. apply le_ext. pose proof (sizeof_pos T).
  intros j Hj. apply H. lia.
Qed.
Lemma lane_put_in T b i v j : 0 <= j < sizeof T ->
  lane_put T b i v (i * sizeof T + j) = byte v j.
Proof.
  intros Hj. unfold lane_put, byte.
  assert ((i * sizeof T <=? i * sizeof T + j) && (i * sizeof T + j <? (i + 1) * sizeof T) = true)
    as -> by lia.
  now replace (i * sizeof T + j - i * sizeof T) with j by lia.
Qed.
Lemma lane_put_out T b i v j : ~ (i * sizeof T <= j < (i + 1) * sizeof T) ->
  lane_put T b i v j = b j.
Proof.
  intros Hj. unfold lane_put.
  now assert ((i * sizeof T <=? j) && (j <? (i + 1) * sizeof T) = false) as -> by lia.
Qed.
Lemma lane_get_range T b e : in_range T (lane_get T b e) = true.
Proof. apply wrap_range. Qed.

(** ** The specification's lanes are the model's *)
Lemma trunc_wrap T x : trunc T x = wrap T x.
Proof.
  unfold trunc. assert (H : 0 < 2 ^ (bits T - 1)) by (destruct T; reflexivity).
  pose proof (wrap_is_mod T x) as Hw.
  apply (is_mod_unique (bits T) (is_signed T) x); [destruct T; reflexivity| |assumption].
  assert (E : 2 ^ bits T = 2 * 2 ^ (bits T - 1)) by (destruct T; reflexivity).
  assert (Hm : 0 <= x mod 2 ^ bits T < 2 ^ bits T) by (apply Z.mod_pos_bound; lia).
  assert (Hx : x mod 2 ^ bits T = x - (x / 2 ^ bits T) * 2 ^ bits T)
    by (rewrite Z.mod_eq by lia; ring).
  set (u := x mod 2 ^ bits T) in *. set (M := 2 ^ bits T) in *.
  set (Q := x / M) in *.
  unfold is_mod, fits, lo, hi. fold M.
  set (P := 2 ^ (bits T - 1)) in *. clearbody P.
  destruct (is_signed T); cbn [andb].
  - destruct (P <=? u) eqn:EP.
    + split; [lia|]. replace (u - M - x) with ((- Q - 1) * M) by (rewrite Hx; ring).
      apply Z.mod_mul. lia.
    + split; [lia|]. replace (u - x) with ((- Q) * M) by (rewrite Hx; ring).
      apply Z.mod_mul. lia.
  - split; [lia|]. replace (u - x) with ((- Q) * M) by (rewrite Hx; ring).
    apply Z.mod_mul. lia.
Qed.
Lemma uval_le n b : forall off, uval n b off = le b off n.
Proof.
  intros off. unfold uval.
  assert (H : forall m k, fold_right Z.add 0
     (map (fun j => b (off + Z.of_nat j) * 2 ^ (8 * Z.of_nat j)) (seq k m)) =
     256 ^ Z.of_nat k * le b (off + Z.of_nat k) m).
  { induction m as [|m IH]; intros k; [cbn; ring|]. cbn [seq map fold_right le].
    rewrite IH. replace (Z.of_nat (S k)) with (Z.of_nat k + 1) by lia.
    rewrite Z.pow_add_r by lia. rewrite Z.pow_mul_r by lia. change (2 ^ 8) with 256.
    rewrite Z.add_assoc. ring. }
  rewrite H. cbn. rewrite Z.add_0_r. destruct (le b off n); reflexivity.
Qed.
Lemma lane_lane_get T r i : lane T r i = lane_get T r i.
Proof.
  unfold lane, lane_get. rewrite trunc_wrap, uval_le.
  rewrite bits_sizeof. now replace (8 * sizeof T / 8) with (sizeof T) by lia.
Qed.

(** ** One op_index iteration *)
Section OneOp.
  Variables (s : vsem) (o : voperands) (scalar : bool) (N : Z) (junk : Z -> vbytes).
  Let Td := v_td s.
  Let dpo := dest_per_op s.

  (** All lanes of step [op] evaluate to [res e d] when read from [rf]. *)
  Definition op_evals (op : Z) (rf : vregs) (res : Z -> Z -> Z) : Prop :=
    forall e d, 0 <= e < elts Td -> 0 <= d < dpo ->
    let g1 := v_get1 s scalar N op e d in
    let g2 := v_get2 s scalar N op e d in
    exists a b,
      get_src (v_ts1 s) (src_no o (fst g1)) rf (snd g1) = Ok a /\
      get_src (v_ts2 s) (src_no o (fst g2)) rf (snd g2) = Ok b /\
      forall dv, (v_rdest s = true -> dv = lane_get Td (rf (o_vd o + (op + d * N))) e) ->
                 v_op s dv a b = Ok (res e d).

  (** Bytes [0, e*size) of each buffer hold the results, the rest the initial
      contents. *)
  Definition buf_inv (res : Z -> Z -> Z) (b0 : Z -> vbytes) (e : Z) (bufs : Z -> vbytes) (d : Z) :=
    (forall e' j, 0 <= e' < e -> 0 <= j < sizeof Td ->
       bufs d (e' * sizeof Td + j) = byte (res e' d) j) /\
    (forall j, e * sizeof Td <= j -> bufs d j = b0 d j).

  Lemma exec_op_ok op rf res : small Td -> 0 <= op < N -> op + (dpo - 1) * N < o_nd o ->
    op_evals op rf res ->
    exists rf', exec_op s o scalar N junk op rf = Ok rf' /\
      (forall r, (forall d, 0 <= d < dpo -> r <> o_vd o + (op + d * N)) ->
         forall j, rf' r j = rf r j) /\
      (forall d e j, 0 <= d < dpo -> 0 <= e < elts Td -> 0 <= j < sizeof Td ->
         rf' (o_vd o + (op + d * N)) (e * sizeof Td + j) = byte (res e d) j).
  Proof.
    intros HT Hop Hnd Hev. unfold exec_op. fold dpo Td.
    assert (op + (dpo - 1) * N <? o_nd o = true) as -> by lia.
    assert (Hdpo : dpo = 1 \/ dpo = 2).
    { unfold dpo, dest_per_op.
      match goal with |- context [if ?c then _ else _] => destruct c end; auto. }
    set (b0 := fun i : Z => if v_rdest s then rf (o_vd o + (op + i * N)) else junk (op + i * N)).
    pose proof (sizeof_pos Td) as Hsz.
    destruct (for_n_inv (S := Z -> vbytes) (fun e bufs => forall d, 0 <= d < dpo -> buf_inv res b0 e bufs d)
       (fun e => for_n (Z.to_nat dpo) (fun d => elem_step s o scalar N op rf e d))
       (Z.to_nat (elts Td)) b0) as (bufs & -> & HI).
    { intros d Hd. split; [intros; lia|reflexivity]. }
    { intros e bufs He HI.
      assert (He' : 0 <= e < elts Td) by lia.
      destruct (for_n_inv (S := Z -> vbytes) (fun d0 b => forall d, 0 <= d < dpo ->
            buf_inv res b0 (if d <? d0 then e + 1 else e) b d)
         (fun d => elem_step s o scalar N op rf e d) (Z.to_nat dpo) bufs) as (b2 & Hb2 & HI2).
      { intros d Hd. assert (d <? 0 = false) as -> by lia. now apply HI. }
      { intros d b Hd Hb. assert (Hd' : 0 <= d < dpo) by lia.
        destruct (Hev e d He' Hd') as (x & y & Hx & Hy & Hv).
        unfold elem_step. rewrite Hx. cbn [bind]. rewrite Hy. cbn [bind].
        pose proof (Hb d Hd') as Hbd. assert (d <? d = false) as E by lia. rewrite E in Hbd.
        destruct Hbd as [Hdone Hrest].
        rewrite Hv.
        2:{ intros Hrd. apply lane_get_ext. intros j Hj. rewrite Hrest by (fold Td in Hj; lia).
            unfold b0. now rewrite Hrd. }
        cbn [bind]. eexists. split; [reflexivity|].
        intros d2 Hd2. destruct (Z.eq_dec d2 d) as [->|Hne].
        - assert (d <? d + 1 = true) as -> by lia.
          unfold buf_inv, upd. rewrite Z.eqb_refl. fold Td. split.
          + intros e' j Hee Hj. destruct (Z.eq_dec e' e) as [->|Hee2].
            * now apply lane_put_in.
            * rewrite lane_put_out by nia. now apply Hdone; [lia|].
          + intros j Hj. rewrite lane_put_out by lia. apply Hrest. lia.
        - pose proof (Hb d2 Hd2) as Hb2.
          replace (d2 <? d + 1) with (d2 <? d) by lia.
          unfold buf_inv, upd. assert (d2 =? d = false) as -> by lia. exact Hb2. }
      exists b2. split; [exact Hb2|]. intros d Hd. specialize (HI2 d Hd).
      rewrite Z2Nat.id in HI2 by lia.
      assert (d <? dpo = true) as E by lia. now rewrite E in HI2. }
    cbn [bind]. rewrite Z2Nat.id in HI by (pose proof (elts_pos Td HT); lia).
    eexists. split; [reflexivity|].
    destruct Hdpo as [Hdp|Hdp]; rewrite Hdp; cbn [Z.eqb Pos.eqb].
    - split.
      + intros r Hr j. unfold upd. specialize (Hr 0 ltac:(lia)).
        assert (r =? o_vd o + op = false) as -> by lia. reflexivity.
      + intros d e j Hd He Hj. assert (d = 0) by lia. subst d. unfold upd.
        assert (o_vd o + (op + 0 * N) =? o_vd o + op = true) as -> by lia.
        apply (HI 0 ltac:(lia)); lia.
    - split.
      + intros r Hr j. unfold upd.
        pose proof (Hr 0 ltac:(lia)). pose proof (Hr 1 ltac:(lia)).
        assert (r =? o_vd o + (op + N) = false) as -> by lia.
        assert (r =? o_vd o + op = false) as -> by lia. reflexivity.
      + intros d e j Hd He Hj. unfold upd.
        assert (Hd01 : d = 0 \/ d = 1) by lia. destruct Hd01 as [-> | ->].
        * assert (o_vd o + (op + 0 * N) =? o_vd o + (op + N) = false) as -> by lia.
          assert (o_vd o + (op + 0 * N) =? o_vd o + op = true) as -> by lia.
          apply (HI 0 ltac:(lia)); lia.
        * assert (o_vd o + (op + 1 * N) =? o_vd o + (op + N) = true) as -> by lia.
          apply (HI 1 ltac:(lia)); lia.
  Qed.
End OneOp.

(** ** The whole instruction *)
Lemma exec_binary_ok s o scalar strip junk (rf : vregs) (res : Z -> Z -> Z -> Z) :
  let N := nops strip in let Td := v_td s in let dpo := dest_per_op s in
  small Td -> dpo * N <= o_nd o ->
  (forall op (rf2 : vregs), 0 <= op < N ->
     (forall r, (forall op' d, 0 <= op' < op -> 0 <= d < dpo -> r <> o_vd o + (op' + d * N)) ->
        forall j, rf2 r j = rf r j) ->
     op_evals s o scalar N op rf2 (res op)) ->
  exists rf', exec_binary s o scalar strip junk rf = Ok rf' /\
    only_written (o_vd o) (dpo * N) rf rf' /\
    (forall op d e j, 0 <= op < N -> 0 <= d < dpo -> 0 <= e < elts Td -> 0 <= j < sizeof Td ->
       rf' (o_vd o + (op + d * N)) (e * sizeof Td + j) = byte (res op e d) j).
Proof.
  intros N Td dpo HT Hnd Hev.
  assert (HN : N = 1 \/ N = 4) by (unfold N, nops; destruct strip; auto).
  assert (Hdpo : dpo = 1 \/ dpo = 2).
  { unfold dpo, dest_per_op.
    match goal with |- context [if ?c then _ else _] => destruct c end; auto. }
  unfold exec_binary. change (num_ops strip) with N.
  destruct (for_n_inv (S := vregs) (fun op rf2 =>
      (forall r, (forall op' d, 0 <= op' < op -> 0 <= d < dpo -> r <> o_vd o + (op' + d * N)) ->
        forall j, rf2 r j = rf r j) /\
      (forall op' d e j, 0 <= op' < op -> 0 <= d < dpo -> 0 <= e < elts Td -> 0 <= j < sizeof Td ->
       rf2 (o_vd o + (op' + d * N)) (e * sizeof Td + j) = byte (res op' e d) j))
    (exec_op s o scalar N junk) (Z.to_nat N) rf) as (rf' & -> & Hf & Hr).
  - split; [reflexivity|intros; lia].
  - intros op rf2 Hop [Hf Hr].
    destruct (exec_op_ok s o scalar N junk op rf2 (res op) HT) as (rf3 & -> & Hf3 & Hr3).
    + lia.
    + fold dpo. destruct Hdpo as [Hd|Hd]; rewrite Hd in *; nia.
    + apply Hev; [lia|assumption].
    + exists rf3. split; [reflexivity|]. split.
      * intros r Hrr j. rewrite Hf3.
        -- apply Hf. intros. apply Hrr; lia.
        -- intros d Hd. apply Hrr; [lia|exact Hd].
      * intros op' d e j Ho Hd He Hj. destruct (Z.eq_dec op' op) as [->|Hne].
        -- now apply Hr3.
        -- rewrite Hf3.
           ++ apply Hr; lia.
           ++ fold dpo. intros d' Hd'. destruct Hdpo as [Hx|Hx]; rewrite Hx in *;
              destruct HN as [Hy|Hy]; rewrite Hy in *; lia.
  - exists rf'. split; [reflexivity|]. split.
    + intros r Hrr j. apply Hf. intros op' d Ho Hd.
      destruct Hdpo as [Hx|Hx]; rewrite Hx in *; destruct HN as [Hy|Hy]; rewrite Hy in *; lia.
    + intros op d e j Ho. apply Hr. lia.
Qed.

(** Lanes of the result. *)
Lemma result_lane s (rf' : vregs) vd N (res : Z -> Z -> Z -> Z) op d e :
  (forall op d e j, 0 <= op < N -> 0 <= d < dest_per_op s -> 0 <= e < elts (v_td s) ->
     0 <= j < sizeof (v_td s) ->
     rf' (vd + (op + d * N)) (e * sizeof (v_td s) + j) = byte (res op e d) j) ->
  0 <= op < N -> 0 <= d < dest_per_op s -> 0 <= e < elts (v_td s) ->
  in_range (v_td s) (res op e d) = true ->
  lane (v_td s) (rf' (vd + (op + d * N))) e = res op e d.
Proof.
  intros H Ho Hd He Hr. rewrite lane_lane_get.
  rewrite (lane_get_bytes _ _ _ (res op e d)); [now apply wrap_id|].
  intros j Hj. now apply H.
Qed.
(** The written registers hold bytes. *)
Lemma result_bytes s (rf' : vregs) vd N (res : Z -> Z -> Z -> Z) :
  small (v_td s) -> N = 1 \/ N = 4 ->
  (forall op d e j, 0 <= op < N -> 0 <= d < dest_per_op s -> 0 <= e < elts (v_td s) ->
     0 <= j < sizeof (v_td s) ->
     rf' (vd + (op + d * N)) (e * sizeof (v_td s) + j) = byte (res op e d) j) ->
  forall r j, vd <= r < vd + dest_per_op s * N -> 0 <= j < 32 ->
    rf' r j = byte (res ((r - vd) mod N) (j / sizeof (v_td s)) ((r - vd) / N)) (j mod sizeof (v_td s)).
Proof.
  intros HT HN H r j Hr Hj. set (k := r - vd).
  assert (Hk : r = vd + (k mod N + k / N * N)) by (unfold k; destruct HN as [-> | ->]; lia).
  pose proof (elts_sizeof _ HT) as He. pose proof (sizeof_pos (v_td s)).
  assert (Hj2 : j = j / sizeof (v_td s) * sizeof (v_td s) + j mod sizeof (v_td s))
    by (rewrite Z.mod_eq by lia; ring).
  rewrite Hk at 1. rewrite Hj2 at 1. apply H.
  - destruct HN as [-> | ->]; lia.
  - destruct HN as [-> | ->]; unfold k; lia.
  - split; [apply Z.div_pos; lia|]. apply Z.div_lt_upper_bound; lia.
  - apply Z.mod_pos_bound. lia.
Qed.
