(** * Accumulator moves and depthwise convolution *)
From Verif Require Import CInt Lane LaneSpec VecModel VecSpec ConvModel ConvSpec LaneProofs VecProofs VecFrame ConvProofs.
From Coq Require Import ZifyBool ZifyNat.
Import ListNotations.
Ltac Zify.zify_post_hook ::= Z.div_mod_to_equations.

(** ** Filling a register lane by lane *)
Lemma fill_ok T b0 (f : Z -> Z) : small T ->
  exists b, for_n (Z.to_nat (elts T)) (fun j b => Ok (lane_put T b j (f j))) b0 = Ok b /\
    forall e j, 0 <= e < elts T -> 0 <= j < sizeof T -> b (e * sizeof T + j) = byte (f e) j.
Proof.
  intros HT. pose proof (elts_pos T HT). pose proof (sizeof_pos T) as Hs.
  destruct (for_n_inv (S := vbytes)
    (fun n b => forall e j, 0 <= e < n -> 0 <= j < sizeof T -> b (e * sizeof T + j) = byte (f e) j)
    (fun j b => Ok (lane_put T b j (f j))) (Z.to_nat (elts T)) b0) as (b & E & H1).
  - intros; lia.
  - intros i s Hi H1. eexists. split; [reflexivity|]. intros e j He Hj.
    destruct (Z.eq_dec e i) as [->|Hne].
    + now apply lane_put_in.
    + rewrite lane_put_out by nia. apply H1; lia.
  - exists b. split; [exact E|]. intros e j He Hj. apply H1; lia.
Qed.

Lemma word_le b c : (forall j, 0 <= j < 32 -> 0 <= b j < 256) -> 0 <= c < 8 ->
  word b c = le b (4 * c) 4 /\ 0 <= le b (4 * c) 4 < 2 ^ 32.
Proof.
  intros Hb Hc. unfold word, lane_get. change (sizeof U32) with 4. change (Z.to_nat 4) with 4%nat.
  replace (c * 4) with (4 * c) by lia. rewrite wrapU32.
  pose proof (le_range b 4 (4 * c)) as R. change (256 ^ Z.of_nat 4) with (2 ^ 32) in R.
  assert (0 <= le b (4 * c) 4 < 2 ^ 32) by (apply R; intros; apply Hb; lia).
  rewrite Z.mod_small by lia. auto.
Qed.
Lemma rword_le rf r c : rword rf r c = le (rf r) (4 * c) 4.
Proof. apply uval_le. Qed.
Lemma word_rword rf r c : wf rf -> 0 <= c < 8 -> word (rf r) c = rword rf r c /\ 0 <= rword rf r c < 2 ^ 32.
Proof. intros H Hc. rewrite rword_le. apply word_le; [apply H|lia]. Qed.
Lemma word_byte b k m : (forall j, 0 <= j < 32 -> 0 <= b j < 256) -> 0 <= k < 8 -> 0 <= m < 4 ->
  (word b k / 256 ^ m) mod 256 = b (4 * k + m).
Proof.
  intros Hb Hk Hm. destruct (word_le b k Hb Hk) as [-> _]. cbn [le].
  pose proof (Hb (4 * k) ltac:(lia)). pose proof (Hb (4 * k + 1) ltac:(lia)). pose proof (Hb (4 * k + 1 + 1) ltac:(lia)).
  pose proof (Hb (4 * k + 1 + 1 + 1) ltac:(lia)).
  assert (m = 0 \/ m = 1 \/ m = 2 \/ m = 3) as [-> | [-> | [-> | ->]]] by lia.
  - replace (4 * k + 0) with (4 * k) by lia. change (256 ^ 0) with 1. rewrite Z.div_1_r. lia.
  - change (256 ^ 1) with 256. lia.
  - change (256 ^ 2) with 65536. replace (4 * k + 2) with (4 * k + 1 + 1) by lia. lia.
  - change (256 ^ 3) with 16777216. replace (4 * k + 3) with (4 * k + 1 + 1 + 1) by lia. lia.
Qed.
Lemma le4_byte b k v : (forall j, 0 <= j < 4 -> b (4 * k + j) = byte v j) -> 0 <= v < 2 ^ 32 ->
  le b (4 * k) 4 = v.
Proof.
  intros H Hv. rewrite (le_ext b (fun j => byte v (j - 4 * k + 0))).
  2: { intros j Hj. rewrite H by lia. f_equal. lia. }
  rewrite le_bytes by lia. change (256 ^ 0) with 1. rewrite Z.div_1_r. change (256 ^ Z.of_nat 4) with (2 ^ 32).
  apply Z.mod_small. lia.
Qed.

(** A register filled from eight words. *)
Lemma fill_words b0 (f : Z -> Z) : (forall j, 0 <= j < 8 -> 0 <= f j < 2 ^ 32) ->
  exists b, for_n 8 (fun j b => Ok (lane_put U32 b j (f j))) b0 = Ok b /\
    (forall j, 0 <= j < 32 -> 0 <= b j < 256) /\
    forall c, 0 <= c < 8 -> le b (4 * c) 4 = f c.
Proof.
  intros Hf. destruct (fill_ok U32 b0 f) as (b & E & H); [cbv; tauto|].
  change (Z.to_nat (elts U32)) with 8%nat in E. change (elts U32) with 8 in H. change (sizeof U32) with 4 in H.
  exists b. split; [exact E|]. split.
  - intros j Hj. replace j with (j / 4 * 4 + j mod 4) by lia. rewrite H by lia. apply byte_range.
  - intros c Hc. apply le4_byte; [|auto]. intros j Hj. replace (4 * c + j) with (c * 4 + j) by lia. apply H; lia.
Qed.

(** ** acset, actr, vcget *)
Lemma acset_ok tr vs s : wf (c_v s) -> 8 <= g_n vs ->
  exists acc, exec_acset tr vs s = Ok (CS (c_v s) acc (c_dw s) (c_traps s)) /\ acc_wf acc /\
    forall r c, 0 <= r < 8 -> 0 <= c < 8 ->
    acc r c = if tr then rword (c_v s) (g_base vs + c) r else rword (c_v s) (g_base vs + r) c.
Proof.
  intros Hwf Hg. unfold exec_acset.
  set (V := fun r c => if tr then rword (c_v s) (g_base vs + c) r else rword (c_v s) (g_base vs + r) c).
  assert (VR : forall r c, 0 <= r < 8 -> 0 <= c < 8 -> 0 <= V r c < 2 ^ 32).
  { intros r c Hr Hc. unfold V. destruct tr; apply word_rword; auto. }
  destruct (for_n_inv (S := Z -> Z -> Z)
    (fun n a => forall r c, 0 <= r < 8 -> 0 <= c < 8 -> (if tr then c else r) < n -> a r c = V r c)
    (fun op acc => r <- get_reg vs (c_v s) op ;;
           for_n 8 (fun i acc => Ok (if tr then upd2 acc i op (word r i) else upd2 acc op i (word r i))) acc)
    8 (c_acc s)) as (acc & E & H).
  - intros r c Hr Hc. destruct tr; lia.
  - intros op a Hop Ha. unfold get_reg. replace ((0 <=? op) && (op <? g_n vs)) with true by lia. cbn [bind].
    destruct (for_n_inv (S := Z -> Z -> Z)
      (fun n a => forall r c, 0 <= r < 8 -> 0 <= c < 8 ->
         (if tr then c else r) < op \/ (if tr then c else r) = op /\ (if tr then r else c) < n -> a r c = V r c)
      (fun i acc => Ok (if tr then upd2 acc i op (word (c_v s (g_base vs + op)) i)
                        else upd2 acc op i (word (c_v s (g_base vs + op)) i))) 8 a) as (a' & E' & H').
    + intros r c Hr Hc [H|H]; [now apply Ha|destruct tr; lia].
    + intros i a1 Hi H1. eexists. split; [reflexivity|]. intros r c Hr Hc Hlt.
      rewrite (proj1 (word_rword (c_v s) (g_base vs + op) i Hwf ltac:(lia))).
      destruct tr; cbn [negb] in *; rewrite upd2_val.
      * destruct ((r =? i) && (c =? op)) eqn:Eq.
        -- unfold V. replace r with i by lia. now replace c with op by lia.
        -- apply H1; try assumption. lia.
      * destruct ((r =? op) && (c =? i)) eqn:Eq.
        -- unfold V. replace c with i by lia. now replace r with op by lia.
        -- apply H1; try assumption. lia.
    + exists a'. split; [exact E'|]. intros r c Hr Hc Hlt. apply H'; try assumption. destruct tr; lia.
  - rewrite E. cbn [bind]. exists acc. split; [reflexivity|].
    assert (G : forall r c, 0 <= r < 8 -> 0 <= c < 8 -> acc r c = V r c).
    { intros r c Hr Hc. apply H; try assumption. destruct tr; lia. }
    split; [|exact G]. intros r c Hr Hc. rewrite G by assumption. now apply VR.
Qed.

Lemma vcget_ok vd junk s : acc_wf (c_acc s) -> 8 <= g_n vd ->
  exists rf acc, exec_vcget vd junk s = Ok (CS rf acc (c_dw s) (c_traps s)) /\
    (forall r c, 0 <= r < 8 -> 0 <= c < 8 -> rword rf (g_base vd + r) c = c_acc s r c) /\
    (forall r c, 0 <= r < 8 -> 0 <= c < 8 -> acc r c = 0) /\
    regs_outside (g_base vd) 8 (c_v s) rf /\
    (forall r j, 0 <= r < 8 -> 0 <= j < 32 -> 0 <= rf (g_base vd + r) j < 256).
Proof.
  intros Ha Hg. unfold exec_vcget.
  destruct (for_n_inv (S := cstate)
    (fun n t => c_dw t = c_dw s /\ c_traps t = c_traps s /\
       (forall r c, 0 <= r < n -> 0 <= c < 8 -> le (c_v t (g_base vd + r)) (4 * c) 4 = c_acc s r c) /\
       (forall r c, 0 <= r < 8 -> 0 <= c < 8 -> c_acc t r c = if r <? n then 0 else c_acc s r c) /\
       (forall r, ~ (g_base vd <= r < g_base vd + n) -> c_v t r = c_v s r) /\
       (forall r j, 0 <= r < n -> 0 <= j < 32 -> 0 <= c_v t (g_base vd + r) j < 256))
    (fun op s =>
      if op <? g_n vd then
        b <- for_n 8 (fun i b => Ok (lane_put U32 b i (c_acc s op i))) (junk op) ;;
        Ok (CS (upd (c_v s) (g_base vd + op) b)
               (fun r c => if r =? op then 0 else c_acc s r c) (c_dw s) (c_traps s))
      else UB OutOfBounds) 8 s) as (t & E & H1 & H2 & H3 & H4 & H5 & H6).
  - split; [reflexivity|]. split; [reflexivity|]. split; [lia|].
    split; [intros r c Hr Hc; destruct (r <? 0) eqn:X; [lia|reflexivity]|].
    split; [reflexivity|lia].
  - intros op t Hop (H1 & H2 & H3 & H4 & H5 & H6).
    destruct (op <? g_n vd) eqn:X; [|lia]. clear X.
    destruct (fill_words (junk op) (c_acc t op)) as (b & -> & B1 & B2).
    { intros j Hj. rewrite H4 by lia. destruct (op <? op) eqn:X; [lia|]. apply Ha; lia. }
    cbn [bind]. eexists. split; [reflexivity|]. cbn [c_dw c_traps c_v c_acc].
    split; [exact H1|]. split; [exact H2|].
    split. { intros r c Hr Hc. unfold upd. destruct (Z.eqb_spec (g_base vd + r) (g_base vd + op)) as [Eq|Ne].
      - rewrite B2 by lia. replace r with op by lia. rewrite H4 by lia. destruct (op <? op) eqn:X; [lia|reflexivity].
      - apply H3; lia. }
    split. { intros r c Hr Hc. destruct (Z.eqb_spec r op) as [->|Ne].
      - destruct (op <? op + 1) eqn:X; [reflexivity|lia].
      - rewrite H4 by lia. destruct (r <? op) eqn:X, (r <? op + 1) eqn:Y; lia. }
    split. { intros r Hr. unfold upd. destruct (Z.eqb_spec r (g_base vd + op)); [lia|]. apply H5; lia. }
    intros r j Hr Hj. unfold upd. destruct (Z.eqb_spec (g_base vd + r) (g_base vd + op)); [now apply B1|].
    apply H6; lia.
  - rewrite E. destruct t as [rf acc dw tr]. cbn [c_dw c_traps c_v c_acc] in *. subst dw tr.
    exists rf, acc. split; [reflexivity|].
    split. { intros r c Hr Hc. rewrite rword_le. apply H3; lia. }
    split. { intros r c Hr Hc. rewrite H4 by lia. destruct (r <? Z.of_nat 8) eqn:X; [reflexivity|lia]. }
    split; [|exact H6]. intros r Hr. apply H5. lia.
Qed.

Lemma rwords_bytes rf rf' r r' :
  (forall j, 0 <= j < 32 -> 0 <= rf r j < 256) -> (forall j, 0 <= j < 32 -> 0 <= rf' r' j < 256) ->
  (forall c, 0 <= c < 8 -> rword rf r c = rword rf' r' c) -> forall j, 0 <= j < 32 -> rf r j = rf' r' j.
Proof.
  intros A B H j Hj. specialize (H (j / 4) ltac:(lia)). rewrite !rword_le in H.
  replace j with (4 * (j / 4) + j mod 4) by lia.
  apply (le_inj 4); try assumption; try lia; intros; [apply A|apply B]; lia.
Qed.

Lemma acset_vcget tr vs vd junk s : wf (c_v s) -> 8 <= g_n vs -> 8 <= g_n vd ->
  exists s1 s2, exec_acset tr vs s = Ok s1 /\ exec_vcget vd junk s1 = Ok s2 /\
    (forall r c, 0 <= r < 8 -> 0 <= c < 8 -> rword (c_v s2) (g_base vd + r) c =
       if tr then rword (c_v s) (g_base vs + c) r else rword (c_v s) (g_base vs + r) c) /\
    (tr = false -> forall r j, 0 <= r < 8 -> 0 <= j < 32 -> c_v s2 (g_base vd + r) j = c_v s (g_base vs + r) j) /\
    regs_outside (g_base vd) 8 (c_v s) (c_v s2).
Proof.
  intros Hwf H1 H2. destruct (acset_ok tr vs s Hwf H1) as (acc & E1 & A1 & A2).
  destruct (vcget_ok vd junk (CS (c_v s) acc (c_dw s) (c_traps s)) A1 H2) as (rf & acc' & E2 & B1 & B2 & B3 & B4).
  cbn [c_v c_acc c_dw c_traps] in *.
  eexists _, _. split; [exact E1|]. split; [exact E2|]. cbn [c_v].
  assert (G : forall r c, 0 <= r < 8 -> 0 <= c < 8 -> rword rf (g_base vd + r) c =
       if tr then rword (c_v s) (g_base vs + c) r else rword (c_v s) (g_base vs + r) c).
  { intros r c Hr Hc. rewrite B1 by assumption. now apply A2. }
  split; [exact G|]. split; [|exact B3].
  intros -> r j Hr Hj. apply rwords_bytes; auto.
Qed.

Lemma vcget_twice vd vd' junk junk' s : acc_wf (c_acc s) -> 8 <= g_n vd -> 8 <= g_n vd' ->
  exists s1 s2, exec_vcget vd junk s = Ok s1 /\ exec_vcget vd' junk' s1 = Ok s2 /\
    forall r j, 0 <= r < 8 -> 0 <= j < 32 -> c_v s2 (g_base vd' + r) j = 0.
Proof.
  intros Ha H1 H2. destruct (vcget_ok vd junk s Ha H1) as (rf & acc & E1 & B1 & B2 & B3 & B4).
  destruct (vcget_ok vd' junk' (CS rf acc (c_dw s) (c_traps s))) as (rf2 & acc2 & E2 & C1 & C2 & C3 & C4).
  { intros r c Hr Hc. cbn [c_acc]. rewrite B2 by assumption. lia. }
  { assumption. }
  cbn [c_v c_acc c_dw c_traps] in *.
  eexists _, _. split; [exact E1|]. split; [exact E2|]. cbn [c_v]. intros r j Hr Hj.
  apply (rwords_bytes rf2 (fun _ _ => 0) (g_base vd' + r) 0); auto; [intros; lia|].
  intros c Hc. rewrite C1 by assumption. rewrite B2 by assumption. reflexivity.
Qed.

(** ** adwinit *)
Lemma adwinit_ok vs vd junk s : wf (c_v s) -> 4 <= g_n vs -> 4 <= g_n vd ->
  (g_base vd <= g_base vs \/ g_base vs + 4 <= g_base vd) ->
  exists rf dw, exec_adwinit vs vd junk s = Ok (CS rf (c_acc s) (Some dw) (c_traps s)) /\
    (forall k c, 0 <= k < 4 -> 0 <= c < 8 -> dw (8 * k + c) = rword (c_v s) (g_base vs + k) c) /\
    (forall k j, 0 <= k < 4 -> 0 <= j < 8 -> rf (g_base vd + k) j = c_v s (g_base vs + k) j) /\
    regs_outside (g_base vd) 4 (c_v s) rf /\ dw_wf dw.
Proof.
  intros Hwf G1 G2 Hov. unfold exec_adwinit.
  destruct (for_n_inv (S := vregs * (Z -> Z))
    (fun n st =>
       (forall k c, 0 <= k < n -> 0 <= c < 8 -> snd st (8 * k + c) = rword (c_v s) (g_base vs + k) c) /\
       (forall k j, 0 <= k < n -> 0 <= j < 8 -> fst st (g_base vd + k) j = c_v s (g_base vs + k) j) /\
       (forall r, ~ (g_base vd <= r < g_base vd + n) -> fst st r = c_v s r))
    (fun op (st : vregs * (Z -> Z)) =>
         r <- get_reg vs (fst st) op ;;
         if op <? g_n vd then
           let dw := fun t => if (8 * op <=? t) && (t <? 8 * op + 8) then word r (t - 8 * op) else snd st t in
           let b := fun i => if i <? 8 then r i else junk op i in
           Ok (upd (fst st) (g_base vd + op) b, dw)
         else UB OutOfBounds) 4
    (c_v s, match c_dw s with Some d => d | None => fun _ => 0 end)) as ([rf dw] & E & H1 & H2 & H3).
  - split; [lia|]. split; [lia|]. reflexivity.
  - intros op st Hop (H1 & H2 & H3). unfold get_reg.
    replace ((0 <=? op) && (op <? g_n vs)) with true by lia. cbn [bind].
    destruct (op <? g_n vd) eqn:X; [|lia]. clear X. eexists. split; [reflexivity|]. cbn [fst snd].
    rewrite (H3 (g_base vs + op)) by lia.
    split. { intros k c Hk Hc. destruct ((8 * op <=? 8 * k + c) && (8 * k + c <? 8 * op + 8)) eqn:X.
      - replace k with op by lia. replace (8 * op + c - 8 * op) with c by lia. apply word_rword; auto.
      - apply H1; lia. }
    split. { intros k j Hk Hj. unfold upd. destruct (Z.eqb_spec (g_base vd + k) (g_base vd + op)).
      - destruct (j <? 8) eqn:X; [|lia]. now replace k with op by lia.
      - apply H2; lia. }
    intros r Hr. unfold upd. destruct (Z.eqb_spec r (g_base vd + op)); [lia|]. apply H3; lia.
  - match goal with |- context [bind ?X _] => replace X with (Ok (rf, dw)) by (symmetry; exact E) end.
    cbn [bind fst snd] in *. exists rf, dw. split; [reflexivity|]. split; [exact H1|].
    split; [exact H2|]. split; [exact H3|].
    intros t Ht. replace t with (8 * (t / 8) + t mod 8) by lia. rewrite H1 by lia. apply word_rword; auto. lia.
Qed.

(** ** Depthwise convolution *)
Ltac cases E := repeat match type of E with _ \/ _ => destruct E as [E|E] end; subst.
Lemma get_reg_ok g (rf : vregs) i : 0 <= i < g_n g -> get_reg g rf i = Ok (rf (g_base g + i)).
Proof. intros H. unfold get_reg. now replace ((0 <=? i) && (i <? g_n g)) with true by lia. Qed.
Lemma dw_index_regs b : 0 <= b < 16 -> dw_index b = dw_regs b.
Proof.
  intros H.
  assert (E : b = 0 \/ b = 1 \/ b = 2 \/ b = 3 \/ b = 4 \/ b = 5 \/ b = 6 \/ b = 7 \/ b = 8 \/ b = 9 \/ b = 10 \/
    b = 11 \/ b = 12 \/ b = 13 \/ b = 14 \/ b = 15) by lia.
  cases E; reflexivity.
Qed.
Lemma dw_regs_range b : 0 <= b < 16 ->
  let '(x, y, z) := dw_regs b in 0 <= x < 9 /\ 0 <= y < 9 /\ 0 <= z < 9.
Proof.
  intros H.
  assert (E : b = 0 \/ b = 1 \/ b = 2 \/ b = 3 \/ b = 4 \/ b = 5 \/ b = 6 \/ b = 7 \/ b = 8 \/ b = 9 \/ b = 10 \/
    b = 11 \/ b = 12 \/ b = 13 \/ b = 14 \/ b = 15) by lia.
  cases E; cbv -[Z.le Z.lt]; lia.
Qed.
Lemma adata_words sp r0 r1 r2 a q : dw_adata sp r0 r1 r2 = Some a -> 0 <= q < 24 ->
  let p := q / 8 + q mod 8 in
  a q = if sp =? 0 then (if q <? 8 then word r0 q else if q <? 16 then word r1 (q - 8) else word r2 (q - 16))
        else if sp =? 1 then (if p <? 1 then word r0 7 else if p <? 9 then word r1 (p - 1) else word r2 0)
        else (if p <? 8 then word r0 p else word r1 (p - 8)).
Proof.
  intros Ha Hq p. subst p.
  assert (E : q = 0 \/ q = 1 \/ q = 2 \/ q = 3 \/ q = 4 \/ q = 5 \/ q = 6 \/ q = 7 \/ q = 8 \/ q = 9 \/ q = 10 \/
    q = 11 \/ q = 12 \/ q = 13 \/ q = 14 \/ q = 15 \/ q = 16 \/ q = 17 \/ q = 18 \/ q = 19 \/ q = 20 \/ q = 21 \/
    q = 22 \/ q = 23) by lia. clear Hq.
  unfold dw_adata in Ha.
  destruct (sp =? 0). { injection Ha as <-. cases E; cbv -[word]; reflexivity. }
  destruct (sp =? 1). { injection Ha as <-. cases E; cbv -[word]; reflexivity. }
  destruct (sp =? 2); [|discriminate]. injection Ha as <-.
  cases E; cbv -[word]; reflexivity.
Qed.
Lemma dw_adata_some sp r0 r1 r2 : 0 <= sp < 3 -> exists a, dw_adata sp r0 r1 r2 = Some a.
Proof.
  intros H. unfold dw_adata. destruct (Z.eqb_spec sp 0); [eauto|]. destruct (Z.eqb_spec sp 1); [eauto|].
  destruct (Z.eqb_spec sp 2); [eauto|lia].
Qed.

Lemma dw_fields w : vdw_cmd_of (wrap U32 w) =
  DCmd (fld w 0 2) (fld w 2 2) (fld w 4 4) (s9 (fld w 12 9)) (fld w 21 1 =? 1) (s9 (fld w 22 9)) (fld w 31 1 =? 1).
Proof. unfold vdw_cmd_of. rewrite !bfield_fld, !sfield_s9 by lia. reflexivity. Qed.

Lemma abyte_act rf v1 w x y z a r i : wf rf -> dw_regs (fld w 4 4) = (x, y, z) -> 0 <= fld w 2 2 < 3 ->
  dw_adata (fld w 2 2) (rf (v1 + x)) (rf (v1 + y)) (rf (v1 + z)) = Some a ->
  0 <= r < 3 -> 0 <= i < 32 -> abyte a r i = dw_act rf v1 w r i.
Proof.
  intros Hwf Hr Hsp Ha Hr3 Hi. unfold abyte, dw_act. rewrite Hr.
  rewrite (adata_words _ _ _ _ _ (r * 8 + i / 4) Ha) by lia. cbv zeta.
  replace ((r * 8 + i / 4) / 8 + (r * 8 + i / 4) mod 8) with (r + i / 4) by lia.
  set (sp := fld w 2 2) in *. clearbody sp.
  assert (Hb : forall q j, 0 <= j < 32 -> 0 <= rf q j < 256) by exact Hwf.
  assert (sp = 0 \/ sp = 1 \/ sp = 2) as [-> | [-> | ->]] by lia; cbn [Z.eqb Pos.eqb].
  - destruct (r * 8 + i / 4 <? 8) eqn:E1; [|destruct (r * 8 + i / 4 <? 16) eqn:E2].
    + replace r with 0 by lia. cbn [Z.eqb]. rewrite word_byte by (auto; lia). f_equal. lia.
    + replace r with 1 by lia. cbn [Z.eqb Pos.eqb]. rewrite word_byte by (auto; lia). f_equal. lia.
    + replace r with 2 by lia. cbn [Z.eqb Pos.eqb]. rewrite word_byte by (auto; lia). f_equal. lia.
  - destruct (r + i / 4 <? 1) eqn:E1; [|destruct (r + i / 4 <? 9) eqn:E2].
    + replace (4 * r + i <? 4) with true by lia. rewrite word_byte by (auto; lia). f_equal. lia.
    + replace (4 * r + i <? 4) with false by lia. replace (4 * r + i <? 36) with true by lia.
      rewrite word_byte by (auto; lia). f_equal. lia.
    + replace (4 * r + i <? 4) with false by lia. replace (4 * r + i <? 36) with false by lia.
      rewrite word_byte by (auto; lia). f_equal. lia.
  - destruct (r + i / 4 <? 8) eqn:E1.
    + replace (4 * r + i <? 32) with true by lia. rewrite word_byte by (auto; lia). f_equal. lia.
    + replace (4 * r + i <? 32) with false by lia. rewrite word_byte by (auto; lia). f_equal. lia.
Qed.

(** A loop whose steps succeed or stop with [UB k]. *)
Lemma for_n_ub {S} (I : Z -> S -> Prop) (P : Prop) k f n : forall s0,
  I 0 s0 ->
  (forall i s, 0 <= i < Z.of_nat n -> I i s ->
     (exists s', f i s = Ok s' /\ I (i + 1) s') \/ f i s = UB k /\ P) ->
  (exists s', for_n n f s0 = Ok s' /\ I (Z.of_nat n) s') \/ for_n n f s0 = UB k /\ P.
Proof.
  induction n as [|m IH]; intros s0 H0 Hs.
  - left. exists s0. split; [reflexivity|assumption].
  - cbn [for_n]. destruct (IH s0 H0) as [(s1 & -> & H1)|(-> & HP)].
    { intros i s Hi. apply Hs. lia. }
    2: { right. auto. }
    cbn [bind]. destruct (Hs (Z.of_nat m) s1) as [(s2 & -> & H2)|(-> & HP)]; [lia|assumption| |].
    + left. exists s2. split; [reflexivity|]. now replace (Z.of_nat (Datatypes.S m)) with (Z.of_nat m + 1) by lia.
    + right. auto.
Qed.

Lemma dw_lane_range i : 0 <= i < 32 -> 0 <= dw_lane i < 32.
Proof. unfold dw_lane, swap12. destruct (Z.eqb_spec (i mod 4) 1), (Z.eqb_spec (i mod 4) 2); lia. Qed.
Lemma dw_lane_inj i j : 0 <= i < 32 -> 0 <= j < 32 -> dw_lane i = dw_lane j -> i = j.
Proof.
  unfold dw_lane, swap12. destruct (Z.eqb_spec (i mod 4) 1), (Z.eqb_spec (i mod 4) 2),
    (Z.eqb_spec (j mod 4) 1), (Z.eqb_spec (j mod 4) 2); lia.
Qed.
Lemma dw_lane_surj t : 0 <= t < 32 -> exists i, 0 <= i < 32 /\ dw_lane i = t.
Proof.
  intros H. exists (4 * (t mod 8) + swap12 (t / 8)). unfold dw_lane, swap12.
  destruct (Z.eqb_spec (t / 8) 1), (Z.eqb_spec (t / 8) 2); try lia;
  match goal with |- _ /\ 8 * (if ?a =? 1 then _ else _) + _ = _ => destruct (Z.eqb_spec a 1), (Z.eqb_spec a 2); lia end.
Qed.

Lemma s32_mod x : - 2 ^ 31 <= x < 2 ^ 31 -> wrap I32 (x mod 2 ^ 32) = x.
Proof.
  intros H. rewrite wrapI32 by (apply Z.mod_pos_bound; lia). unfold s32.
  destruct (x mod 2 ^ 32 <? 2 ^ 31) eqn:E; lia.
Qed.

Section Dw.
  Variables (rf : vregs) (v1 : Z) (vs3 : vgroup) (w : Z) (a d : Z -> Z).
  Hypothesis Hwf : wf rf.
  Hypothesis Hd : dw_wf d.
  Hypothesis Hact : forall r i, 0 <= r < 3 -> 0 <= i < 32 -> abyte a r i = dw_act rf v1 w r i.
  Hypothesis Hg : 3 <= g_n vs3.
  Let c := DCmd (fld w 0 2) (fld w 2 2) (fld w 4 4) (s9 (fld w 12 9)) (fld w 21 1 =? 1) (s9 (fld w 22 9)) (fld w 31 1 =? 1).
  Let after n i := dw_after rf v1 (g_base vs3) w d n i.
  Definition in32 x := - 2 ^ 31 <= x < 2 ^ 31.

  Lemma dw_body_ok r i acc : 0 <= r < 3 -> 0 <= i < 32 ->
    acc (dw_lane i) = after (Z.to_nat r) i mod 2 ^ 32 -> in32 (after (Z.to_nat r) i) ->
    in32 (after (Z.to_nat (r + 1)) i) /\
      dw_body c a (rf (g_base vs3 + r)) r i acc = Ok (upd acc (dw_lane i) (after (Z.to_nat (r + 1)) i mod 2 ^ 32)) \/
    ~ in32 (after (Z.to_nat (r + 1)) i) /\
      dw_body c a (rf (g_base vs3 + r)) r i acc = UB SignedOverflow.
  Proof.
    intros Hr Hi Hacc Hin. unfold dw_body. rewrite land3, interleave_swap. fold (dw_lane i).
    cbn [c dc_sdata1 dc_sdata2 dc_sbias1 dc_sbias2]. rewrite Hact by assumption.
    assert (R1 : 0 <= dw_act rf v1 w r i < 256).
    { rewrite <- Hact by assumption. apply Z.mod_pos_bound. lia. }
    assert (R2 : 0 <= rf (g_base vs3 + r) i < 256) by (apply Hwf; lia).
    rewrite !sbyte_bval by assumption.
    pose proof (bval_range (fld w 21 1 =? 1) _ R1) as B1. pose proof (bval_range (fld w 31 1 =? 1) _ R2) as B2.
    pose proof (s9_range _ (fld_range w 12 9 ltac:(lia))) as S1. pose proof (s9_range _ (fld_range w 22 9 ltac:(lia))) as S2.
    assert (EP : after (Z.to_nat (r + 1)) i = after (Z.to_nat r) i + dw_prod rf v1 (g_base vs3) w r i).
    { unfold after, dw_after. replace (Z.to_nat (r + 1)) with (S (Z.to_nat r)) by lia. cbn [sum].
      rewrite Z2Nat.id by lia. lia. }
    rewrite EP. unfold dw_prod.
    set (x := bval _ (dw_act rf v1 w r i)) in *. set (y := bval _ (rf (g_base vs3 + r) i)) in *.
    set (p := s9 (fld w 12 9)) in *. set (q := s9 (fld w 22 9)) in *.
    clearbody x y p q.
    rewrite i32_ok by lia. cbn [bind]. rewrite i32_ok by lia. cbn [bind]. rewrite i32_ok by nia. cbn [bind].
    rewrite Hacc, s32_mod by exact Hin.
    set (v := after (Z.to_nat r) i + (x + p) * (y + q)). unfold i32.
    destruct (in_range I32 v) eqn:E.
    - left. split; [unfold in_range in E; cbn in E; unfold in32; lia|]. cbn [bind]. rewrite wrapU32. reflexivity.
    - right. split; [unfold in_range in E; cbn in E; unfold in32; lia|]. reflexivity.
  Qed.

  Definition fits_upto n := forall i m, 0 <= i < 32 -> (m <= n)%nat -> in32 (after m i).
  Lemma after0 i : 0 <= i < 32 -> in32 (after 0 i) /\ d (dw_lane i) = after 0 i mod 2 ^ 32.
  Proof.
    intros Hi. unfold after, dw_after. cbn [sum]. rewrite Z.add_0_r.
    pose proof (Hd (dw_lane i) (dw_lane_range i Hi)). unfold in32, s32.
    destruct (d (dw_lane i) <? 2 ^ 31) eqn:E; split; try lia; now rewrite Z.mod_small by lia || idtac.
  Qed.

  Lemma dw_round r acc : 0 <= r < 3 ->
    (forall i, 0 <= i < 32 -> acc (dw_lane i) = after (Z.to_nat r) i mod 2 ^ 32) ->
    (forall t, ~ (0 <= t < 32) -> acc t = d t) -> fits_upto (Z.to_nat r) ->
    (exists acc', for_n 32 (fun i => dw_body c a (rf (g_base vs3 + r)) r i) acc = Ok acc' /\
      (forall i, 0 <= i < 32 -> acc' (dw_lane i) = after (Z.to_nat (r + 1)) i mod 2 ^ 32) /\
      (forall t, ~ (0 <= t < 32) -> acc' t = d t) /\ fits_upto (Z.to_nat (r + 1))) \/
    for_n 32 (fun i => dw_body c a (rf (g_base vs3 + r)) r i) acc = UB SignedOverflow /\
      ~ dw_fits rf v1 (g_base vs3) w d.
  Proof.
    intros Hr Hacc Hout Hfit.
    destruct (for_n_ub (S := Z -> Z)
      (fun n a => (forall i, 0 <= i < 32 -> a (dw_lane i) = after (Z.to_nat (if i <? n then r + 1 else r)) i mod 2 ^ 32) /\
        (forall t, ~ (0 <= t < 32) -> a t = d t) /\
        (forall i, 0 <= i < n -> in32 (after (Z.to_nat (r + 1)) i)))
      (~ dw_fits rf v1 (g_base vs3) w d) SignedOverflow
      (fun i => dw_body c a (rf (g_base vs3 + r)) r i) 32 acc) as [(acc' & E & H1 & H2 & H3)|[E H]].
    - split; [|split]; [|exact Hout|lia]. intros i Hi. destruct (i <? 0) eqn:X; [lia|]. now apply Hacc.
    - intros i acc1 Hi (H1 & H2 & H3).
      pose proof (H1 i ltac:(lia)) as Hi1. destruct (i <? i) eqn:X; [lia|]. clear X.
      destruct (dw_body_ok r i acc1 Hr ltac:(lia) Hi1 (Hfit i _ ltac:(lia) (le_n _))) as [(F & ->)|(F & ->)].
      + left. eexists. split; [reflexivity|]. split; [|split].
        * intros j Hj. unfold upd. destruct (Z.eqb_spec (dw_lane j) (dw_lane i)) as [Eq|Ne].
          -- apply dw_lane_inj in Eq; try lia. subst j. destruct (i <? i + 1) eqn:X; [reflexivity|lia].
          -- rewrite H1 by lia. assert (j <> i) by congruence.
             destruct (j <? i) eqn:X, (j <? i + 1) eqn:Y; try lia; reflexivity.
        * intros t Ht. unfold upd. destruct (Z.eqb_spec t (dw_lane i)) as [->|]; [|now apply H2].
          pose proof (dw_lane_range i ltac:(lia)). lia.
        * intros j Hj. destruct (Z.eq_dec j i) as [->|]; [exact F|apply H3; lia].
      + right. split; [reflexivity|]. intros K. apply F. apply (K i); lia.
    - left. exists acc'. split; [exact E|]. split; [|split].
      + intros i Hi. rewrite H1 by assumption. destruct (i <? Z.of_nat 32) eqn:X; [reflexivity|lia].
      + exact H2.
      + intros i m Hi Hm. destruct (Nat.eq_dec m (Z.to_nat (r + 1))) as [->|]; [apply H3; lia|].
        apply Hfit; lia.
    - right. auto.
  Qed.

  Lemma dw_loops :
    (exists acc', for_n 3 (fun r acc => b <- get_reg vs3 rf r ;; for_n 32 (fun i => dw_body c a b r i) acc) d = Ok acc' /\
      (forall i, 0 <= i < 32 -> acc' (dw_lane i) = after 3 i mod 2 ^ 32) /\
      (forall t, ~ (0 <= t < 32) -> acc' t = d t) /\ dw_fits rf v1 (g_base vs3) w d) \/
    for_n 3 (fun r acc => b <- get_reg vs3 rf r ;; for_n 32 (fun i => dw_body c a b r i) acc) d = UB SignedOverflow /\
      ~ dw_fits rf v1 (g_base vs3) w d.
  Proof.
    destruct (for_n_ub (S := Z -> Z)
      (fun n a => (forall i, 0 <= i < 32 -> a (dw_lane i) = after (Z.to_nat n) i mod 2 ^ 32) /\
        (forall t, ~ (0 <= t < 32) -> a t = d t) /\ fits_upto (Z.to_nat n))
      (~ dw_fits rf v1 (g_base vs3) w d) SignedOverflow
      (fun r acc => b <- get_reg vs3 rf r ;; for_n 32 (fun i => dw_body c a b r i) acc) 3 d)
      as [(acc' & E & H1 & H2 & H3)|[E H]].
    - split; [|split].
      + intros i Hi. now apply after0.
      + reflexivity.
      + intros i m Hi Hm. replace m with 0%nat by (change (Z.to_nat 0) with 0%nat in Hm; lia). now apply after0.
    - intros r acc Hr (H1 & H2 & H3). unfold get_reg.
      replace ((0 <=? r) && (r <? g_n vs3)) with true by lia. cbn [bind].
      destruct (dw_round r acc ltac:(lia) H1 H2 H3) as [(acc' & -> & K)|K]; [left; eauto|right; exact K].
    - left. exists acc'. split; [exact E|]. split; [exact H1|]. split; [exact H2|].
      intros i n Hi Hn. apply (H3 i n Hi). change (Z.to_nat (Z.of_nat 3)) with 3%nat. lia.
    - right. auto.
  Qed.
End Dw.

Lemma vdw_write vd junk (rf : vregs) (acc : Z -> Z) : 4 <= g_n vd -> dw_wf acc ->
  exists rf', for_n 4 (fun i (rf : vregs) =>
                    if i <? g_n vd then
                      b <- for_n 8 (fun j b => Ok (lane_put U32 b j (acc (i * 8 + j)))) (junk i) ;;
                      Ok (upd rf (g_base vd + i) b)
                    else UB OutOfBounds) rf = Ok rf' /\
    (forall k c, 0 <= k < 4 -> 0 <= c < 8 -> rword rf' (g_base vd + k) c = acc (8 * k + c)) /\
    regs_outside (g_base vd) 4 rf rf'.
Proof.
  intros Hg Hw.
  destruct (for_n_inv (S := vregs)
    (fun n r => (forall k c, 0 <= k < n -> 0 <= c < 8 -> rword r (g_base vd + k) c = acc (8 * k + c)) /\
       (forall x, ~ (g_base vd <= x < g_base vd + n) -> r x = rf x))
    (fun i (rf : vregs) =>
                    if i <? g_n vd then
                      b <- for_n 8 (fun j b => Ok (lane_put U32 b j (acc (i * 8 + j)))) (junk i) ;;
                      Ok (upd rf (g_base vd + i) b)
                    else UB OutOfBounds) 4 rf) as (rf' & E & H1 & H2).
  - split; [lia|reflexivity].
  - intros i r Hi (H1 & H2). destruct (i <? g_n vd) eqn:X; [|lia]. clear X.
    destruct (fill_words (junk i) (fun j => acc (i * 8 + j))) as (b & -> & B1 & B2).
    { intros j Hj. apply Hw. lia. }
    cbn [bind]. eexists. split; [reflexivity|]. split.
    + intros k c Hk Hc. rewrite rword_le. unfold upd. destruct (Z.eqb_spec (g_base vd + k) (g_base vd + i)).
      * rewrite B2 by lia. f_equal. lia.
      * rewrite <- rword_le. apply H1; lia.
    + intros x Hx. unfold upd. destruct (Z.eqb_spec x (g_base vd + i)); [lia|]. apply H2; lia.
  - exists rf'. split; [exact E|]. split; [exact H1|exact H2].
Qed.

Lemma vdwconv_cases wa vs1 vs3 vd w pc junk s d : wf (c_v s) -> c_dw s = Some d -> dw_wf d ->
  fld w 2 2 <> 3 -> 9 <= g_n vs1 -> 3 <= g_n vs3 -> (wa = true -> 4 <= g_n vd) ->
  (dw_fits (c_v s) (g_base vs1) (g_base vs3) w d /\
   exists rf d', exec_vdwconv wa vs1 vs3 vd w pc junk s = Ok (CS rf (c_acc s) (Some d') (c_traps s)) /\
     (forall i, 0 <= i < 32 -> 0 <= d' (dw_lane i) < 2 ^ 32 /\ s32 (d' (dw_lane i)) =
        s32 (d (dw_lane i)) + sum 3 (fun r => dw_prod (c_v s) (g_base vs1) (g_base vs3) w r i)) /\
     (wa = false -> rf = c_v s) /\
     (wa = true -> regs_outside (g_base vd) 4 (c_v s) rf /\
        forall k c, 0 <= k < 4 -> 0 <= c < 8 -> rword rf (g_base vd + k) c = d' (8 * k + c))) \/
  (~ dw_fits (c_v s) (g_base vs1) (g_base vs3) w d /\
   exec_vdwconv wa vs1 vs3 vd w pc junk s = UB SignedOverflow).
Proof.
  intros Hwf Ed Hd Hsp G1 G3 Gd. unfold exec_vdwconv. rewrite dw_fields. cbn [dc_regbase dc_sparsity].
  pose proof (fld_range w 4 4 ltac:(lia)) as R4. change (2 ^ 4) with 16 in R4.
  pose proof (fld_range w 2 2 ltac:(lia)) as R2. change (2 ^ 2) with 4 in R2.
  rewrite dw_index_regs by assumption.
  pose proof (dw_regs_range _ R4) as RR. destruct (dw_regs (fld w 4 4)) as [[x y] z] eqn:ER.
  rewrite !(get_reg_ok vs1 (c_v s) x), !(get_reg_ok vs1 (c_v s) y), !(get_reg_ok vs1 (c_v s) z) by lia.
  cbn [bind].
  destruct (dw_adata_some (fld w 2 2) (c_v s (g_base vs1 + x)) (c_v s (g_base vs1 + y)) (c_v s (g_base vs1 + z)))
    as (a & Ea); [lia|].
  rewrite Ea, Ed.
  assert (Hact : forall r i, 0 <= r < 3 -> 0 <= i < 32 -> abyte a r i = dw_act (c_v s) (g_base vs1) w r i).
  { intros r i Hr Hi. apply (abyte_act _ _ _ x y z); auto. lia. }
  destruct (dw_loops (c_v s) (g_base vs1) vs3 w a d Hwf Hd Hact G3) as [(acc & -> & H1 & H2 & H3)|(-> & H)].
  2: { right. split; [exact H|reflexivity]. }
  left. split; [exact H3|]. cbn [bind].
  assert (V : forall i, 0 <= i < 32 -> 0 <= acc (dw_lane i) < 2 ^ 32 /\ s32 (acc (dw_lane i)) =
        s32 (d (dw_lane i)) + sum 3 (fun r => dw_prod (c_v s) (g_base vs1) (g_base vs3) w r i)).
  { intros i Hi. rewrite H1 by assumption. pose proof (H3 i 3%nat Hi ltac:(lia)) as K.
    split; [apply Z.mod_pos_bound; lia|]. rewrite <- wrapI32 by (apply Z.mod_pos_bound; lia).
    rewrite s32_mod by exact K. reflexivity. }
  destruct wa; cbn [negb].
  - assert (Hw : dw_wf acc).
    { intros t Ht. destruct (dw_lane_surj t Ht) as (i & Hi & <-). now apply V. }
    destruct (vdw_write vd junk (c_v s) acc (Gd eq_refl) Hw) as (rf & -> & K1 & K2). cbn [bind].
    exists rf, acc. split; [reflexivity|]. split; [exact V|]. split; [discriminate|]. intros _. split; assumption.
  - exists (c_v s), acc. split; [reflexivity|]. split; [exact V|]. split; [reflexivity|discriminate].
Qed.

Lemma vdwconv_sparsity3 wa vs1 vs3 vd w pc junk s : fld w 2 2 = 3 -> 9 <= g_n vs1 ->
  exec_vdwconv wa vs1 vs3 vd w pc junk s = UB Uninitialised.
Proof.
  intros Hsp G1. unfold exec_vdwconv. rewrite dw_fields. cbn [dc_regbase dc_sparsity].
  pose proof (fld_range w 4 4 ltac:(lia)) as R4. change (2 ^ 4) with 16 in R4.
  rewrite dw_index_regs by assumption.
  pose proof (dw_regs_range _ R4) as RR. destruct (dw_regs (fld w 4 4)) as [[x y] z] eqn:ER.
  rewrite !(get_reg_ok vs1 (c_v s) x), !(get_reg_ok vs1 (c_v s) y), !(get_reg_ok vs1 (c_v s) z) by lia.
  cbn [bind].
  rewrite Hsp. reflexivity.
Qed.

(** ** What the convolutions read *)
Lemma conv_sum_local w rf rf' v1 v3 r c : 0 <= r < 8 -> 0 <= c < 8 -> conv_legal w ->
  (forall q j, 0 <= q < 8 -> 0 <= j < 32 -> rf (v1 + q) j = rf' (v1 + q) j) ->
  (forall q j, 0 <= q < conv_len w -> 0 <= j < 32 -> rf (v3 + q) j = rf' (v3 + q) j) ->
  conv_sum w rf v1 v3 r c = conv_sum w rf' v1 v3 r c.
Proof.
  intros Hr Hc (L1 & L2 & L3) A B. unfold conv_sum. apply sum_ext. intros m Hm. apply sum_ext. intros b Hb.
  pose proof (fld_range w 2 5 ltac:(lia)).
  assert (0 <= word_of r c < 8) by (unfold word_of, swap12; destruct (Z.eqb_spec (r mod 4) 1), (Z.eqb_spec (r mod 4) 2); lia).
  unfold conv_term. unfold conv_len in *. rewrite A, B by (unfold row_of; lia). reflexivity.
Qed.
Lemma conv_reads vs1 vs3 w pc s s' : wf (c_v s) -> wf (c_v s') -> acc_wf (c_acc s) -> conv_legal w ->
  8 <= g_n vs1 -> conv_len w <= g_n vs3 -> c_acc s' = c_acc s ->
  (forall q j, 0 <= q < 8 -> 0 <= j < 32 -> c_v s (g_base vs1 + q) j = c_v s' (g_base vs1 + q) j) ->
  (forall q j, 0 <= q < conv_len w -> 0 <= j < 32 -> c_v s (g_base vs3 + q) j = c_v s' (g_base vs3 + q) j) ->
  exists t t', exec_vconv vs1 vs3 w pc s = Ok t /\ exec_vconv vs1 vs3 w pc s' = Ok t' /\
    c_traps t = c_traps s /\ c_traps t' = c_traps s' /\
    forall r c, 0 <= r < 8 -> 0 <= c < 8 -> c_acc t r c = c_acc t' r c.
Proof.
  intros W1 W2 Ha L G1 G3 E A B.
  destruct (conv_exact vs1 vs3 w pc s) as (a1 & -> & _ & H1); auto.
  destruct (conv_exact vs1 vs3 w pc s') as (a2 & -> & _ & H2); auto. { now rewrite E. }
  eexists _, _. split; [reflexivity|]. split; [reflexivity|]. cbn [c_traps c_acc]. split; [reflexivity|].
  split; [reflexivity|]. intros r c Hr Hc. rewrite H1, H2, E by assumption.
  now rewrite (conv_sum_local w (c_v s) (c_v s')) by assumption.
Qed.
