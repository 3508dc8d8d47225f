(** * Permuting vector instructions; registers are determined by their lanes *)
From Verif Require Import CInt Lane LaneSpec VecModel VecSpec LaneProofs LaneProofs2 LaneProofs3
  LaneProofs4 LaneCor VecProofs VecEl VecFam.
From Coq Require Import ZifyBool ZifyNat.
Import ListNotations.
Ltac Zify.zify_post_hook ::= Z.div_mod_to_equations.

Lemma arg1_ok T a b : in_range T a = true -> l_arg1 T a b = Ok a.
Proof. intros H. unfold l_arg1. run. now rewrite wrap_id. Qed.
Lemma gsrc_range T rf s J : in_range T (gsrc T rf s J) = true.
Proof. destruct s; [apply lane_range|apply trunc_range]. Qed.
Lemma cat2_range T rf s1 s2 n J : in_range T (cat2 T rf s1 s2 n J) = true.
Proof. unfold cat2. destruct (J <? n); apply gsrc_range. Qed.
Lemma perm_lane_range p T rf N vs1 s2 J : in_range T (perm_lane p T rf N vs1 s2 J) = true.
Proof.
  destruct p; cbn [perm_lane]; repeat match goal with
   |- context [if ?c then _ else _] => destruct c end; first [apply cat2_range|apply gsrc_range].
Qed.
Lemma elts_cases T : small T -> elts T = 8 \/ elts T = 16 \/ elts T = 32.
Proof. intros H. smalls H; cbn; auto. Qed.
Lemma perm_dpo p T N : dest_per_op (sem_perm p T) * N = perm_regs p N.
Proof.
  unfold dest_per_op. cbn. rewrite Z.ltb_irrefl. cbn [andb orb].
  destruct p; cbn [perm_regs]; ring.
Qed.

Theorem perm_exec p T scalar strip vd nd vs1 n1 s2 junk rf :
  let N := nops strip in
  small T -> wf rf -> perm_ok p scalar strip ->
  perm_regs p N <= nd -> N <= n1 -> apart N vd (perm_regs p N) vs1 N ->
  second_apart s2 scalar N vd (perm_regs p N) ->
  exists rf',
    exec (VPerm p T) scalar strip
      {| o_s0 := SVec vs1 n1; o_s1 := s2; o_vd := vd; o_nd := nd |} junk rf = Ok rf' /\
    wf rf' /\ only_written vd (perm_regs p N) rf rf' /\
    forall J, 0 <= J < perm_regs p N * nlanes T ->
      glane T rf' vd J = perm_lane p T rf N vs1 s2 J.
Proof.
  intros N HT Hwf Hok Hnd Hn1 Hap Hs2.
  assert (HN : N = 1 \/ N = 4) by (unfold N, nops; destruct strip; auto).
  set (L := elts T) in *.
  assert (HL : L = 8 \/ L = 16 \/ L = 32) by now apply elts_cases.
  assert (HnL : nlanes T = L) by now apply nlanes_elts.
  set (opr := {| o_s0 := SVec vs1 n1; o_s1 := s2; o_vd := vd; o_nd := nd |}).
  assert (Hexec : exec (VPerm p T) scalar strip opr junk rf =
                  exec_binary (sem_perm p T) opr scalar strip junk rf).
  { cbn [exec]. destruct p; cbn [perm_ok] in Hok; try reflexivity;
    destruct Hok as (_ & -> & Hh); (destruct horizontal; [rewrite Hh by reflexivity|]; reflexivity). }
  rewrite Hexec. clear Hexec.
  set (dpo := dest_per_op (sem_perm p T)).
  assert (Hdpo : dpo * N = perm_regs p N) by apply perm_dpo.
  assert (Hd12 : dpo = 1 \/ dpo = 2) by apply dpo12.
  set (res := fun op e d => perm_lane p T rf N vs1 s2 ((op + d * N) * L + e)).
  destruct (exec_binary_lanes (sem_perm p T) opr scalar strip junk rf res) as (rf' & He & Hw & Hf & Hb).
  - exact HT.
  - fold N dpo. rewrite Hdpo. exact Hnd.
  - exact Hwf.
  - fold N dpo. intros op rf2 Hop Hag e d He Hd. cbn [opr o_vd] in Hag. fold dpo in Hd.
    cbn [sem_perm v_td v_ts1 v_ts2 v_rdest v_op v_get1] in *. fold L in He.
    assert (Hag1 : forall r, N = 1 \/ ~ (vd <= r < vd + perm_regs p N) -> forall j, rf2 r j = rf r j).
    { intros r Hr. apply Hag. intros op' d' H1 H2. rewrite <- Hdpo in Hr.
      assert (H3 : d' = 0 \/ d' = 1) by lia.
      destruct HN as [E|E]; rewrite E in *; [lia|]. destruct Hd12 as [E2|E2]; rewrite E2 in *; lia. }
    assert (rd1 : forall idx, 0 <= idx < N * L -> get_src T (SVec vs1 n1) rf2 idx = Ok (gsrc T rf (SVec vs1 N) idx)).
    { intros idx Hi. cbn [gsrc]. apply get_vec_flat; [exact HT|fold L; nia|].
      fold L. apply Hag1. unfold apart, disjoint in Hap. destruct Hap as [Hap|Hap]; [auto|right].
      assert (0 <= idx / L < N).
      { split; [apply Z.div_pos; lia|]. apply Z.div_lt_upper_bound; lia. }
      lia. }
    assert (rd2 : forall idx, 0 <= idx < N * L -> get_src T s2 rf2 (if scalar then 0 else idx) = Ok (gsrc T rf s2 idx)).
    { intros idx Hi. destruct s2 as [b n|x]; cbn [second_apart gsrc] in *.
      - destruct Hs2 as (-> & Hn2 & Hap2). apply get_vec_flat; [exact HT|fold L; nia|].
        fold L. apply Hag1. unfold apart, disjoint in Hap2. destruct Hap2 as [H|H]; [auto|right].
        assert (0 <= idx / L < N).
        { split; [apply Z.div_pos; lia|]. apply Z.div_lt_upper_bound; lia. }
        lia.
      - rewrite Hs2. apply get_scal. }
    assert (Hg1 : let g := v_get1 (sem_perm p T) scalar N op e d in
       get_src T (src_no opr (fst g)) rf2 (snd g) = Ok (res op e d)).
    { cbn [sem_perm v_get1]. unfold res.
      assert (Hdd : match p with PEvnodd | PZip | PMvp => d = 0 \/ d = 1 | _ => d = 0 end).
      { destruct p; cbn [perm_regs] in Hdpo; destruct Hd12 as [E|E]; rewrite E in *; lia. }
      destruct p as [h k|h k| | | | |]; cbn [perm_ok] in Hok; cbn [perm_lane].
      - (* sliden *)
        destruct Hok as (Hk & Hsc & Hh). subst d scalar. rewrite HnL.
        unfold sliden_get, sliden_start, sliden_end. fold L. destruct h.
        + assert (HN4 : N = 4) by (unfold N; now rewrite Hh).
          destruct (e + k <? L) eqn:E1; [|destruct (op =? 3) eqn:E2]; cbn [fst snd src_no opr o_s0 o_s1 Z.eqb].
          * rewrite rd1 by nia. f_equal. unfold cat2.
            assert ((op + 0 * N) * L + e + k <? 4 * L = true) as -> by nia. f_equal. ring.
          * rewrite (rd2 (0 * L + e + k - L)) by nia. f_equal. unfold cat2.
            assert (op = 3) by lia. subst op.
            assert ((3 + 0 * N) * L + e + k <? 4 * L = false) as -> by lia. f_equal. ring.
          * rewrite rd1 by nia. f_equal. unfold cat2.
            assert ((op + 0 * N) * L + e + k <? 4 * L = true) as -> by nia. f_equal. ring.
        + assert (Hm : ((op + 0 * N) * L + e) mod L = e).
          { replace ((op + 0 * N) * L + e) with (e + op * L) by ring.
            rewrite Z.mod_add by lia. apply Z.mod_small. lia. }
          rewrite Hm.
          destruct (e + k <? L) eqn:E1; cbn [fst snd src_no opr o_s0 o_s1 Z.eqb].
          * rewrite rd1 by nia. f_equal. f_equal. ring.
          * rewrite (rd2 (op * L + e + k - L)) by nia. f_equal. f_equal. ring.
      - (* slidep *)
        destruct Hok as (Hk & Hsc & Hh). subst d scalar. rewrite HnL.
        unfold slidep_get, slidep_start, slidep_end. fold L. destruct h.
        + assert (HN4 : N = 4) by (unfold N; now rewrite Hh).
          destruct (e <? k) eqn:E1; [destruct (op =? 0) eqn:E2|]; cbn [fst snd src_no opr o_s0 o_s1 Z.eqb].
          * rewrite rd1 by nia. f_equal. unfold cat2. assert (op = 0) by lia. subst op.
            assert (4 * L + ((0 + 0 * N) * L + e) - k <? 4 * L = true) as -> by lia. f_equal. ring.
          * rewrite (rd2 ((op - 1) * L + e - k + L)) by nia. f_equal. unfold cat2.
            assert (4 * L + ((op + 0 * N) * L + e) - k <? 4 * L = false) as -> by nia. f_equal. ring.
          * rewrite (rd2 (op * L + e - k)) by nia. f_equal. unfold cat2.
            assert (4 * L + ((op + 0 * N) * L + e) - k <? 4 * L = false) as -> by nia. f_equal. ring.
        + assert (Hm : ((op + 0 * N) * L + e) mod L = e).
          { replace ((op + 0 * N) * L + e) with (e + op * L) by ring.
            rewrite Z.mod_add by lia. apply Z.mod_small. lia. }
          rewrite Hm.
          destruct (e <? k) eqn:E1; cbn [fst snd src_no opr o_s0 o_s1 Z.eqb].
          * assert (k <=? e = false) as -> by lia. rewrite rd1 by nia. f_equal. f_equal. ring.
          * assert (k <=? e = true) as -> by lia. rewrite (rd2 (op * L + e - k)) by nia. f_equal. f_equal. ring.
      - subst d. rewrite HnL. unfold evn_get, evnodd_get_at, cat2. fold L.
        replace (2 * ((op + 0 * N) * L + e)) with (op * L * 2 + e * 2 + 0) by ring.
        rewrite (Z.mul_comm L N).
        destruct (op * L * 2 + e * 2 + 0 <? N * L) eqn:E1; cbn [fst snd src_no opr o_s0 o_s1 Z.eqb].
        + rewrite rd1; [reflexivity|nia].
        + rewrite rd2; [reflexivity|]. destruct HN as [E|E]; rewrite E in *; nia.
      - subst d. rewrite HnL. unfold odd_get, evnodd_get_at, cat2. fold L.
        replace (2 * ((op + 0 * N) * L + e) + 1) with (op * L * 2 + e * 2 + 1) by ring.
        rewrite (Z.mul_comm L N).
        destruct (op * L * 2 + e * 2 + 1 <? N * L) eqn:E1; cbn [fst snd src_no opr o_s0 o_s1 Z.eqb].
        + rewrite rd1; [reflexivity|nia].
        + rewrite rd2; [reflexivity|]. destruct HN as [E|E]; rewrite E in *; nia.
      - rewrite HnL. unfold evnodd_get, evn_get, odd_get, evnodd_get_at, cat2. fold L.
        rewrite (Z.mul_comm L N). destruct Hdd as [-> | ->]; cbn [Z.eqb].
        + assert ((op + 0 * N) * L + e <? N * L = true) as -> by nia.
          replace (2 * ((op + 0 * N) * L + e)) with (op * L * 2 + e * 2 + 0) by ring.
          destruct (op * L * 2 + e * 2 + 0 <? N * L) eqn:E1; cbn [fst snd src_no opr o_s0 o_s1 Z.eqb].
          * rewrite rd1; [reflexivity|nia].
          * rewrite rd2; [reflexivity|]. destruct HN as [E|E]; rewrite E in *; nia.
        + assert ((op + 1 * N) * L + e <? N * L = false) as -> by nia.
          replace (2 * ((op + 1 * N) * L + e - N * L) + 1) with (op * L * 2 + e * 2 + 1) by ring.
          destruct (op * L * 2 + e * 2 + 1 <? N * L) eqn:E1; cbn [fst snd src_no opr o_s0 o_s1 Z.eqb].
          * rewrite rd1; [reflexivity|nia].
          * rewrite rd2; [reflexivity|]. destruct HN as [E|E]; rewrite E in *; nia.
      - unfold zip_get. fold L. change (Z.land e 1) with (Z.land e (Z.ones 1)). rewrite Z.land_ones by lia.
        change (2 ^ 1) with 2.
        assert (Hh2 : L = 2 * (L / 2)) by (destruct HL as [E|[E|E]]; rewrite E; reflexivity).
        set (h := L / 2) in *.
        assert (Hev : Z.even ((op + d * N) * L + e) = (e mod 2 =? 0)).
        { rewrite Hh2. rewrite Z.even_add. rewrite (Z.mul_comm (op + d * N)), <- Z.mul_assoc, Z.even_mul.
          cbn [Z.even orb]. rewrite Zmod_even. now destruct (Z.even e). }
        assert (Hhalf : ((op + d * N) * L + e) / 2 = op * h + e / 2 + d * h * N).
        { rewrite Hh2. replace ((op + d * N) * (2 * h) + e) with (e + (op * h + d * h * N) * 2) by ring.
          rewrite Z.div_add by lia. ring. }
        assert (He2 : 0 <= e / 2 < h) by lia.
        rewrite Hev, Hhalf. clear Hev Hhalf.
        assert (Hi : 0 <= op * h + e / 2 + d * h * N < N * L).
        { rewrite Hh2. destruct Hdd as [-> | ->]; destruct HN as [E|E]; rewrite E in *; nia. }
        destruct (e mod 2 =? 0); cbn [negb fst snd src_no opr o_s0 o_s1 Z.eqb].
        + now apply rd1.
        + now apply rd2.
      - rewrite HnL. unfold mvp_get, cat2. destruct Hdd as [-> | ->]; change (0 =? 0) with true; change (1 =? 0) with false; cbv iota; unfold common_get1, common_get2; cbv beta zeta.
        + assert ((op + 0 * N) * L + e <? N * L = true) as -> by nia.
          assert ((sizeof T =? sizeof T) && (sizeof T =? 2 * sizeof T) = false) as ->
            by (destruct T; reflexivity).
          rewrite Z.div_mul by (destruct T; discriminate). fold L.
          cbn [fst snd src_no opr o_s0 Z.eqb]. rewrite rd1 by nia. do 2 f_equal. ring.
        + assert ((op + 1 * N) * L + e <? N * L = false) as -> by nia.
          rewrite Z.div_mul by (destruct T; discriminate). fold L.
          cbn [fst snd src_no opr o_s1 Z.eqb]. rewrite rd2 by nia. do 2 f_equal. ring. }
    exists (res op e d).
    assert (Hg2 : exists b, let g := v_get2 (sem_perm p T) scalar N op e d in
       get_src T (src_no opr (fst g)) rf2 (snd g) = Ok b).
    { cbn [sem_perm v_get2]. cbn [sem_perm v_get1] in Hg1.
      destruct p as [h k|h k| | | | |];
        try (eexists; exact Hg1);
        (cbn [common_get2 fst snd src_no opr o_s1 Z.eqb]; eexists; rewrite rd2; [reflexivity|];
         assert (d = 0) by (cbn [perm_regs] in Hdpo; destruct Hd12 as [E|E]; rewrite E in *; lia);
         subst d; rewrite Z.div_mul by (destruct T; discriminate); fold L; nia). }
    destruct Hg2 as (b & Hg2). exists b. split; [exact Hg1|]. split; [exact Hg2|].
    intros dv _. apply arg1_ok. apply perm_lane_range.
  - intros. apply perm_lane_range.
  - exists rf'. split; [exact He|]. split; [exact Hw|]. fold N dpo in Hf, Hb. rewrite Hdpo in Hf.
    split; [exact Hf|]. cbn [opr o_vd sem_perm v_td] in *. fold L in Hb. rewrite HnL.
    intros J HJ. unfold glane. rewrite HnL.
    set (q := J / L). set (e := J mod L).
    assert (Hq : 0 <= q < perm_regs p N).
    { unfold q. split; [apply Z.div_pos; lia|]. apply Z.div_lt_upper_bound; lia. }
    assert (Hee : 0 <= e < L) by (apply Z.mod_pos_bound; lia).
    assert (HJ2 : J = q * L + e) by (unfold q, e; rewrite Z.mod_eq by lia; ring).
    clearbody q e.
    assert (Hqd : q = q mod N + q / N * N) by (destruct HN as [E|E]; rewrite E; lia).
    rewrite Hqd at 1. rewrite Hb; unfold res.
    + now rewrite <- Hqd, <- HJ2.
    + destruct HN as [E|E]; rewrite E; lia.
    + rewrite <- Hdpo in Hq. destruct HN as [E|E]; rewrite E in *; lia.
    + exact Hee.
Qed.
