(** * Renode interface: properties C49 to C52 *)
From Coq Require Import ZArith List Bool Lia ZifyBool ZifyNat.
From Verif Require Import CInt RenodeModel RenodeSpec.
From Verif Require RenodeProofs.
Import ListNotations.
Open Scope Z_scope.

(** A toy simulator for the examples: the object counts the instructions it may
    still execute and remembers the last halt reason; it stops with kHaltAbort
    when it runs out. Register "x5" (id 0x1005) reads the count. *)
Definition tdbg := (Z * hreason)%type.
Definition toy (fuel0 : Z) : ops tdbg unit unit :=
  Ops _ _ _ (fun _ _ => Ok (fuel0, HNone)) (fun d => Some (snd d))
    (fun c d => let e := Z.min c (Z.max 0 (fst d)) in (Some e, (fst d - e, if e <? c then HAbort else HNone)))
    (fun d => (true, (fst d, if fst d <? 3 then HHwBreakpoint else HUserRequest)))
    (fun _ d => (Some (fst d), d)) (fun _ v d => (true, (v, snd d)))
    (fun _ _ d => (Some [], d)) (fun _ _ d => (Some 0, d)) (fun _ _ d => (true, d)) (fun _ d => (None, d))
    (fun r => match r with DPc => 0x7b1 | DX n => 0x1000 + n end)
    (fun i => if i =? 0x7b1 then Some [112; 99] else if (0x1000 <=? i) && (i <? 0x1020) then Some [120; 48 + i mod 16] else None).
Definition toy_run (n : Z) (ks : list (call unit unit)) : option (list Z) :=
  match run (toy n) 10 ks agent0 with Some (Ok (_, rs)) => Some (map r_ret rs) | _ => None end.

Section C49.
  (** Whatever the simulators behind the interface do. *)
  Variables (Dbg File Blocks : Type) (o : ops Dbg File Blocks).

  (** The k-th construct (from 0) of any history returns k as an int32. *)
  Theorem C49_ids : forall fuel ks a rs, run o fuel ks agent0 = Some (Ok (a, rs)) ->
    map (fun p => r_ret (snd p)) (filter (fun p => is_construct (fst p)) (combine ks rs)) =
    map (fun i => s32 (Z.of_nat i)) (seq 0 (length (filter is_construct ks))).
  Proof. intros fuel ks a rs E. exact (proj1 (RenodeProofs.ids_from o fuel ks _ a rs 0 E eq_refl)). Qed.
  (** So ids are distinct, up to 2^32 of them. *)
  Theorem C49_unique_partial : forall fuel ks a rs, run o fuel ks agent0 = Some (Ok (a, rs)) ->
    Z.of_nat (length (filter is_construct ks)) <= 2 ^ 32 ->
    NoDup (map (fun p => r_ret (snd p)) (filter (fun p => is_construct (fst p)) (combine ks rs))).
  Proof. intros fuel ks a rs E H. rewrite (C49_ids fuel ks a rs E). apply RenodeProofs.ids_distinct. exact H. Qed.
  (** The first id is zero, documented as an error. *)
  Theorem C49_nonzero_refuted : forall fuel max mem a r,
    run o fuel [Construct max mem] agent0 = Some (Ok (a, [r])) -> r_ret r = 0.
  Proof.
    intros fuel max mem a r E. pose proof (C49_ids fuel _ a [r] E) as H. cbn in H. injection H as H. exact H.
  Qed.
  (** A new id was unknown before and names the new object at once. *)
  Theorem C49_valid : forall fuel ks max mem a rs a' r, run o fuel ks agent0 = Some (Ok (a, rs)) ->
    let n := Z.of_nat (length (filter is_construct ks)) in
    n + 1 < 2 ^ 32 ->
    do_call o fuel (Construct max mem) a = Some (Ok (a', r)) ->
    object a (r_ret r) = None /\
    exists d, create o n mem = Ok d /\ object a' (r_ret r) = Some d /\
      forall id, id mod 2 ^ 32 <> r_ret r mod 2 ^ 32 -> object a' id = object a id.
  Proof.
    intros fuel ks max mem a rs a' r E n Hn C.
    destruct (RenodeProofs.below_run o fuel ks _ a rs E) as [B [Hc _]]; [cbn; lia | exact Hn | intros i Hi; exfalso; apply Hi; reflexivity |].
    cbn [agent0 a_count] in Hc. fold n in Hc.
    pose proof (RenodeProofs.call_cases o fuel _ _ _ _ C) as [max' [mem' [d [X [D [-> ->]]]]]]. injection X as <- <-.
    assert (N : a_inst a (a_count a) = None).
    { destruct (a_inst a (a_count a)) eqn:F; [|reflexivity]. assert (Q : a_inst a (a_count a) <> None) by congruence.
      apply B in Q. lia. }
    unfold object. cbn [r_ret ret a_inst]. change (s32 (a_count a) mod 2 ^ 32) with (u32 (s32 (a_count a))).
    rewrite RenodeProofs.u32_s32. assert (U : u32 (a_count a) = a_count a) by (unfold u32; apply Z.mod_small; lia).
    rewrite U. split; [exact N|]. exists d. split; [rewrite Hc in D; exact D|]. unfold emplace, put. rewrite N, Z.eqb_refl.
    split; [reflexivity|]. intros id Hid. apply Z.eqb_neq in Hid. rewrite Hid. reflexivity.
  Qed.
  (** A destroyed id is rejected by every call from then on, with no effect. *)
  Theorem C49_destroyed : forall fuel ks1 ks2 id a rs r1,
    run o fuel (ks1 ++ Destroy id :: ks2) agent0 = Some (Ok (a, rs)) ->
    nth_error rs (length ks1) = Some r1 -> r_ret r1 = 0 ->
    Z.of_nat (length (filter is_construct (ks1 ++ ks2))) + 1 < 2 ^ 32 ->
    forall k a' r, target k = Some id -> do_call o fuel k a = Some (Ok (a', r)) -> a' = a /\ rejected k r.
  Proof.
    intros fuel ks1 ks2 id a rs r1 E H1 H2 H3 k a' r T C.
    pose proof (RenodeProofs.destroyed_run o fuel ks1 ks2 id a rs r1 E H1 H2 H3) as F.
    pose proof (RenodeProofs.call_cases o fuel k a a' r C) as Q. rewrite T in Q. apply Q. exact F.
  Qed.
  (** Such a call does come back, except load_executable with a null status. *)
  Theorem C49_unknown_returns : forall fuel k id (a : agent), target k = Some id -> object a id = None ->
    (forall f, k <> LoadExecutable id f false) ->
    exists r, do_call o fuel k a = Some (Ok (a, r)) /\ rejected k r.
  Proof.
    intros fuel k id a T F L. unfold object in F. change (id mod 2 ^ 32) with (u32 id) in F.
    destruct k; try discriminate; injection T as ->; cbn [do_call]; unfold find; rewrite F.
    all: try (eexists; split; [reflexivity|]; repeat split).
    - destruct info; eexists; (split; [reflexivity|]; repeat split).
    - destruct st; [|exfalso; exact (L f eq_refl)]. eexists; split; [reflexivity|]; repeat split.
    - destruct val; eexists; (split; [reflexivity|]; repeat split).
  Qed.
  (** Calls about other instances can be left out: the answers about instance [j]
      and its object stay the same. *)
  Theorem C49_isolated : forall fuel j ks a rs, run o fuel ks agent0 = Some (Ok (a, rs)) ->
    exists a', run o fuel (filter (keeps j) ks) agent0 =
                 Some (Ok (a', map snd (filter (fun p => keeps j (fst p)) (combine ks rs)))) /\
               object a' j = object a j.
  Proof.
    intros fuel j ks a rs E.
    destruct (RenodeProofs.isolated o fuel j ks _ agent0 a rs E eq_refl eq_refl eq_refl) as [a' [H1 H2]].
    exists a'. split; [exact H1 | symmetry; exact H2].
  Qed.
End C49.
Print Assumptions C49_ids.
Print Assumptions C49_unique_partial.
Print Assumptions C49_nonzero_refuted.
Print Assumptions C49_valid.
Print Assumptions C49_destroyed.
Print Assumptions C49_unknown_returns.
Print Assumptions C49_isolated.
(** Two instances; the first is stepped, destroyed and used again. *)
Definition hist0 : list (call unit unit) :=
  [Construct 8 None; Construct 8 None; Step 0 4 true; Step 1 3 true; Destroy 0; ReadReg 0 0x1005 true;
   Step 0 1 true; ReadReg 1 0x1005 true; Construct 8 None].
Example C49_case : toy_run 100 hist0 = Some [0; 1; 4; 3; 0; -1; 0; 0; 2] /\
  toy_run 100 (filter (keeps 1) hist0) = Some [0; 1; 3; 0; 2] /\
  Z.of_nat (length (filter is_construct hist0)) + 1 < 2 ^ 32 /\
  match run (toy 100) 10 hist0 agent0 with
  | Some (Ok (a, rs)) => object a 0 = None /\ object a 1 = Some (97, HNone) /\
      nth_error rs 4 = Some (ret 0) /\ map r_data (skipn 7 rs) = [[97]; []]
  | _ => False
  end.
Proof. vm_compute. repeat split. Qed.

(** ** C50 *)
Section C50.
  Variables (Dbg File Blocks : Type) (o : ops Dbg File Blocks).
  (** Missing: the returned total is the executed number modulo 2^32. *)
  Theorem C50_step_partial : forall fuel id n st (a a' : agent) r d,
    step_contract o -> 0 <= n < 2 ^ 64 -> object a id = Some d ->
    do_call o fuel (Step id n st) a = Some (Ok (a', r)) ->
    exists d' tr s, object a' id = Some d' /\ (forall j, j mod 2 ^ 32 <> id mod 2 ^ 32 -> object a' j = object a j) /\
      replays o d tr d' /\
      Forall (fun c => 0 < fst c <= 2147483647) tr /\ asked tr <= n /\
      r_ret r = executed tr mod 2 ^ 32 /\ (n < 2 ^ 32 -> r_ret r = executed tr) /\
      r_status r = (if st then Some s else None) /\
      (n = 0 -> tr = [] /\ s = 0) /\
      (0 < n -> d_reason o d = None \/ d_reason o d = Some HSemihost -> tr = [] /\ s = -1) /\
      (0 < n -> d_reason o d <> None -> d_reason o d <> Some HSemihost ->
         exists pre lst, tr = pre ++ [lst] /\ Forall (fun c => snd c = Some (fst c)) pre /\
           s = step_status (snd lst) (d_reason o d') /\
           (goes_on lst (d_reason o d') -> asked tr = n)).
  Proof.
    intros fuel id n st a a' r d SC Hn F E. cbn [do_call] in E. unfold find in E. unfold object in F.
    change (id mod 2 ^ 32) with (u32 id) in F. rewrite F in E.
    destruct (step_obj o fuel n d) as [[[[total s] d'] tr]|] eqn:S; [|discriminate]. injection E as <- <-.
    assert (Ob : object (upd id d' a) id = Some d')
      by (unfold object, upd, put; cbn [a_inst]; change (id mod 2 ^ 32) with (u32 id); rewrite Z.eqb_refl; reflexivity).
    assert (Oj : forall j, j mod 2 ^ 32 <> id mod 2 ^ 32 -> object (upd id d' a) j = object a j)
      by (intros j Hj; unfold object, upd, put; cbn [a_inst]; apply Z.eqb_neq in Hj; unfold u32; rewrite Hj; reflexivity).
    exists d', tr, s. split; [exact Ob|]. split; [exact Oj|].
    unfold step_obj in S. cbn [ret_st r_ret r_status]. destruct (n =? 0) eqn:N.
    { injection S as <- <- <- <-. split; [constructor|]. split; [constructor|]. split; [cbn; lia|]. repeat split; try lia. }
    assert (K : forall t s', (0, kAborted, d, []) = (t, s', d', tr) -> t = 0 /\ s' = -1 /\ d' = d /\ tr = [])
      by (intros t s' X; injection X as <- <- <- <-; repeat split).
    destruct (d_reason o d) as [rd|] eqn:Rd.
    2: { injection S as <- <- <- <-. split; [constructor|]. split; [constructor|]. split; [cbn; lia|].
         repeat split; try lia; congruence. }
    assert (L : rd = HSemihost \/ (rd <> HSemihost /\ step_loop o fuel n 0 d [] = Some (total, s, d', tr)))
      by (destruct rd; auto; right; split; congruence || exact S).
    destruct L as [-> | [Hs L]].
    { injection S as <- <- <- <-. split; [constructor|]. split; [constructor|]. split; [cbn; lia|].
      repeat split; try lia; congruence. }
    destruct (RenodeProofs.step_loop_ok o SC fuel n 0 d [] total s d' tr Hn L ltac:(lia)) as [new [-> [P1 [P2 [P3 [P4 [P5 P6]]]]]]].
    cbn [app] in *. rewrite Z.add_0_l in P3.
    split; [exact P1|]. split; [exact P2|]. split; [exact P4|]. split; [exact P3|].
    assert (Ex : 0 <= executed new <= asked new).
    { clear - P1 SC P2. induction P1 as [|d c ans d1 tr d' D P IH]; [cbn; lia|].
      inversion P2 as [|? ? Q1 Q2]; subst. specialize (IH Q2). cbn [fst] in Q1.
      unfold executed, asked in *. cbn [fold_right fst snd]. destruct ans as [e|]; [|lia].
      pose proof (SC c d e d1 D ltac:(lia)). lia. }
    split; [intro Hs32; rewrite P3; unfold u32; apply Z.mod_small; lia|].
    split; [reflexivity|]. split; [lia|]. split; [intros _ [X|X]; congruence|].
    intros H0 _ _. exact (P6 H0).
  Qed.
  (** Step returns after at most n / INT_MAX + 1 calls of the simulator. *)
  Theorem C50_terminates : forall fuel id n st (a : agent), step_contract o -> 0 <= n < 2 ^ 64 ->
    n / 2147483647 < Z.of_nat fuel -> exists a' r, do_call o fuel (Step id n st) a = Some (Ok (a', r)).
  Proof.
    intros fuel id n st a SC Hn Hf. cbn [do_call]. destruct (find id a) as [d|]; [|eexists; eexists; reflexivity].
    assert (S : exists x, step_obj o fuel n d = Some x).
    { unfold step_obj. destruct (n =? 0); [eexists; reflexivity|]. destruct (d_reason o d) as [rd|]; [|eexists; reflexivity].
      destruct (RenodeProofs.step_loop_fuel o SC fuel n 0 d [] Hn Hf) as [x Hx].
      destruct rd; try (exists x; exact Hx). eexists; reflexivity. }
    destruct S as [[[[t s] d'] tr] ->]. eexists. eexists. reflexivity.
  Qed.
  (** The count is reported modulo 2^32, for every simulator that runs on. *)
  Theorem C50_count_refuted : forall fuel id n st (a a' : agent) r d,
    step_contract o -> 2 ^ 32 <= n < 2 ^ 64 -> object a id = Some d ->
    (forall x, d_reason o x = Some HNone) -> (forall c x, exists x', d_step o c x = (Some c, x')) ->
    do_call o fuel (Step id n st) a = Some (Ok (a', r)) ->
    r_ret r = n mod 2 ^ 32 /\ r_ret r <> n /\ r_status r = if st then Some 0 else None.
  Proof.
    intros fuel id n st a a' r d SC Hn F HR HS E.
    destruct (C50_step_partial fuel id n st a a' r d SC ltac:(lia) F E)
      as [d' [tr [s [_ [_ [P [_ [_ [P1 [_ [P2 [_ [_ P3]]]]]]]]]]]]].
    destruct (P3 ltac:(lia)) as [pre [lst [-> [Q1 [Q2 Q3]]]]]; [rewrite HR; discriminate | rewrite HR; discriminate |].
    assert (All : forall d tr d', replays o d tr d' -> Forall (fun c => snd c = Some (fst c)) tr).
    { clear - HS. induction 1 as [|d c ans d1 tr d' D P IH]; constructor; [|exact IH].
      destruct (HS c d) as [x' X]. rewrite X in D. injection D as <- _. reflexivity. }
    apply All in P. apply Forall_app in P. destruct P as [_ P]. inversion P as [|? ? P0 _]; subst.
    assert (Q : asked (pre ++ [lst]) = n) by (apply Q3; split; [exact P0 | left; apply HR]).
    assert (X : forall l, Forall (fun c : Z * option Z => snd c = Some (fst c)) l -> executed l = asked l).
    { induction 1 as [|x l Hx Hl IH]; [reflexivity|]. unfold executed, asked in *. cbn [fold_right]. rewrite Hx, IH. reflexivity. }
    rewrite X in P1 by (apply Forall_app; split; assumption). rewrite Q in P1.
    split; [exact P1|]. split; [rewrite P1; intro Y; assert (0 <= n mod 2 ^ 32 < 2 ^ 32) by (apply Z.mod_pos_bound; lia); lia|].
    rewrite P2, P0, HR. reflexivity.
  Qed.
  (** *** C51: the status stored by halt and its return value *)
  Theorem C51_halt_partial : forall fuel id st (a : agent),
    exists a' r, do_call o fuel (Halt id st) a = Some (Ok (a', r)) /\
      match object a id with
      | None => a' = a /\ r_ret r = -1 /\ r_status r = None
      | Some d => let (ok, d') := d_halt o d in
          object a' id = Some d' /\ (forall j, j mod 2 ^ 32 <> id mod 2 ^ 32 -> object a' j = object a j) /\
          (r_ret r = -1 <-> ok = false \/ d_reason o d' = None) /\
          (r_ret r = -1 \/ r_ret r = 0) /\
          (st = true -> r_ret r = -1 -> r_status r = Some (-1)) /\
          (st = true -> r_ret r = 0 -> forall rs, d_reason o d' = Some rs -> r_status r = halt_status rs) /\
          (st = false -> r_status r = None)
      end.
  Proof.
    intros fuel id st a. cbn [do_call]. unfold find, object. change (id mod 2 ^ 32) with (u32 id).
    destruct (a_inst a (u32 id)) as [d|]; [|eexists; eexists; split; [reflexivity|]; repeat split].
    unfold halt_obj. destruct (d_halt o d) as [ok d'].
    assert (Ob : forall x, a_inst (upd id x a) (u32 id) = Some x) by (intro x; unfold upd, put; cbn [a_inst]; rewrite Z.eqb_refl; reflexivity).
    assert (Oj : forall x j, j mod 2 ^ 32 <> u32 id -> a_inst (upd id x a) (j mod 2 ^ 32) = a_inst a (j mod 2 ^ 32))
      by (intros x j Hj; unfold upd, put; cbn [a_inst]; apply Z.eqb_neq in Hj; rewrite Hj; reflexivity).
    destruct ok; cbn [negb].
    2: { eexists; eexists. split; [reflexivity|]. split; [apply Ob|]. split; [intros j Hj; apply Oj; exact Hj|].
         cbn [r_ret r_status]. split; [split; auto|]. split; [auto|]. split; [intros -> _; reflexivity|]. split; [lia | intros ->; reflexivity]. }
    destruct (d_reason o d') as [rs|] eqn:Q.
    2: { eexists; eexists. split; [reflexivity|]. split; [apply Ob|]. split; [intros j Hj; apply Oj; exact Hj|].
         cbn [r_ret r_status]. split; [split; auto|]. split; [auto|]. split; [intros -> _; reflexivity|]. split; [lia | intros ->; reflexivity]. }
    destruct rs; eexists; eexists; (split; [reflexivity|]); (split; [apply Ob|]); (split; [intros j Hj; apply Oj; exact Hj|]);
      cbn [r_ret r_status]; (split; [split; [lia | intros [X|X]; discriminate]|]); (split; [auto|]); (split; [lia|]);
      (split; [intros -> _ rs H; injection H as <-; reflexivity | intros ->; reflexivity]).
  Qed.
  (** For the other reasons halt returns 0 and leaves the status as it was. *)
  Theorem C51_unmapped_refuted : forall fuel id (a : agent) d d' rs, object a id = Some d ->
    d_halt o d = (true, d') -> d_reason o d' = Some rs -> (rs = HHwBreakpoint \/ exists n, rs = HOther n) ->
    exists a' r, do_call o fuel (Halt id true) a = Some (Ok (a', r)) /\ r_ret r = 0 /\ r_status r = None.
  Proof.
    intros fuel id a d d' rs F H1 H2 H3. cbn [do_call]. unfold find. unfold object in F. change (id mod 2 ^ 32) with (u32 id) in F.
    rewrite F. unfold halt_obj. rewrite H1. cbn [negb]. rewrite H2.
    destruct H3 as [-> | [n ->]]; eexists; eexists; (split; [reflexivity|]); split; reflexivity.
  Qed.

  (** *** C52: register information *)
  Theorem C52_reg_info_partial : forall fuel id i cap max (a : agent) d,
    object a id = Some d -> a_len a (id mod 2 ^ 32) = Some max -> 0 <= max -> max <= cap ->
    (forall x s, reg_name o x = Some s -> ~ In 0 s /\ Z.of_nat (length s) < max) -> 1 <= cap ->
    exists r, do_call o fuel (RegInfo id i cap true) a = Some (Ok (a, r)) /\
      (r_ret r = 0 <-> 0 <= i < 33) /\ (r_ret r = 0 \/ r_ret r = -1) /\
      (~ 0 <= i < 33 -> r_data r = [] /\ r_info r = None) /\
      (0 <= i < 33 ->
         exists x, x = (if i =? 0 then enum o DPc else enum o (DX (i - 1))) /\
           r_info r = Some (RI x 32 true (i =? 1)) /\
           match reg_name o x with
           | Some s => holds_string (r_data r) s max
           | None => r_data r = [0]
           end).
  Proof.
    intros fuel id i cap max a d F L H0 H1 HN HC. cbn [do_call negb]. unfold find. unfold object in F.
    change (id mod 2 ^ 32) with (u32 id) in F, L. rewrite F, L.
    destruct (Z_le_dec 0 i) as [I0|I0]; [destruct (Z_lt_dec i 33) as [I1|I1]|].
    2,3: rewrite RenodeProofs.register_info_range by lia; cbn [bind]; eexists; split; [reflexivity|];
      cbn [ret r_ret r_data r_info]; (split; [lia|]); (split; [auto|]); (split; [repeat split | lia]).
    rewrite RenodeProofs.register_info_ok by lia. cbv zeta. cbn [i_index].
    set (x := if i =? 0 then enum o DPc else enum o (DX (i - 1))).
    destruct (reg_name o x) as [s|] eqn:N.
    - destruct (HN _ _ N) as [Z0 Ls]. replace ((max <? 0) || (cap <? max)) with false by lia. cbn [bind].
      eexists. split; [reflexivity|]. cbn [r_ret r_data r_info]. split; [lia|]. split; [auto|]. split; [lia|].
      intros _. exists x. split; [reflexivity|]. split; [reflexivity|]. rewrite N. apply RenodeProofs.strncpy_holds; assumption.
    - replace (cap <? 1) with false by lia. cbn [bind].
      eexists. split; [reflexivity|]. cbn [r_ret r_data r_info]. split; [lia|]. split; [auto|]. split; [lia|].
      intros _. exists x. split; [reflexivity|]. split; [reflexivity|]. rewrite N. reflexivity.
  Qed.
  (** A name that does not fit with its terminator is stored without one. *)
  Theorem C52_terminator_refuted : forall fuel id i max (a : agent) d s,
    object a id = Some d -> a_len a (id mod 2 ^ 32) = Some max -> 0 <= i < 33 ->
    reg_name o (if i =? 0 then enum o DPc else enum o (DX (i - 1))) = Some s -> ~ In 0 s ->
    0 <= max <= Z.of_nat (length s) ->
    exists r, do_call o fuel (RegInfo id i max true) a = Some (Ok (a, r)) /\ r_ret r = 0 /\ ~ In 0 (r_data r).
  Proof.
    intros fuel id i max a d s F L Hi N Z0 Hm. cbn [do_call negb]. unfold find. unfold object in F.
    change (id mod 2 ^ 32) with (u32 id) in F, L. rewrite F, L, RenodeProofs.register_info_ok by lia. cbv zeta. cbn [i_index].
    rewrite N. replace ((max <? 0) || (max <? max)) with false by lia. cbn [bind].
    eexists. split; [reflexivity|]. split; [reflexivity|]. cbn [r_data]. apply RenodeProofs.strncpy_no_nul; assumption.
  Qed.
  (** A negative length writes past the end of any buffer. *)
  Theorem C52_negative_length_refuted : forall fuel id i cap max (a : agent) d s,
    object a id = Some d -> a_len a (id mod 2 ^ 32) = Some max -> 0 <= i < 33 ->
    reg_name o (if i =? 0 then enum o DPc else enum o (DX (i - 1))) = Some s -> max < 0 ->
    do_call o fuel (RegInfo id i cap true) a = Some (UB OutOfBounds).
  Proof.
    intros fuel id i cap max a d s F L Hi N Hm. cbn [do_call negb]. unfold find. unfold object in F.
    change (id mod 2 ^ 32) with (u32 id) in F, L. rewrite F, L, RenodeProofs.register_info_ok by lia. cbv zeta. cbn [i_index].
    rewrite N. replace ((max <? 0) || (cap <? max)) with true by lia. reflexivity.
  Qed.
  (** The length used is the one given to construct. *)
  Theorem C52_name_length : forall fuel ks max mem a rs a' r, run o fuel ks agent0 = Some (Ok (a, rs)) ->
    Z.of_nat (length (filter is_construct ks)) + 1 < 2 ^ 32 ->
    do_call o fuel (Construct max mem) a = Some (Ok (a', r)) ->
    forall ks' a'' rs', run o fuel ks' a' = Some (Ok (a'', rs')) ->
    a_len a'' (r_ret r mod 2 ^ 32) = Some max.
  Proof.
    intros fuel ks max mem a rs a' r E Hn C ks' a'' rs' E'.
    apply (RenodeProofs.len_run o fuel ks max mem a rs a' r E Hn C ks' a'' rs' E').
  Qed.
End C50.
Print Assumptions C50_step_partial.
Print Assumptions C50_terminates.
Print Assumptions C50_count_refuted.
Print Assumptions C51_halt_partial.
Print Assumptions C51_unmapped_refuted.
Print Assumptions C52_reg_info_partial.
Print Assumptions C52_terminator_refuted.
Print Assumptions C52_negative_length_refuted.
Print Assumptions C52_name_length.
(** 3 calls of the simulator for 5 * 10^9 instructions, stopping in the third:
    4.5 * 10^9 are executed, 205032704 reported; then nothing. *)
Lemma toy_contract n : step_contract (toy n).
Proof. intros c d e d' H Hc. cbn in H. injection H as <- _. lia. Qed.
Example C50_case :
  match run (toy 4500000000) 10 [Construct 8 None; Step 0 5000000000 true; Step 0 0 true] agent0 with
  | Some (Ok (_, rs)) => map (fun r => (r_ret r, r_status r)) rs = [(0, None); (205032704, Some (-1)); (0, Some 0)]
  | _ => False
  end /\
  match step_obj (toy 4500000000) 10 5000000000 (4500000000, HNone) with
  | Some (t, s, d, tr) => tr = [(2147483647, Some 2147483647); (2147483647, Some 2147483647); (705032706, Some 205032706)] /\ s = -1
  | None => False
  end.
Proof. vm_compute. repeat split. Qed.
(** A simulator that always runs on. *)
Definition endless : ops unit unit unit :=
  Ops _ _ _ (fun _ _ => Ok tt) (fun _ => Some HNone) (fun c d => (Some c, d)) (fun d => (true, d))
    (fun _ d => (None, d)) (fun _ _ d => (false, d)) (fun _ _ d => (None, d)) (fun _ _ d => (None, d))
    (fun _ _ d => (false, d)) (fun _ d => (None, d)) (fun _ => 0) (fun _ => None).
Example C50_count_case : step_contract endless /\ (forall c x, exists x', d_step endless c x = (Some c, x')) /\
  match run endless 10 [Construct 8 None; Step 0 (2 ^ 32 + 5) true] agent0 with
  | Some (Ok (_, rs)) => map (fun r => (r_ret r, r_status r)) rs = [(0, None); (5, Some 0)]
  | _ => False
  end.
Proof.
  split; [intros c d e d' H Hc; injection H as <- _; lia|]. split; [intros c x; exists x; reflexivity|].
  vm_compute. reflexivity.
Qed.
Example C51_case :
  match run (toy 4) 10 [Construct 8 None; Halt 0 true; Step 0 2 true; Halt 0 true; Halt 7 true] agent0 with
  | Some (Ok (_, rs)) => map (fun r => (r_ret r, r_status r)) rs =
      [(0, None); (0, Some 1); (2, Some 0); (0, None); (-1, None)]
  | _ => False
  end.
Proof. vm_compute. reflexivity. Qed.
Example C52_case :
  (forall x s, reg_name (toy 4) x = Some s -> ~ In 0 s /\ Z.of_nat (length s) < 4) /\
  match run (toy 4) 10 [Construct 4 None; RegInfo 0 0 4 true; RegInfo 0 6 4 true; RegInfo 0 33 4 true; RegInfo 0 1 4 true] agent0 with
  | Some (Ok (_, rs)) => map (fun r => (r_ret r, r_data r, r_info r)) rs =
      [(0, [], None); (0, [112; 99; 0; 0], Some (RI 0x7b1 32 true false)); (0, [120; 53; 0; 0], Some (RI 0x1005 32 true false));
       (-1, [], None); (0, [120; 48; 0; 0], Some (RI 0x1000 32 true true))]
  | _ => False
  end /\
  match run (toy 4) 10 [Construct 2 None; RegInfo 0 6 2 true] agent0 with
  | Some (Ok (_, rs)) => map r_data rs = [[]; [120; 53]]
  | _ => False
  end.
Proof.
  split; [|vm_compute; repeat split]. intros x s H. cbn [toy reg_name] in H.
  destruct (x =? 1969); [injection H as <-; split; [intros [X|[X|[]]]; discriminate | reflexivity]|].
  destruct (_ && _); [|discriminate]. assert (Hs : s = [120; 48 + x mod 16]) by congruence. rewrite Hs. split; [|reflexivity].
  pose proof (Z.mod_pos_bound x 16 ltac:(lia)) as B. intros [X|[X|[]]]; [discriminate | lia].
Qed.
