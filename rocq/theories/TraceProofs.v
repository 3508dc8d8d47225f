(** * Proofs about the instruction trace *)
From Coq Require Import ZArith List Bool String Lia.
From Verif Require Import CInt TopModel TopSpec TopProofs TopProofs2 TopProofs3 TraceModel TraceSpec.
From Coq Require Import ZifyBool ZifyNat.
Import ListNotations.
Open Scope Z_scope.

(** ** Wire format *)
Lemma get_varint n : forall v r, (0 < n)%nat -> 0 <= v < 128 ^ Z.of_nat n -> get_number (varint n v ++ r) = Some (v, r).
Proof.
  induction n as [|n IH]; intros v r Hn Hv; [lia|]. cbn [varint].
  destruct (v <? 128) eqn:E; cbn [app get_number]; [now rewrite E|].
  replace (128 + v mod 128 <? 128) with false by (pose proof (Z.mod_pos_bound v 128); lia).
  rewrite Nat2Z.inj_succ, Z.pow_succ_r in Hv by lia. destruct n as [|n].
  - change (128 ^ Z.of_nat 0) with 1 in Hv. lia.
  - rewrite IH; [|lia|].
    + do 2 f_equal. pose proof (Z.div_mod v 128). lia.
    + split; [apply Z.div_pos; lia|]. apply Z.div_lt_upper_bound; lia.
Qed.
Lemma get_put v r : 0 <= v < 2 ^ 64 -> get_number (put_varint v ++ r) = Some (v, r).
Proof. intros H. apply get_varint; [lia|]. change (128 ^ Z.of_nat 10) with (2 ^ 70). lia. Qed.
Lemma varint_some n v : (0 < n)%nat -> (0 < length (varint n v))%nat.
Proof. destruct n; [lia|]. cbn. destruct (v <? 128); cbn; lia. Qed.
Lemma put_some v : (0 < length (put_varint v))%nat.
Proof. apply varint_some. lia. Qed.
Lemma field_number k v r : 0 <= k < 16 -> 0 <= v < 2 ^ 64 -> get_field (8 * k :: put_varint v ++ r) = Some (k, Number v, r).
Proof.
  intros Hk Hv. unfold get_field. cbn [get_number]. replace (8 * k <? 128) with true by lia. rewrite get_put by exact Hv.
  rewrite Z.mul_comm, Z.mod_mul by lia. cbn [Z.eqb]. now rewrite Z.div_mul by lia.
Qed.
Lemma field_bytes k b r : 0 <= k < 15 -> Z.of_nat (length b) < 2 ^ 64 ->
  get_field (8 * k + 2 :: put_varint (Z.of_nat (length b)) ++ b ++ r) = Some (k, Bytes b, r).
Proof.
  intros Hk Hv. unfold get_field. cbn [get_number]. replace (8 * k + 2 <? 128) with true by lia. rewrite get_put by lia.
  replace ((8 * k + 2) mod 8) with 2 by (rewrite Z.add_comm, Z.mul_comm, Z.mod_add by lia; reflexivity).
  cbn [Z.eqb Pos.eqb andb]. rewrite app_length. replace (Z.of_nat (length b) <=? _) with true by lia.
  rewrite Nat2Z.id, firstn_app, firstn_all, Nat.sub_diag, skipn_app, skipn_all, Nat.sub_diag. cbn [firstn skipn app]. rewrite app_nil_r.
  replace ((8 * k + 2) / 8) with k by (rewrite Z.add_comm, Z.mul_comm, Z.div_add by lia; reflexivity). reflexivity.
Qed.
Lemma more_fields l : forall n m, (length l <= n)%nat -> (n <= m)%nat -> get_fields n l = get_fields m l \/ get_fields n l = None.
Proof.
  intros n. revert l. induction n as [|n IH]; intros l m Hl Hm.
  - destruct l; [|cbn in Hl; lia]. left. destruct m; reflexivity.
  - destruct l as [|b l]; [left; destruct m; reflexivity|]. destruct m as [|m]; [lia|]. cbn [get_fields].
    destruct (get_field (b :: l)) as [[[k v] r]|] eqn:E; [|now left].
    assert (R : (length r <= length l)%nat).
    { clear - E. unfold get_field in E.
      assert (G : forall q v r, get_number q = Some (v, r) -> (length r < length q)%nat).
      { induction q as [|c q IH]; cbn [get_number]; intros v' r' H; [discriminate|]. destruct (c <? 128); [injection H as _ <-; cbn; lia|].
        destruct (get_number q) as [[v2 r2]|]; [|discriminate]. injection H as _ <-. specialize (IH _ _ eq_refl). cbn. lia. }
      destruct (get_number (b :: l)) as [[t r1]|] eqn:E1; [|discriminate]. apply G in E1.
      destruct (get_number r1) as [[v2 r2]|] eqn:E2; [|discriminate]. apply G in E2. cbn [Datatypes.length] in E1.
      destruct (t mod 8 =? 0); [injection E as _ _ <-; lia|]. destruct (_ && _); [|discriminate]. injection E as _ _ <-.
      rewrite skipn_length. lia. }
    cbn [Datatypes.length] in Hl.
    destruct (IH r m) as [-> | ->]; [lia|lia|now left|now right].
Qed.
(** Reading a field, then the rest. *)
Lemma fields_cons c l k v r t : get_field (c :: l) = Some (k, v, r) -> (length r <= length l)%nat ->
  fields r = Some t -> fields (c :: l) = Some ((k, v) :: t).
Proof.
  intros E H F. unfold fields in *. cbn [Datatypes.length get_fields]. rewrite E.
  destruct (more_fields r (length r) (length l)) as [X|X]; [lia|exact H| |]; rewrite F in X; [now rewrite <- X|discriminate].
Qed.
Lemma read_put_entry e : 0 <= te_address e < 2 ^ 64 -> 0 <= te_opcode e < 2 ^ 64 -> Z.of_nat (length (put_entry e)) < 2 ^ 64 ->
  read_entry (put_entry e) = Some e.
Proof.
  intros Ha Hw HL. unfold read_entry. destruct e as [a w [t|]]; cbn [te_address te_opcode te_disasm put_entry] in *.
  - assert (F : fields (8 :: put_varint a ++ 16 :: put_varint w ++ 26 :: put_varint (Z.of_nat (length t)) ++ t) =
               Some [(1, Number a); (2, Number w); (3, Bytes t)]).
    { unfold put_entry in HL. cbn [te_address te_opcode te_disasm] in HL.
      eapply fields_cons; [exact (field_number 1 a _ ltac:(lia) Ha)|rewrite !app_length; lia|].
      eapply fields_cons; [exact (field_number 2 w _ ltac:(lia) Hw)|rewrite !app_length; lia|].
      eapply fields_cons; [|shelve|].
      - rewrite <- (app_nil_r t) at 2. apply (field_bytes 3 t [] ltac:(lia)).
        clear - HL. cbn [Datatypes.length] in HL. rewrite app_length in HL. cbn [Datatypes.length] in HL. rewrite app_length in HL.
        cbn [Datatypes.length] in HL. rewrite app_length in HL. lia.
      - reflexivity.
      Unshelve. cbn [Datatypes.length]. lia. }
    unfold put_entry. cbn [te_address te_opcode te_disasm]. now rewrite F.
  - assert (F : fields (8 :: put_varint a ++ 16 :: put_varint w ++ []) = Some [(1, Number a); (2, Number w)]).
    { eapply fields_cons; [exact (field_number 1 a _ ltac:(lia) Ha)|rewrite !app_length; lia|].
      eapply fields_cons; [exact (field_number 2 w _ ltac:(lia) Hw)|rewrite !app_length; cbn [Datatypes.length]; lia|]. reflexivity. }
    unfold put_entry. cbn [te_address te_opcode te_disasm]. now rewrite F.
Qed.
Definition in32 (e : tentry) : Prop := 0 <= te_address e < 2 ^ 32 /\ 0 <= te_opcode e < 2 ^ 32.
Lemma read_put_data l : Forall in32 l -> Z.of_nat (length (put_data l)) < 2 ^ 64 -> read_trace (put_data l) = Some l.
Proof.
  intros HF HL. unfold read_trace.
  assert (F : fields (put_data l) = Some (map (fun e => (1, Bytes (put_entry e))) l)).
  { revert HL. clear HF. induction l as [|e l IH]; intros HL; [reflexivity|]. unfold put_data in *. cbn [flat_map map] in *.
    set (rest := flat_map _ l) in *. rewrite <- !app_comm_cons, <- app_assoc in *.
    cbn [Datatypes.length] in HL. rewrite !app_length in HL.
    eapply fields_cons; [apply (field_bytes 1 (put_entry e) rest); lia|rewrite !app_length; lia|]. apply IH. lia. }
  rewrite F. clear F. revert HL. induction HF as [|e l [H1 H2] HF IH]; intros HL; [reflexivity|]. cbn [map read_entries].
  unfold put_data in HL. cbn [flat_map] in HL. rewrite <- app_comm_cons in HL. cbn [Datatypes.length] in HL. rewrite !app_length in HL.
  fold (put_data l) in HL. rewrite read_put_entry by lia. rewrite IH by lia. reflexivity.
Qed.
Lemma read_serialize l : Forall in32 l ->
  (Z.of_nat (length (put_data l)) <= int_max -> read_trace (serialize l) = Some l) /\
  (int_max < Z.of_nat (length (put_data l)) -> serialize l = []).
Proof.
  intros HF. unfold serialize. cbv zeta. split; intros H.
  - replace (int_max <? _) with false by lia. apply read_put_data; [exact HF|]. unfold int_max in H. lia.
  - now replace (int_max <? _) with true by lia.
Qed.

(** ** Files *)
Lemma same_iff p : forall q, same p q = true <-> p = q.
Proof.
  induction p as [|a p IH]; intros [|b q]; cbn; split; intros H; try discriminate; try reflexivity.
  - apply andb_true_iff in H as [H1 H2]. apply IH in H2. f_equal; [lia|exact H2].
  - injection H as <- <-. rewrite Z.eqb_refl. now apply IH.
Qed.
Lemma put_at p n f : put_node p n f p = Some n.
Proof. unfold put_node. now rewrite (proj2 (same_iff p p) eq_refl). Qed.
Lemma put_else p n f q : q <> p -> put_node p n f q = f q.
Proof. intros H. unfold put_node. destruct (same q p) eqn:E; [apply same_iff in E; contradiction|reflexivity]. Qed.
Lemma before_none p : before_slash p = None <-> ~ In slash p.
Proof.
  induction p as [|c r IH]; [cbn; split; [intros _ []|reflexivity]|]. cbn [before_slash In]. destruct (before_slash r).
  - split; [discriminate|]. intros H. exfalso. apply H. right. destruct (In_dec Z.eq_dec slash r) as [I|I]; [exact I|].
    apply IH in I. discriminate.
  - destruct (Z.eqb_spec c slash) as [-> |N]; split; try discriminate; try (intros H; exfalso; apply H; now left).
    + intros _ [H|H]; [now apply N|]. now apply (proj1 IH eq_refl).
    + reflexivity.
Qed.
Lemma before_some d n : ~ In slash n -> before_slash (d ++ slash :: n) = Some d.
Proof.
  intros H. induction d as [|c d IH]; cbn [app before_slash].
  - apply before_none in H. now rewrite H.
  - now rewrite IH.
Qed.
Lemma before_split p d : before_slash p = Some d -> exists n, p = d ++ slash :: n /\ ~ In slash n.
Proof.
  revert d. induction p as [|c r IH]; cbn [before_slash]; intros d H; [discriminate|].
  destruct (before_slash r) as [q|] eqn:E.
  - injection H as <-. destruct (IH q eq_refl) as (n & -> & Hn). now exists n.
  - destruct (Z.eqb_spec c slash) as [-> |]; [|discriminate]. injection H as <-. exists r. split; [reflexivity|]. now apply before_none.
Qed.
Lemma parent_iff f p : parent_ok p f = true <-> in_dir f p.
Proof.
  unfold parent_ok, in_dir. destruct (before_slash p) as [d|] eqn:E.
  - destruct (before_split _ _ E) as (n & -> & Hn).
    assert (I : In slash (d ++ slash :: n)) by (apply in_or_app; right; now left).
    destruct d as [|c d].
    + split; [|reflexivity]. intros _. right. exists [], n. auto.
    + split.
      * intros H. right. exists (c :: d), n. split; [reflexivity|]. split; [exact Hn|]. right. destruct (f (c :: d)) as [[|]|]; (reflexivity || discriminate).
      * intros [H|(d' & n' & EQ & Hn' & H)]; [contradiction|].
        pose proof (before_some d' n' Hn') as B. rewrite <- EQ, E in B. injection B as <-. destruct H as [H|H]; [discriminate|]. now rewrite H.
  - split; [|reflexivity]. intros _. left. now apply before_none.
Qed.
Lemma last_app_slash d n : n <> [] -> ~ In slash n -> (last (d ++ slash :: n) 0 =? slash) = false.
Proof.
  intros H I. destruct (exists_last H) as (k & c & ->). replace (d ++ slash :: k ++ [c]) with ((d ++ slash :: k) ++ [c]) by now rewrite <- app_assoc.
  rewrite last_last. apply Z.eqb_neq. intros ->. apply I. apply in_or_app. right. now left.
Qed.
Lemma app_neq {A} (d n : list A) c : d ++ c :: n <> d.
Proof. intros H. apply (f_equal (@List.length A)) in H. rewrite app_length in H. cbn in H. lia. Qed.
Lemma open_trace_ok fl w b w' : open_trace fl w = (b, w') ->
  (b = true <-> fl_trace fl = true /\ usable (w_fs w) (fl_path fl)) /\
  (forall q, q <> fl_path fl -> w_fs w q <> None -> w_fs w' q = w_fs w q) /\
  (b = false -> forall q, w_fs w q <> None -> w_fs w' q = w_fs w q) /\
  (b = true -> w_said w' = w_said w ++ [SDump (fl_path fl)]) /\
  (fl_trace fl = false -> w' = w).
Proof.
  unfold open_trace. destruct (fl_trace fl) eqn:ET; [|intros H; injection H as <- <-; split; [split; [discriminate|intros [X _]; discriminate]|]; split; [reflexivity|]; split; [reflexivity|]; split; [discriminate|reflexivity]].
  set (p := fl_path fl). set (f := w_fs w). intros H.
  assert (Q : forall r g, mkdir (trace_dir p) f = (r, g) -> forall q, f q <> None -> g q = f q).
  { intros r g E q Hq. unfold mkdir in E. destruct (trace_dir p) as [|c t]; [injection E as _ <-; reflexivity|].
    destruct (f (c :: t)) eqn:F; [injection E as _ <-; reflexivity|]. destruct (parent_ok (c :: t) f); injection E as _ <-; [|reflexivity].
    apply put_else. intros ->. contradiction. }
  (* when the file is opened *)
  assert (U : usable f p -> b = true).
  { intros [(N & NS & l & F)|(d & n & EP & Hn & Nn & Nd & ND & HD)].
    - unfold trace_dir in H. rewrite (proj2 (before_none p) NS) in H. unfold mkdir in H. destruct p as [|c p']; [contradiction|].
      rewrite F in H. unfold open_out in H. rewrite F in H.
      replace (parent_ok (c :: p') f) with true in H by (symmetry; apply parent_iff; now left).
      replace (last (c :: p') 0 =? slash) with false in H.
      + now injection H as <- _.
      + symmetry. apply Z.eqb_neq. intros X. apply NS. rewrite <- X. destruct (exists_last (l := c :: p')) as (k & y & ->); [discriminate|].
        rewrite last_last. apply in_or_app. right. now left.
    - unfold trace_dir in H. rewrite EP, before_some in H by exact Hn. 
      assert (M : exists r g, mkdir d f = (r, g) /\ r <> Failed /\ g d = Some Dir /\ g p = f p).
      { unfold mkdir. destruct d as [|c d]; [contradiction|]. destruct HD as [HD|[HD HI]]; rewrite HD.
        - exists Exists, f. spl; (reflexivity || discriminate || assumption).
        - apply parent_iff in HI. rewrite HI. exists Made, (put_node (c :: d) Dir f). split; [reflexivity|]. split; [discriminate|].
          split; [apply put_at|]. apply put_else. rewrite EP. apply app_neq. }
      destruct M as (r & g & EM & NF & GD & GP). rewrite EM in H.
      assert (O : exists g', open_out p g = Some g').
      { unfold open_out. rewrite GP. destruct p as [|c0 p0] eqn:Ep; [now apply app_cons_not_nil in EP|]. rewrite <- Ep in *.
        assert (PO : parent_ok p g = true). { apply parent_iff. right. exists d, n. spl; auto. } rewrite PO.
        rewrite EP, last_app_slash by assumption. cbn [orb negb]. rewrite <- EP. destruct (f p) as [[|]|]; [contradiction|eexists; reflexivity..]. }
      destruct O as [g' O]. rewrite <- EP, O in H. destruct r; [now injection H as <- _|now injection H as <- _|contradiction]. }
  assert (U' : b = true -> usable f p).
  { intros ->. destruct (mkdir (trace_dir p) f) as [r g] eqn:EM. destruct (open_out p g) as [g'|] eqn:EO; [|destruct r; discriminate].
    assert (NF : r <> Failed) by (intros ->; discriminate). clear H U Q.
    unfold open_out in EO. destruct p as [|c p'] eqn:Ep; [discriminate|]. rewrite <- Ep in *. 
    assert (GD : g p <> Some Dir) by (intros X; rewrite X in EO; discriminate).
    assert (EO' : (last p 0 =? slash) || negb (parent_ok p g) = false).
    { destruct (g p) as [[|]|]; [contradiction|destruct (_ || _); [discriminate|reflexivity]..]. }
    apply orb_false_iff in EO' as [L PO]. apply negb_false_iff in PO.
    unfold trace_dir in EM. destruct (before_slash p) as [d|] eqn:EB.
    - destruct (before_split _ _ EB) as (n & EP & Hn). right. exists d, n. split; [exact EP|]. split; [exact Hn|].
      assert (Nn : n <> []). { intros ->. rewrite EP, last_last in L. now rewrite Z.eqb_refl in L. }
      split; [exact Nn|]. unfold parent_ok in PO. rewrite EB in PO. unfold mkdir in EM. destruct d as [|c0 d]; [injection EM as <- _; contradiction|].
      split; [discriminate|]. destruct (f (c0 :: d)) as [nd|] eqn:FD.
      + injection EM as <- <-. split; [exact GD|]. rewrite FD in PO. destruct nd; [now left|discriminate].
      + destruct (parent_ok (c0 :: d) f) eqn:PP; injection EM as <- <-; [|contradiction].
        rewrite put_else in GD by (rewrite EP; apply app_neq). split; [exact GD|]. right. split; [reflexivity|]. now apply parent_iff.
    - left. apply before_none in EB. split; [rewrite Ep; discriminate|]. split; [exact EB|].
      unfold mkdir in EM. rewrite Ep in EM. rewrite <- Ep in EM. destruct (f p) as [nd|] eqn:FP.
      + injection EM as <- <-. rewrite FP in GD. destruct nd as [|l]; [contradiction|]. now exists l.
      + destruct (parent_ok p f); injection EM as <- <-; [|contradiction]. rewrite put_at in GD. contradiction. }
  split; [split; [intros B; split; [reflexivity|now apply U']|intros [_ B]; now apply U]|]. clear U U'.
  destruct (mkdir (trace_dir p) f) as [r g] eqn:EM. specialize (Q r g eq_refl).
  assert (G : (b = true /\ (exists g', open_out p g = Some g' /\ w' = say (SDump p) g' w)) \/
              (b = false /\ exists m, w' = say m g w)).
  { destruct r; [destruct (open_out p g) as [g'|]; injection H as <- <-; [left; split; [reflexivity|now exists g']|right; split; [reflexivity|now exists (SDump p)]]..|].
    injection H as <- <-. right. split; [reflexivity|]. now exists (SFailed (trace_dir p)). }
  destruct G as [(-> & g' & EO & ->)|(-> & m & ->)]; cbn [say w_fs w_said].
  - split; [|split; [discriminate|split; [reflexivity|discriminate]]]. intros q Hq Hf. rewrite <- (Q q Hf).
    unfold open_out in EO. destruct p; [discriminate|].
    destruct (g _) as [[|]|]; try discriminate; (destruct (_ || _); [discriminate|]; injection EO as <-; now apply put_else).
  - split; [intros q _; apply Q|]. split; [intros _; apply Q|]. split; discriminate.
Qed.

(** ** The loop *)
Section P.
  Context {C : Type}.
  Notation arch := (arch (C := C)).
  Notation top := (top (C := C)).
  Notation mach := (mach (C := C)).
  Variable exec : Z -> Z -> arch -> (Z -> Z) -> effect (C := C).
  Variable evicted : Z -> Z -> bool.
  Variable disasm : Z -> Z -> list Z.
  Notation traced_loop := (traced_loop exec evicted disasm).
  Notation traced_iteration := (traced_iteration exec evicted disasm).

  Lemma traced_iteration_same fl np (s : top) : snd (traced_iteration fl np s) = iteration exec evicted false np s.
  Proof. unfold TraceModel.traced_iteration, iteration. destruct (fetch evicted np s) as [w s1]. reflexivity. Qed.
  Lemma traced_loop_same fuel : forall fl pc np (s : top),
    option_map snd (traced_loop fuel fl pc np s) = run_loop exec evicted fuel pc np s.
  Proof.
    induction fuel as [|f IH]; intros fl pc np s; cbn [TraceModel.traced_loop run_loop]; destruct (negb (t_halted s)); try reflexivity.
    rewrite <- (traced_iteration_same fl np s). destruct (traced_iteration fl np s) as [e [[go n1] s1]]. cbn [snd].
    destruct go; [|reflexivity]. rewrite <- (IH fl). destruct (traced_loop f fl (Some np) n1 s1) as [[l x]|]; reflexivity.
  Qed.
  Lemma run_traced_same fuel fl w (s : top) :
    option_map fst (run_traced exec evicted disasm fuel fl w s) = run exec evicted fuel s.
  Proof.
    unfold run_traced, run. destruct (is_running (t_status s)); [reflexivity|].
    destruct (open_trace fl w) as [b w1]. cbv zeta. rewrite <- (traced_loop_same fuel fl).
    destruct (traced_loop _ _ _ _ _) as [[l [[pc np] s2]]|]; reflexivity.
  Qed.

  Variable code : Z -> Prop.
  Variable m0 : mach.
  Hypothesis bytes0 : bytes_ok (m_mem m0).
  Notation clean := (clean exec code).
  Notation ref := (ref exec).
  Notation K := (K code m0).
  Notation entry_of := (entry_of disasm).
  Notation entries_of := (entries_of exec disasm).
  Notation ebreak_entry := (ebreak_entry disasm).

  Lemma entry_bp fl m s : K m s -> In (m_pc m) (t_bps s) ->
    fst (traced_iteration fl (m_pc m) s) = ebreak_entry (fl_disasm fl) m.
  Proof.
    intros HK Hin. unfold TraceModel.traced_iteration. set (a := m_pc m) in *.
    destruct (bp_al _ _ _ _ _ HK Hin) as [Aa Wa].
    destruct (fetch_ok evicted code m0 _ _ _ a (k_J _ _ _ _ HK) Aa Wa) as (s2 & E2 & J2 & C2 & M2 & N2). rewrite E2.
    destruct (load_planted exec evicted code m0 _ _ _ a (k_J _ _ _ _ HK) Aa Wa) as [L _]. rewrite (L Hin). cbn [fst].
    unfold ebreak_entry. fold a. rewrite Z.mod_small by apply (k_range _ _ _ _ HK). f_equal.
    unfold execute. rewrite Z.eqb_refl. destruct (has_bp a _); cbn; rewrite N2; exact (L Hin).
  Qed.
  Lemma entry_step fl m s : K m s -> clean m -> ~ In (m_pc m) (t_bps s) ->
    fst (traced_iteration fl (m_pc m) s) = entry_of (fl_disasm fl) m.
  Proof.
    intros HK HC Hin. unfold TraceModel.traced_iteration. set (a := m_pc m) in *.
    assert (Aa : al a) by (split; [apply (k_range _ _ _ _ HK)|apply HC]).
    assert (W : word_in_code code a) by apply HC.
    destruct (fetch_ok evicted code m0 _ _ _ a (k_J _ _ _ _ HK) Aa W) as (s2 & E2 & J2 & C2 & M2 & N2). rewrite E2.
    destruct (load_planted exec evicted code m0 _ _ _ a (k_J _ _ _ _ HK) Aa W) as [_ L].
    assert (EW : load32 (t_mem s) a = word_at m) by (apply L; exact Hin). rewrite EW. cbn [fst].
    destruct C2 as (d1 & d2 & d3 & d4 & d5 & d6 & d7).
    assert (HB : has_bp (m_pc m) s2 = false) by (apply has_bp_no; now rewrite d6).
    destruct (execute_ok exec evicted code m0 _ _ _ J2 HC (or_introl HB)) as (J3 & _). fold a in J3. cbv zeta in J3.
    destruct (load_planted exec evicted code m0 _ _ _ a J3 Aa W) as [_ L3]. unfold entry_of. fold a. rewrite Z.mod_small by apply (k_range _ _ _ _ HK).
    f_equal. rewrite L3 by exact Hin. unfold word_at. fold a. apply load32_ext. intros i Hi.
    rewrite (j_code _ _ _ _ _ J3), (j_code _ _ _ _ _ (k_J _ _ _ _ HK)) by (apply W; exact Hi). reflexivity.
  Qed.
  Lemma entry_in32 b m s : K m s -> clean m -> in32 (entry_of b m).
  Proof.
    intros HK HC. split; [exact (k_range _ _ _ _ HK)|].
    destruct (wic_bytes exec evicted code m0 bytes0 (m_mem m) (m_pc m)) as [B _]; [apply HC|apply (j_code _ _ _ _ _ (k_J _ _ _ _ HK))|].
    pose proof (B 0 ltac:(lia)) as B0. pose proof (B 1 ltac:(lia)). pose proof (B 2 ltac:(lia)). pose proof (B 3 ltac:(lia)).
    rewrite Z.add_0_r in B0. cbn [te_opcode TraceSpec.entry_of]. unfold word_at, load32.
    change (2 ^ 8) with 256. change (2 ^ 16) with 65536. change (2 ^ 24) with 16777216. change (2 ^ 32) with 4294967296. lia.
  Qed.
  Lemma entries_shift b m n : entry_of b m :: entries_of b (ref_step exec m) 0 n = entries_of b m 0 (S n).
  Proof.
    unfold TraceSpec.entries_of. cbn [seq map TopSpec.ref]. f_equal. rewrite <- seq_shift, map_map. apply map_ext. intros i.
    now rewrite ref_shift.
  Qed.
  Lemma traced_loop_ok fuel : forall fl m (s : top) pc l p' np' s',
    traced_loop fuel fl pc (m_pc m) s = Some (l, (p', np', s')) ->
    K m s -> t_halted s = false -> t_need s = false ->
    (forall i, Z.of_nat i < t_insts s' - t_insts s -> clean (ref i m)) ->
    Forall in32 l /\
    exists j, (stop_bp exec code m0 m j s p' s' /\ l = entries_of (fl_disasm fl) m 0 j ++ [ebreak_entry (fl_disasm fl) (ref j m)]) \/
              (stop_halt exec code m0 m j s np' s' /\ l = entries_of (fl_disasm fl) m 0 (S j)).
  Proof.
    induction fuel as [|f IH]; intros fl m s pc l p' np' s' HR HK Hh Hn HC; cbn [TraceModel.traced_loop] in HR; rewrite Hh in HR; cbn [negb] in HR; [discriminate|].
    pose proof (iteration_insts exec evicted false (m_pc m) s) as G.
    pose proof (traced_iteration_same fl (m_pc m) s) as TS.
    assert (GO : forall go n1 s1 e, traced_iteration fl (m_pc m) s = (e, (go, n1, s1)) -> t_insts s1 <= t_insts s').
    { intros go n1 s1 e E. rewrite E in HR. destruct go.
      - destruct (traced_loop f fl (Some (m_pc m)) n1 s1) as [[l1 x]|] eqn:E1; [|discriminate]. injection HR as _ ->.
        pose proof (traced_loop_same f fl (Some (m_pc m)) n1 s1) as T1. rewrite E1 in T1. cbn [option_map snd] in T1.
        symmetry in T1. apply run_loop_insts in T1. lia.
      - injection HR as _ _ _ <-. lia. }
    destruct (bp_dec s (m_pc m)) as [Hb|Hb].
    - pose proof (iteration_bp exec evicted code m0 false m s HK Hb) as I.
      pose proof (entry_bp fl m s HK Hb) as EN.
      destruct (traced_iteration fl (m_pc m) s) as [e [[go n1] s1]]. cbn [snd fst] in *. rewrite <- TS in I, G. cbn [snd] in G.
      specialize (GO _ _ _ _ eq_refl).
      destruct I as (-> & K1 & B & S & R & N & H & T). injection HR as <- <- <- <-.
      split; [constructor; [|constructor]; rewrite EN; split; [exact (k_range _ _ _ _ HK)|cbn; unfold ebreak; lia]|].
      exists 0%nat. left. split; [|cbn; now rewrite EN].
      unfold stop_bp. cbn [TopSpec.ref]. spl; first [assumption|reflexivity|intros; lia].
    - pose proof (fun c => iteration_step exec evicted code m0 false m s HK c Hb Hh) as I.
      pose proof (fun c => entry_step fl m s HK c Hb) as EN.
      destruct (traced_iteration fl (m_pc m) s) as [e [[go n1] s1]]. cbn [snd fst] in *. rewrite <- TS in I, G. cbn [snd] in G.
      specialize (GO _ _ _ _ eq_refl).
      assert (C0 : clean m) by (apply (HC 0%nat); lia). specialize (EN C0). subst e.
      destruct (I C0) as (K1 & -> & B & S & N & T & H & Hgo). unfold halt_effect in H.
      destruct (ref_halt exec m) as [r|] eqn:Er; subst go.
      + injection HR as <- <- <- <-. destruct H as (h1 & h2 & h3 & h4).
        split; [constructor; [now apply (entry_in32 _ _ s)|constructor]|]. exists 0%nat. right. split; [|reflexivity].
        unfold stop_halt. cbn [TopSpec.ref]. spl; try assumption; try (intros; lia); try congruence.
      + destruct H as (h1 & h2). rewrite (k_pc _ _ _ _ K1) in HR.
        destruct (traced_loop f fl (Some (m_pc m)) (m_pc (ref_step exec m)) s1) as [[l1 x]|] eqn:E1; [|discriminate].
        injection HR as <- ->.
        destruct (IH fl (ref_step exec m) s1 _ _ _ _ _ E1 K1) as [F32 [j Hj]]; [congruence|congruence| |].
        { intros i Hi. rewrite ref_shift. apply HC. lia. }
        split; [constructor; [now apply (entry_in32 _ _ s)|exact F32]|].
        exists (Datatypes.S j). destruct Hj as [[Hj ->]|[Hj ->]]; [left|right].
        * split; [|rewrite app_comm_cons, entries_shift, ref_shift; reflexivity].
          destruct Hj as (Q & b1 & b2 & b3 & b4 & b5 & b6 & b7 & b8 & b9). rewrite ref_shift in *. rewrite B in *.
          split; [now apply quiet_shift|]. spl; try assumption; try congruence; try lia.
        * split; [|now rewrite entries_shift].
          destruct Hj as (Q & b1 & b2 & b3 & b4 & b5 & b6 & b7 & b8 & b9 & b10). rewrite !ref_shift in *. rewrite B in *.
          split; [now apply quiet_shift|]. spl; try assumption; try congruence; try lia.
  Qed.
End P.
