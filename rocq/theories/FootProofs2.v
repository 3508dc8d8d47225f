(** * The memory an instruction of the V1 core touches: the whole core *)
From Coq Require Import ZArith List Bool Lia String.
From Coq Require Import ZifyBool ZifyNat.
From Verif Require Import CInt VecModel VecSpec LaneSpec ConvModel ConvSpec MemModel MemSpec LogModel LogSpec.
From Verif Require Import DecodeTypes DecodeTable DecodeModel DecodeSpec V2DecTypes V2DecModel V2DecSpec V1ScalModel V1ScalSpec.
From Verif Require Import VecProofs VecFrame MemProofs DecodeProofs DecodeProofs3 DecodeProofs4 V1ScalProofs TopModel RvSpec MachModel MachSpec MachProofs MachProofs2 MachProofs5 MachProofs6 FootSpec FootProofs.
From Verif Require TopSpec MachInvProofs.
Import ListNotations.
Open Scope string_scope.
Open Scope list_scope.
Open Scope Z_scope.

(** ** Rows of the scalar accesses *)
Definition foot_row (e : entry) : bool :=
  match e_sem e with
  | SmScalar _ =>
      match kind_of_sem (sem1 e), e_src e with
      | KLoad T, [b; o] => match lookup (e_name e) load_specs with Some T' => ity_eqb T T' | None => false end && kind1 b (V2DecSpec.KX 15) && kind1 o Iimm
      | KStore T, [b; o; _] => match lookup (e_name e) store_specs with Some T' => ity_eqb T T' | None => false end && kind1 b (V2DecSpec.KX 15) && kind1 o Simm
      | KLog, [b] => kind1 b (V2DecSpec.KX 15) && (existsb (String.eqb (e_name e)) ["flog"; "klog"] ||
                     ((bound (Act (sem1 e) [] [] None) =? 1) || (bound (Act (sem1 e) [] [] None) =? 2)))
      | KLoad _, _ | KStore _, _ | KLog, _ => false
      | _, _ => true
      end
  | _ => true
  end.
Lemma foot_rows : forallb foot_row all_entries = true.
Proof. vm_compute. reflexivity. Qed.
Lemma ity_eqb_eq T T' : ity_eqb T T' = true -> T = T'.
Proof. destruct T, T'; (reflexivity || discriminate). Qed.
Lemma rs1_value e w x o : kind1 o (V2DecSpec.KX 15) = true -> value1 x (src1 e w o) = reg_at x w 15.
Proof. intros H. apply (kind1_sound e w) in H. exact (value_ok (V2DecSpec.KX 15) w x _ _ (or_introl eq_refl) eq_refl H). Qed.
Lemma imm_value e w x o k : (k = Iimm \/ k = Simm) -> kind1 o k = true -> exists i, value1 x (src1 e w o) = i /\ value k w x i.
Proof.
  intros Hk H. apply (kind1_sound e w) in H. destruct Hk as [->| ->]; destruct H as (v & -> & H); exists v; (split; [reflexivity|]); cbn [value operand_is Iimm Simm]; exists v; (split; [reflexivity|exact H]).
Qed.

Section Foot.
  Context {S : Type}.
  Notation arch := (arch (C := core S)).
  Notation effect := (effect (C := core S)).
  Variable d : decoder.
  Variable zbb : Z -> option act.
  Variable sys : act -> Z -> arch -> (Z -> Z) -> arch * (Z -> Z) * Z * option Z.
  Variable junk : Z -> Z -> vbytes.
  Variable ljunk : Z -> Z.
  Notation exec := (exec1 d zbb sys junk ljunk).

  (** The same but for memory, where each cell is the same or left alone by both. *)
  Definition agree (m m' : Z -> Z) (f f' : effect) : Prop :=
    f_arch f' = f_arch f /\ f_pc f' = f_pc f /\ f_halt f' = f_halt f /\
    forall x, f_mem f' x = f_mem f x \/ (f_mem f' x = m' x /\ f_mem f x = m x).
  Lemma agree_same m m' (f f' : effect) : f_arch f' = f_arch f -> f_pc f' = f_pc f -> f_halt f' = f_halt f -> f_mem f = m -> f_mem f' = m' -> agree m m' f f'.
  Proof. intros A B C D E. split; [exact A|]. split; [exact B|]. split; [exact C|]. intros x. right. now rewrite D, E. Qed.

  Definition load_range (c : act) (s : arch) (x : Z) : Prop :=
    match act_kind c, a_src c with
    | KLoad T, [b; o] => let a := u32 (u32 (value1 (a_regs s) b) + u32 (value1 (a_regs s) o)) in a <= x < a + sizeof T
    | _, _ => False
    end.
  Definition text_range (c : act) (s : arch) (m : Z -> Z) (x : Z) : Prop :=
    match act_kind c, a_src c with
    | KLog, [b] => (bound c = 0 \/ bound c = 3) /\ text_byte m (u32 (value1 (a_regs s) b)) x
    | _, _ => False
    end.
  Definition store_range (c : act) (s : arch) (x : Z) : Prop :=
    match act_kind c, a_src c with
    | KStore T, [b; o; _] => let a := MachModel.store_addr (value1 (a_regs s) b) (value1 (a_regs s) o) in a <= x < a + sizeof T
    | _, _ => False
    end.
  Lemma scalar_agree c a s m m' : sys_quiet sys -> (act_kind c = KLog -> bound c = 0 \/ bound c = 3 -> forall x, 0 <= m x < 256) ->
    (forall x, load_range c s x \/ text_range c s m x -> m' x = m x) ->
    agree m m' (exec_scalar sys ljunk c a s m) (exec_scalar sys ljunk c a s m').
  Proof.
    intros Hs Hm H. unfold load_range, text_range in H. unfold exec_scalar. destruct (act_kind c) eqn:K.
    all: try (destruct (a_src c) as [|p [|q [|o [|]]]]; try (apply agree_same; reflexivity); destruct (a_dst c) as [|r [|r' [|]]]; apply agree_same; reflexivity).
    - destruct (a_src c) as [|p [|q [|o l]]]; try (apply agree_same; reflexivity). destruct (a_dst c) as [|r l]; [|apply agree_same; reflexivity].
      destruct (max_address <? _) eqn:F; [apply agree_same; reflexivity|]. destruct (a_child c) as [[? [|r [|]]]|]; try (apply agree_same; reflexivity).
      rewrite (mem_get_ext T m m') by (intros x Hx; apply H; left; exact Hx). apply agree_same; reflexivity.
    - destruct (a_src c) as [|p [|q [|o [|]]]]; try (apply agree_same; reflexivity). destruct (a_dst c) as [|r l]; [|apply agree_same; reflexivity].
      destruct (max_address <? _) eqn:F; [apply agree_same; reflexivity|]. split; [reflexivity|]. split; [reflexivity|]. split; [reflexivity|]. cbn [normal f_mem]. unfold exec_store, mem_put.
      intros x. destruct (_ && _); [now left|now right].
    - destruct (a_src c) as [|p [|q l]]; try (apply agree_same; reflexivity). destruct (a_dst c) as [|r l]; [|apply agree_same; reflexivity].
      set (v := u32 (value1 (a_regs s) p)) in *.
      assert (E : match log_op ljunk (bound c) v s m, log_op ljunk (bound c) v s m' with
                  | Some o1, Some o2 => exec_log log_fuel o2 (k_log (a_csr s)) = exec_log log_fuel o1 (k_log (a_csr s))
                  | None, None => True | _, _ => False end).
      { unfold log_op. destruct (Z.eqb_spec (bound c) 0) as [B|B].
        - cbn [exec_log]. rewrite (string_apart m m'); [reflexivity|apply Hm; [reflexivity|now left]|]. intros x Hx. apply H. right. split; [now left|exact Hx].
        - destruct (bound c =? 1); [reflexivity|]. destruct (bound c =? 2); [reflexivity|]. destruct (Z.eqb_spec (bound c) 3) as [B3|B3]; [|exact I].
          cbn [exec_log]. rewrite (string_apart m m'); [reflexivity|apply Hm; [reflexivity|now right]|]. intros x Hx. apply H. right. split; [now right|exact Hx]. }
      destruct (log_op ljunk (bound c) v s m) as [o1|], (log_op ljunk (bound c) v s m') as [o2|]; try (now destruct E); [|apply agree_same; reflexivity].
      rewrite E. destruct (exec_log log_fuel o1 (k_log (a_csr s))) as [[? | |]|]; apply agree_same; reflexivity.
    - replace (match a_src c with [] | _ => match a_dst c with [] | _ => let '(s', m'0, a', t) := sys c a s m in Eff (with_core tock s') m'0 a' (raised t) end end)
        with (let '(s', m'0, a', t) := sys c a s m in Eff (with_core tock s') m'0 a' (raised t)) by (destruct (a_src c), (a_dst c); reflexivity).
      pose proof (Hs c a s m m') as Q. pose proof (Hs c a s m' m) as Q'. destruct (sys c a s m) as [[[s1 m1] a1] t1]. destruct (sys c a s m') as [[[s2 m2] a2] t2].
      destruct Q as (-> & -> & -> & _ & Q). destruct Q' as (_ & _ & _ & _ & Q'). split; [reflexivity|]. split; [reflexivity|]. split; [reflexivity|]. intros x. right. split; [apply Q'|apply Q].
  Qed.
  (** What an instruction keeps outside the bytes of [P]. *)
  Definition framed (P : Z -> Prop) (m : Z -> Z) (f : effect) : Prop := 0 <= f_pc f < 2 ^ 32 /\ forall x, ~ P x -> f_mem f x = m x.
  Lemma framed_same P m (f : effect) : 0 <= f_pc f < 2 ^ 32 -> f_mem f = m -> framed P m f.
  Proof. intros A B. split; [exact A|]. intros x _. now rewrite B. Qed.
  Lemma framed_next P m (g : arch) h a : framed P m (Eff g m (next a) h).
  Proof. apply framed_same; [apply u32_range|reflexivity]. Qed.
  Lemma scalar_frame c a s m : sys_quiet sys -> framed (store_range c s) m (exec_scalar sys ljunk c a s m).
  Proof.
    intros Hs. unfold store_range, exec_scalar. destruct (act_kind c) as [f| | | | |b|T|T| | | |] eqn:Ek.
    - destruct (a_src c) as [|p [|q [|]]]; try apply framed_next. destruct (a_dst c) as [|r [|]]; apply framed_next.
    - destruct (a_src c) as [|p [|]]; try apply framed_next. destruct (a_dst c) as [|r [|]]; apply framed_next.
    - destruct (a_src c) as [|p [|]]; try apply framed_next. destruct (a_dst c) as [|r [|]]; apply framed_next.
    - destruct (a_src c) as [|p [|]]; try apply framed_next. destruct (a_dst c) as [|x [|r [|]]]; try apply framed_next. apply framed_same; [apply u32_range|reflexivity].
    - destruct (a_src c) as [|p [|q [|]]]; try apply framed_next. destruct (a_dst c) as [|x [|r [|]]]; try apply framed_next. apply framed_same; [|reflexivity]. cbn [f_pc].
      set (v := u32 (u32 (value1 (a_regs s) p) + u32 (value1 (a_regs s) q))). pose proof (u32_range (u32 (value1 (a_regs s) p) + u32 (value1 (a_regs s) q))) as V. fold v in V. clearbody v.
      rewrite (eq_refl : Z.land v (2 ^ 32 - 2) = Z.land v (Z.land (2 ^ 32 - 2) (Z.ones 32))), Z.land_assoc, Z.land_ones by lia. apply Z.mod_pos_bound. reflexivity.
    - destruct (a_src c) as [|p [|q [|o [|]]]]; try apply framed_next. destruct (a_dst c) as [|x [|]]; try apply framed_next. apply framed_same; [|reflexivity]. cbn [f_pc].
      destruct (b _ _); apply u32_range.
    - destruct (a_src c) as [|p [|q [|]]]; try apply framed_next. destruct (a_dst c) as [|x]; try apply framed_next. destruct (max_address <? _); [apply framed_next|].
      destruct (a_child c) as [[x [|r [|]]]|]; apply framed_next.
    - destruct (a_src c) as [|p [|q [|o [|]]]]; try apply framed_next. destruct (a_dst c) as [|x]; try apply framed_next.
      destruct (max_address <? _); [apply framed_next|]. split; [apply u32_range|]. cbn [normal f_mem]. unfold exec_store, mem_put.
      fold (MachModel.store_addr (value1 (a_regs s) p) (value1 (a_regs s) q)). intros x Hx. cbv zeta in Hx.
      destruct ((_ <=? x) && (x <? _)) eqn:E; [|reflexivity]. exfalso. apply Hx. apply andb_true_iff in E as [E1 E2]. apply Z.leb_le in E1. apply Z.ltb_lt in E2. now split.
    - apply framed_next.
    - apply framed_next.
    - destruct (a_src c) as [|p [|]]; try apply framed_next. destruct (a_dst c) as [|x]; try apply framed_next. destruct (log_op _ _ _ _ _) as [op|]; [|apply framed_next].
      destruct (exec_log _ _ _) as [[l| |]|]; apply framed_next.
    - pose proof (Hs c a s m m) as H. destruct (sys c a s m) as [[[s' m'] a'] t]. destruct H as (_ & _ & _ & H1 & H2).
      assert (Q : forall P, framed P m (Eff (with_core tock s') m' a' (raised t))) by (intros P; split; [exact H1|intros x _; apply H2]).
      destruct (a_src c); apply Q.
  Qed.

  (** ** Rows *)
  Lemma scalar_spec e w s m x : In e all_entries -> is_scalar_op (e_sem e) ->
    (load_range (act1 e w) s x \/ text_range (act1 e w) s m x -> loads_from (e_name e) w s m x) /\
    (store_range (act1 e w) s x -> stores_to (e_name e) w s x).
  Proof.
    intros He Hs. pose proof (proj1 (forallb_forall _ _) foot_rows e He) as R. unfold foot_row in R. destruct (e_sem e); try (now destruct Hs).
    unfold load_range, text_range, store_range. change (act_kind (act1 e w)) with (kind_of_sem (sem1 e)). cbn [act1 a_src].
    assert (B : bound (act1 e w) = bound (Act (sem1 e) [] [] None)) by reflexivity. rewrite B. clear B.
    destruct (kind_of_sem (sem1 e)); try (split; [intros [[]|[]]|intros []]); destruct (e_src e) as [|p [|q [|r [|]]]]; try discriminate R; cbn [map].
    - apply andb_true_iff in R as [R R3]. apply andb_true_iff in R as [R1 R2]. destruct (lookup (e_name e) load_specs) as [T'|] eqn:L; [|discriminate R1]. apply ity_eqb_eq in R1 as <-.
      split; [|intros []]. intros [H|[]]. left. rewrite (rs1_value e w _ p R2) in H. destruct (imm_value e w (a_regs s) q Iimm (or_introl eq_refl) R3) as (i & E & V). rewrite E in H.
      exists T, i. split; [exact L|]. split; [exact V|]. cbv zeta. unfold u32 in H. rewrite <- Zplus_mod in H. replace (bits T / 8) with (sizeof T) by (destruct T; reflexivity). exact H.
    - apply andb_true_iff in R as [R R3]. apply andb_true_iff in R as [R1 R2]. destruct (lookup (e_name e) store_specs) as [T'|] eqn:L; [|discriminate R1]. apply ity_eqb_eq in R1 as <-.
      split; [intros [[]|[]]|]. intros H. left. rewrite (rs1_value e w _ p R2) in H. destruct (imm_value e w (a_regs s) q Simm (or_intror eq_refl) R3) as (i & E & V). rewrite E in H.
      exists T, i. split; [exact L|]. split; [exact V|]. cbv zeta in *. rewrite store_addr_mod in H. replace (bits T / 8) with (sizeof T) by (destruct T; reflexivity). exact H.
    - apply andb_true_iff in R as [R1 R2]. split; [|intros []]. intros [[]|[Hb H]]. right. left. rewrite (rs1_value e w _ p R1) in H. split.
      + apply orb_true_iff in R2 as [R2|R2]; [|exfalso; clear - Hb R2; lia]. apply existsb_exists in R2 as (n & Hn & E). apply String.eqb_eq in E. now rewrite E.
      + destruct H as (k & Hk & H). exists k. split; [exact Hk|]. cbv zeta in *. unfold u32 in H.
        assert (E : forall j, (reg_at (a_regs s) w 15 mod 2 ^ 32 + 4 * j) mod 2 ^ 32 = (reg_at (a_regs s) w 15 + 4 * j) mod 2 ^ 32) by (intros j; apply Zplus_mod_idemp_l).
        rewrite !E in H. destruct H as (H1 & H2 & H3). split; [exact H1|]. split; [exact H2|]. intros j Hj. specialize (H3 j Hj). rewrite !E in H3. exact H3.
  Qed.
  Lemma log_name e w : In e all_entries -> is_scalar_op (e_sem e) -> act_kind (act1 e w) = KLog -> bound (act1 e w) = 0 \/ bound (act1 e w) = 3 -> In (e_name e) ["flog"; "klog"].
  Proof.
    intros He Hs. pose proof (proj1 (forallb_forall _ _) foot_rows e He) as R. unfold foot_row in R. destruct (e_sem e); try (now destruct Hs).
    change (act_kind (act1 e w)) with (kind_of_sem (sem1 e)). assert (B : bound (act1 e w) = bound (Act (sem1 e) [] [] None)) by reflexivity. rewrite B. clear B. intros K Hb.
    rewrite K in R. destruct (e_src e) as [|p [|q l]]; try discriminate R. apply andb_true_iff in R as [_ R2].
    apply orb_true_iff in R2 as [R2|R2]; [|exfalso; clear - Hb R2; lia]. apply existsb_exists in R2 as (n & Hn & E). apply String.eqb_eq in E. now rewrite E.
  Qed.
End Foot.
