(** * The V1 machine: loads, stores and the end of a run *)
From Coq Require Import ZArith List Bool Lia String.
From Coq Require Import ZifyBool ZifyNat.
From Verif Require Import CInt VecModel VecSpec LaneSpec ConvModel ConvSpec MemModel MemSpec LogModel LogSpec.
From Verif Require Import DecodeTypes DecodeModel DecodeSpec V2DecTypes V2DecModel V2DecSpec V1ScalModel V1ScalSpec V1ScalProofs V1ScalProofs2.
From Verif Require Import VecProofs MemProofs DecodeProofs DecodeProofs2 DecodeProofs3 DecodeProofs4 TopModel MachModel MachSpec RvSpec MachProofs MachProofs2 MachProofs3 MachProofs5.
From Verif Require LaneProofs LogProofs ConvProofs.
Import ListNotations.
Open Scope string_scope.
Open Scope list_scope.
Open Scope Z_scope.
Ltac Zify.zify_post_hook ::= Z.to_euclidean_division_equations.

Lemma mem_get_reads T m a : In T [I8; I16; I32; U8; U16] -> (forall j, 0 <= m j < 256) -> reads T m a (u32 (mem_get T m a)).
Proof.
  intros HT Hm. exists (mem_get T m a). split; [apply LaneProofs.in_range_fits, LaneProofs.wrap_range|]. split; [apply u32_low|].
  intros j Hj. unfold mem_get. change (bits T / 8) with (lanebytes T) in Hj. rewrite lanebytes_sizeof in Hj.
  destruct (LaneProofs.wrap_cong T (le m a (Z.to_nat (sizeof T)))) as [k ->].
  assert (M : modulus T = 256 ^ sizeof T) by (cbn [In] in HT; destruct HT as [<-|[<-|[<-|[<-|[<-|[]]]]]]; reflexivity).
  replace (modulus T) with (256 ^ (sizeof T - j - 1) * 256 * 256 ^ j).
  2: { rewrite M. transitivity (256 ^ ((sizeof T - j - 1) + 1 + j)); [|f_equal; lia]. rewrite !Z.pow_add_r by lia. reflexivity. }
  rewrite Z.mul_assoc, Z.div_add by (apply Z.pow_nonzero; lia). rewrite Z.mul_assoc, Z_mod_plus_full.
  rewrite le_digit; [reflexivity| |rewrite Z2Nat.id; lia]. intros i _. apply Hm.
Qed.
Lemma top_max x : (max_address <? x) = (top_address <=? x).
Proof. unfold max_address, top_address. lia. Qed.
Lemma store_writes T b o v m : In T [U8; U16; U32] -> writes_mem T ((b + o) mod 2 ^ 31) v m (exec_store T true b o v m).
Proof.
  intros HT. assert (B : bits T / 8 = opbytes T) by (cbn [In] in HT; destruct HT as [<-|[<-|[<-|[]]]]; reflexivity).
  split; [intros j Hj|intros c Hc]; rewrite LogProofs.store_ok by exact HT; cbv zeta; unfold LogSpec.store_addr; rewrite <- B; set (a := (b + o) mod 2 ^ 31) in *; clearbody a.
  - replace ((a <=? a + j) && (a + j <? a + bits T / 8)) with true by lia. now replace (a + j - a) with j by lia.
  - now replace ((a <=? c) && (c <? a + bits T / 8)) with false by lia.
Qed.
Lemma store_addr_mod b o : MachModel.store_addr b o = (b + o) mod 2 ^ 31.
Proof.
  unfold MachModel.store_addr. change 0x7fffffff with (Z.ones 31). rewrite Z.land_ones by lia.
  unfold wrap. cbn [is_signed modulus half]. change (2 ^ 31) with 2147483648. lia.
Qed.

Section Rv.
  Context {S : Type}.
  Notation arch := (arch (C := core S)).
  Variable d : decoder.
  Variable zbb : Z -> option act.
  Variable sys : act -> Z -> arch -> (Z -> Z) -> arch * (Z -> Z) * Z * option Z.
  Variable junk : Z -> Z -> vbytes.
  Variable ljunk : Z -> Z.
  Notation exec := (exec1 d zbb sys junk ljunk).

  Theorem rv_load m w a s mem T x i : decoder_ok d -> proper m w -> lookup (m_name m) load_specs = Some T -> values m w (a_regs s) [x; i] ->
    (forall b, 0 <= mem b < 256) ->
    let f := exec w a s mem in let at_ := (x + i) mod 2 ^ 32 in
    f_mem f = mem /\ f_pc f = (a + 4) mod 2 ^ 32 /\ keeps s (f_arch f) /\
    (at_ < top_address -> f_halt f = None /\ writes (rd w) (reads T mem at_) s (f_arch f)) /\
    (top_address <= at_ -> f_halt f = Some RUserRequest /\ a_regs (f_arch f) = a_regs s).
  Proof.
    intros Hd Hp HP HV Hm f A. destruct (in_manual m _ load_rows (proj1 Hp) T HP) as (Ek & HT & Es & Ed & Ec & En).
    destruct (exec_proper d zbb sys junk ljunk m w Hd Hp) as (c & Hdo & E); [rewrite Ek; discriminate|]. unfold f. rewrite E. clear f E.
    destruct (nop_act m w c Hdo) as [(S1 & S2 & S3 & S4)|(S1 & l & S2 & S3)]; [rewrite Ek; discriminate| |rewrite En in S2; destruct S2].
    unfold values in HV. rewrite Es in *. rewrite Ed in S3. rewrite Ec in S4. unfold list_is in *.
    inversion S2 as [|? p ? r1 Hp1 O1 E1 E2]; subst. inversion O1 as [|? q ? r2 Hq O2 E1 E3]; subst. inversion O2; subst.
    assert (E4 : [] = a_dst c) by (inversion S3; reflexivity).
    destruct (a_child c) as [[s1 t1]|] eqn:Ecc; [|destruct S4]. destruct S4 as [S4 S5]. inversion S5 as [|? r ? r4 Hr O4 E1 E5]; subst. inversion O4; subst.
    inversion HV as [|? ? ? ? V1 V2]; subst. inversion V2 as [|? ? ? ? V3 _]; subst.
    unfold exec_scalar. rewrite kind_sem, S1, Ek, <- E2, <- E4, Ecc.
    rewrite (value_ok (V2DecSpec.KX 15) w (a_regs s) x p), (value_ok Iimm w (a_regs s) i q) by (unfold is_imm, imms; cbn [In]; tauto).
    replace (u32 (u32 x + u32 i)) with A by (unfold u32, A; now rewrite <- Zplus_mod). rewrite top_max.
    destruct (Z.leb_spec top_address A) as [L|L]; cbn [normal trapped raised on_trap f_mem f_pc f_halt f_arch].
    - split; [reflexivity|]. split; [reflexivity|]. split; [apply keeps_tock|]. split; [intros K; lia|]. intros _. split; reflexivity.
    - split; [reflexivity|]. split; [reflexivity|]. split; [apply keeps_set|]. split; [|intros K; lia]. intros _. split; [reflexivity|].
      apply set_writes; [exact Hr|]. now apply mem_get_reads.
  Qed.
  Theorem rv_store m w a s mem T x i y : decoder_ok d -> proper m w -> lookup (m_name m) store_specs = Some T -> values m w (a_regs s) [x; i; y] ->
    let f := exec w a s mem in let at_ := (x + i) mod 2 ^ 31 in
    a_regs (f_arch f) = a_regs s /\ f_pc f = (a + 4) mod 2 ^ 32 /\ keeps s (f_arch f) /\
    (at_ < top_address -> f_halt f = None /\ writes_mem T at_ y mem (f_mem f)) /\
    (top_address <= at_ -> f_halt f = Some RUserRequest /\ f_mem f = mem).
  Proof.
    intros Hd Hp HP HV f A. destruct (in_manual m _ store_rows (proj1 Hp) T HP) as (Ek & HT & Es & Ed & En).
    destruct (exec_proper d zbb sys junk ljunk m w Hd Hp) as (c & Hdo & E); [rewrite Ek; discriminate|]. unfold f. rewrite E. clear f E.
    destruct (nop_act m w c Hdo) as [(S1 & S2 & S3 & S4)|(S1 & l & S2 & S3)]; [rewrite Ek; discriminate| |rewrite En in S2; destruct S2].
    unfold values in HV. rewrite Es in *. rewrite Ed in S3. unfold list_is in *.
    inversion S2 as [|? p ? r1 Hp1 O1 E1 E2]; subst. inversion O1 as [|? q ? r2 Hq O2 E1 E3]; subst. inversion O2 as [|? o ? r3 Ho O3 E1 E5]; subst. inversion O3; subst.
    assert (E4 : [] = a_dst c) by (inversion S3; reflexivity).
    inversion HV as [|? ? ? ? V1 V2]; subst. inversion V2 as [|? ? ? ? V3 V4]; subst. inversion V4 as [|? ? ? ? V5 _]; subst.
    unfold exec_scalar. rewrite kind_sem, S1, Ek, <- E2, <- E4.
    rewrite (value_ok (V2DecSpec.KX 15) w (a_regs s) x p), (value_ok Simm w (a_regs s) i q), (value_ok (V2DecSpec.KX 20) w (a_regs s) y o) by (unfold is_imm, imms; cbn [In]; tauto).
    rewrite store_addr_mod, top_max. fold A.
    destruct (Z.leb_spec top_address A) as [L|L]; cbn [normal trapped raised on_trap f_mem f_pc f_halt f_arch].
    - split; [reflexivity|]. split; [reflexivity|]. split; [apply keeps_tock|]. split; [intros K; lia|]. intros _. split; reflexivity.
    - split; [reflexivity|]. split; [reflexivity|]. split; [apply keeps_tock|]. split; [|intros K; lia]. intros _. split; [reflexivity|].
      now apply store_writes.
  Qed.

  (** ** The end of a run *)
  Theorem rv_mpause w a s mem : decoder_ok d -> w = 0x08000073 ->
    let f := exec w a s mem in
    f_halt f = Some RUserRequest /\ f_mem f = mem /\ f_pc f = (a + 4) mod 2 ^ 32 /\ a_regs (f_arch f) = a_regs s /\ keeps s (f_arch f).
  Proof.
    intros Hd -> f. unfold f. rewrite (step_scalar d zbb sys junk ljunk Hd _ mpause_act) by (right; right; left; reflexivity). repeat split.
  Qed.
  Theorem illegal_halts w a s mem : decode1 d w = None -> zbb w = None ->
    let f := exec w a s mem in
    f_halt f = Some RUserRequest /\ f_mem f = mem /\ f_pc f = (a + 4) mod 2 ^ 32 /\ a_regs (f_arch f) = a_regs s /\ keeps s (f_arch f).
  Proof.
    intros H Hz f. unfold f, exec1, decode1 in *. destruct (parse d w); [discriminate|]. rewrite Hz. cbn [trapped raised on_trap f_mem f_pc f_halt f_arch].
    repeat split.
  Qed.
  (** Scalar instructions that never end the run. *)
  Definition halting_kind (k : MachModel.kind) : bool := match k with KMpause | KLoad _ | KStore _ | KLog | KSys => true | _ => false end.
  Definition getvls := ["getmaxvl"; "getvl.x"; "getvl.xx"].
  Definition is_getvl (l : list fn2) : bool := match l with Fn n _ :: _ => String.prefix "coralnpu::CoralNPUGetVl" n | [] => false end.
  Lemma halting_rows : forallb (fun m => implb (halting_kind (kind_of_sem (m_sem m))) (existsb (String.eqb (m_name m)) (halting ++ ["slog"; "clog"] ++ getvls))) manual1 = true.
  Proof. vm_compute. reflexivity. Qed.
  Lemma getvl_rows : forallb (fun m => implb (existsb (String.eqb (m_name m)) getvls) (is_getvl (m_sem m))) manual1 = true.
  Proof. vm_compute. reflexivity. Qed.
  Lemma getvl_vector : forallb (fun e => match e_sem e with SmScalar _ => negb (is_getvl (sem1 e)) | _ => true end) all_entries = true.
  Proof. vm_compute. reflexivity. Qed.
  Lemma slog_rows : forallb (fun m => implb (existsb (String.eqb (m_name m)) ["slog"; "clog"])
    (match kind_of_sem (m_sem m) with KLog => true | _ => false end && ((bound (Act (m_sem m) [] [] None) =? 1) || (bound (Act (m_sem m) [] [] None) =? 2)))) manual1 = true.
  Proof. vm_compute. reflexivity. Qed.
  Lemma scalar_quiet c a s mem : halting_kind (act_kind c) = false -> f_halt (exec_scalar sys ljunk c a s mem) = None.
  Proof.
    intros H. unfold exec_scalar. destruct (act_kind c); try discriminate H;
      destruct (a_src c) as [|? [|? [|? [|]]]]; try reflexivity; destruct (a_dst c) as [|? [|? [|]]]; reflexivity.
  Qed.
  (** The log instructions stop if the string starts above memory. *)
  Lemma log_halts c a s mem r : act_kind c = KLog -> f_halt (exec_scalar sys ljunk c a s mem) = Some r ->
    r = RUserRequest /\ (bound c = 0 \/ bound c = 3) /\ exists p, a_src c = [p] /\ top_address <= u32 (value1 (a_regs s) p).
  Proof.
    intros K H. unfold exec_scalar in H. rewrite K in H. destruct (a_src c) as [|p [|]]; try discriminate H. destruct (a_dst c); [|discriminate H].
    destruct (log_op ljunk (bound c) _ s mem); [|discriminate H]. destruct (exec_log log_fuel l (k_log (a_csr s))) as [[| |]|]; try discriminate H.
    cbn [f_halt] in H. unfold log_trap in H. rewrite top_max in H.
    destruct (Z.eqb_spec (bound c) 0), (Z.eqb_spec (bound c) 3), (Z.leb_spec top_address (u32 (u32 (value1 (a_regs s) p)))); cbn [orb andb on_trap] in H; try discriminate H; injection H as <-;
      (split; [reflexivity|]; split; [auto|]; exists p; split; [reflexivity|]; unfold u32 in *; rewrite Z.mod_mod in * by lia; assumption).
  Qed.
  (** ** Vector instructions *)
  Lemma vcget_traps vd jk s s' : exec_vcget vd jk s = Ok s' -> c_traps s' = c_traps s.
  Proof.
    unfold exec_vcget. match goal with |- for_n ?k ?g _ = _ -> _ => set (G := g); generalize k end. intros n. revert s'.
    induction n as [|n IH]; intros s' H; cbn [for_n] in H.
    - now injection H as <-.
    - destruct (for_n n G s) as [s1| |]; cbn [bind] in H; try discriminate H. specialize (IH _ eq_refl). unfold G in H.
      destruct (Z.of_nat n <? g_n vd); [|discriminate H].
      match type of H with bind ?x _ = _ => destruct x; cbn [bind] in H; try discriminate H end. injection H as <-. exact IH.
  Qed.
  Lemma row_traps a jk e w s s' : e_sem e <> SmConv -> exec_row true a jk e w s = Some (Ok s') -> w_traps s' = w_traps s.
  Proof.
    intros N H. unfold exec_row in H. destruct (e_sem e); try (now destruct N); try discriminate H.
    all: try (destruct (ity_eqb _ _ && _); [|discriminate H]).
    all: injection H as H; unfold with_v, with_m, with_c in H;
      repeat match type of H with bind ?x _ = Ok _ => destruct x eqn:?E; cbn [bind] in H; try discriminate H end;
      try (injection H as <-; reflexivity).
    all: injection H as <-; cbn [w_traps]; change (w_traps s) with (c_traps (to_c s)).
    - unfold exec_vdwconv in E0. destruct (dw_index _) as [[i0 i1] i2].
      repeat match type of E0 with bind ?x _ = Ok _ => destruct x; cbn [bind] in E0; try discriminate E0 end.
      destruct (dw_adata _ _ _ _); [|discriminate E0]. destruct (c_dw (to_c s)); [|discriminate E0].
      match type of E0 with bind ?x _ = Ok _ => destruct x; cbn [bind] in E0; try discriminate E0 end. cbv zeta in E0.
      destruct (negb write_acc); [now injection E0 as <-|].
      match type of E0 with bind ?x _ = Ok _ => destruct x; cbn [bind] in E0; try discriminate E0 end. now injection E0 as <-.
    - unfold exec_acset in E. match type of E with bind ?x _ = Ok _ => destruct x; cbn [bind] in E; try discriminate E end. now injection E as <-.
    - now apply vcget_traps in E.
    - unfold exec_adwinit in E. match type of E with bind ?x _ = Ok _ => destruct x; cbn [bind] in E; try discriminate E end. now injection E as <-.
  Qed.

  Lemma conv_rows : forallb (fun e => match e_sem e with SmConv => match e_src e with [SVs1; SVs2; SVs3] => true | _ => false end | _ => true end) all_entries = true.
  Proof. vm_compute. reflexivity. Qed.
  Lemma vs1_base e w n : vecb (kind_of (src_op e w SVs1)) n = true -> g_base (to_group (src_op e w SVs1)) = f_vs1 w.
  Proof.
    cbn [src_op]. change (ext FV2 "vs1" w) with (f_vs1 w). destruct (ext FV2 "form" w =? 3).
    - destruct (f_vs1 w =? 0); discriminate.
    - intros _. destruct (is e "adwconv_vxv" || is e "vdwconv_vxv"); reflexivity.
  Qed.
  Lemma conv_step e w a s jk : encodes e w -> e_sem e = SmConv -> wf (w_v s) -> acc_wf (w_acc s) -> w_x s 0 = 0 -> w_traps s = [] ->
    let c := xval s (f_xs2 w) in
    (~ conv_legal c /\ vec_step e w a s jk = Some (Ok (WS (w_mem s) (w_v s) (w_x s) (w_acc s) (w_dw s) [(2, a)], Some 2))) \/
    (conv_legal c /\ exists acc, vec_step e w a s jk = Some (Ok (WS (w_mem s) (w_v s) (w_x s) acc (w_dw s) [], None)) /\ acc_wf acc /\
      forall r q, 0 <= r < 8 -> 0 <= q < 8 -> acc r q = (w_acc s r q + conv_sum c (w_v s) (f_vs1 w) (f_vs3 w) r q) mod 2 ^ 32).
  Proof.
    intros He Es Hwf Hacc H0 Ht c. unfold vec_step, mem_row. rewrite Es. unfold exec_row. rewrite Es.
    pose proof (proj1 (forallb_forall _ _) conv_rows e (proj1 He)) as R. cbv beta in R. rewrite Es in R.
    assert (Hc : canonical w e).
    { intros L. exfalso. destruct (meaning_ok e (proj1 He)) as [M _]. rewrite Es in M. specialize (M (fun f => f)). unfold loose in L. cbn [In] in L.
      destruct L as [L|[L|[L|[]]]]; rewrite <- L in M; vm_compute in M; discriminate M. }
    pose proof (row_ok e w He Hc) as H. unfold rowb in H. rewrite Es in H. repeat (apply andb_true_iff in H as [H ?]).
    destruct (e_src e) as [|[] [|[] [|[] [|]]]] eqn:Er; try discriminate R. cbn [map nth] in *.
    match goal with K : xb _ = true |- _ => apply xb_kx in K; destruct (x_src e w SVs2 s H0 K) as [-> _] end. cbn [bind].
    change (xval s (xfield SVs2 w)) with c. clearbody c. pose proof (vs1_base _ _ _ H) as B1.
    assert (B3 : g_base (to_group (src_op e w SVs3)) = f_vs3 w) by reflexivity.
    apply vecb_grp in H, H1.
    assert (D : conv_legal c \/ ~ conv_legal c) by (unfold conv_legal; lia).
    destruct D as [D|D]; [right|left]; (split; [exact D|]).
    - destruct (ConvProofs.conv_exact (to_group (src_op e w SVs1)) (to_group (src_op e w SVs3)) c a (to_c s)) as (acc & -> & A & F); try assumption.
      + unfold conv_len. destruct D. pose proof (ConvProofs.fld_range c 2 5 ltac:(lia)). lia.
      + exists acc. cbn [with_c bind option_map to_c c_v c_acc c_dw c_traps w_traps]. rewrite Ht. rewrite B1, B3 in F. auto.
    - rewrite ConvProofs.conv_illegal by exact D. cbn [with_c bind option_map to_c c_v c_acc c_dw c_traps w_traps illegal]. rewrite Ht. reflexivity.
  Qed.
  Lemma xval_regs (s : arch) m r : a_regs s 0 = 0 -> xval (to_w s m) r = a_regs s r.
  Proof. intros H0. unfold xval. cbn [to_w w_x]. destruct (r =? 0) eqn:E; [|reflexivity]. apply Z.eqb_eq in E. now rewrite E. Qed.
  (** aconv: the accumulators get the sums of C18, and nothing else changes. *)
  Theorem mach_conv w e a s m : decoder_ok d -> parse d w = Some e -> meaning (e_name e) = Some SmConv -> a_regs s 0 = 0 -> acc_wf (k_acc (a_csr s)) ->
    let f := exec w a s m in let c := a_regs s (f_xs2 w) in
    f_mem f = m /\ f_pc f = (a + 4) mod 2 ^ 32 /\ (forall i, i < 64 -> a_regs (f_arch f) i = a_regs s i) /\
    (forall r j, 0 <= r -> 0 <= j < 32 -> vbyte (f_arch f) r j = vbyte s r j) /\
    k_dw (a_csr (f_arch f)) = k_dw (a_csr s) /\ k_wrong (a_csr (f_arch f)) = k_wrong (a_csr s) /\ k_sys (a_csr (f_arch f)) = k_sys (a_csr s) /\
    (~ conv_legal c -> f_halt f = Some RUserRequest /\ k_acc (a_csr (f_arch f)) = k_acc (a_csr s)) /\
    (conv_legal c -> f_halt f = None /\ acc_wf (k_acc (a_csr (f_arch f))) /\
      forall r q, 0 <= r < 8 -> 0 <= q < 8 ->
        k_acc (a_csr (f_arch f)) r q = (k_acc (a_csr s) r q + conv_sum c (vbyte s) (f_vs1 w) (f_vs3 w) r q) mod 2 ^ 32).
  Proof.
    intros Hd Hp M H0 Ha f c. pose proof (parse_sound d w e Hd Hp) as He. pose proof (sem_of e _ (proj1 He) M (fun f => f)) as Es.
    unfold f. rewrite (exec_vec d zbb sys junk ljunk w e) by (assumption || now rewrite Es). unfold exec_vector.
    pose proof (conv_step e w a (to_w s m) (junk (k_clock (a_csr s))) He Es (to_w_wf s m) Ha H0 eq_refl) as C. cbv zeta in C.
    rewrite (xval_regs s m _ H0) in C. fold c in C.
    assert (V : forall x, w_v x = w_v (to_w s m) -> forall r j, 0 <= r -> 0 <= j < 32 -> vbyte (with_core tock (of_w s x)) r j = vbyte s r j).
    { intros x Hx r j Hr Hj. etransitivity; [apply of_w_v; [exact Hr|exact Hj|]; rewrite Hx; intros i Hi; exact (to_w_wf s m r i Hi)|]. rewrite Hx. reflexivity. }
    destruct C as [(N & ->)|(L & acc & -> & A & F)]; cbn [raised on_trap f_mem f_pc f_arch f_halt w_mem].
    - split; [reflexivity|]. split; [reflexivity|]. split; [intros i Hi; now apply of_w_x|]. split; [now apply V|].
      split; [reflexivity|]. split; [reflexivity|]. split; [reflexivity|]. split; [intros _; split; reflexivity|intros K; now destruct N].
    - split; [reflexivity|]. split; [reflexivity|]. split; [intros i Hi; now apply of_w_x|]. split; [now apply V|].
      split; [reflexivity|]. split; [reflexivity|]. split; [reflexivity|]. split; [intros K; now destruct K|]. intros _. split; [reflexivity|]. split; [exact A|exact F].
  Qed.
  Theorem vec_halts w e a s m : decoder_ok d -> parse d w = Some e -> ~ is_scalar_op (e_sem e) -> a_regs s 0 = 0 -> acc_wf (k_acc (a_csr s)) ->
    let f := exec w a s m in
    (faults w (e_name e) s -> f_halt f = Some RUserRequest) /\ (~ faults w (e_name e) s -> f_halt f = None).
  Proof.
    intros Hd Hp Hn H0 Ha f. pose proof (parse_sound d w e Hd Hp) as He. pose proof (proj1 (meaning_ok e (proj1 He)) Hn) as M.
    unfold faults. rewrite M.
    assert (Q : forall k, e_sem e = k -> match k with SmLd _ _ _ _ _ _ | SmSt _ _ _ _ | SmStq _ _ | SmConv => False | _ => True end -> f_halt f = None).
    { intros k Es Hk. unfold f. rewrite (exec_vec d zbb sys junk ljunk w e) by assumption. unfold exec_vector.
      destruct (vec_step e w a (to_w s m) (junk (k_clock (a_csr s)))) as [[[s' t]| |]|] eqn:E; try reflexivity. cbn [f_halt].
      unfold vec_step in E. replace (mem_row e w (to_w s m)) with (@None (outcome (ity * mop * bool))) in E by (unfold mem_row; rewrite Es; now destruct k).
      destruct (exec_row true a _ e w (to_w s m)) as [[s1| |]|] eqn:R; try discriminate E. cbn [option_map bind] in E. injection E as <- <-.
      apply row_traps in R; [|rewrite Es; intros ->; exact Hk]. rewrite R. reflexivity. }
    destruct (e_sem e) eqn:Es; try (split; [intros []|intros _; apply (Q _ eq_refl I)]).
    - destruct (mach_load d zbb sys junk ljunk w e a s m _ _ _ _ _ _ Hd Hp M H0) as (_ & _ & _ & _ & F1 & F2). split; intros K; [now apply F1|now apply F2].
    - destruct (mach_store d zbb sys junk ljunk w e a s m T len stride strip false Hd Hp M) as (_ & _ & _ & _ & F1 & F2); [discriminate|exact H0|]. split; intros K; [now apply F1|now apply F2].
    - destruct (mach_store d zbb sys junk ljunk w e a s m T false true strip true Hd Hp M) as (_ & _ & _ & _ & F1 & F2); [split; reflexivity|exact H0|]. split; intros K; [now apply F1|now apply F2].
    - destruct (mach_conv w e a s m Hd Hp M H0 Ha) as (_ & _ & _ & _ & _ & _ & _ & F1 & F2). split; intros K; [now apply F1|].
      assert (D : conv_legal (a_regs s (f_xs2 w)) \/ ~ conv_legal (a_regs s (f_xs2 w))) by (unfold conv_legal; lia). destruct D as [D|D]; [now apply F2|now destruct K].
  Qed.
  (** ** Scalar words that do not end the run *)
  Definition sem_name (l : list fn2) : string := match l with Fn n _ :: _ => n | [] => "" end.
  Lemma vec_sems : forallb (fun e => match e_sem e with SmLd _ _ _ _ _ _ | SmSt _ _ _ _ | SmStq _ _ | SmConv =>
    forallb (fun m => negb (String.eqb (sem_name (sem1 e)) (sem_name (m_sem m)))) manual1 && negb (String.eqb (sem_name (sem1 e)) "RiscVINop") | _ => true end) all_entries = true.
  Proof. vm_compute. reflexivity. Qed.
  Theorem quiet m w a s mem : decoder_ok d -> proper m w -> ~ In (m_name m) halting -> a_regs s 0 = 0 -> acc_wf (k_acc (a_csr s)) -> f_halt (exec w a s mem) = None.
  Proof.
    intros Hd (Hi & Hp & Hw & Hs & Hh) Hq H0 Ha. destruct (manual_words d m w Hd Hi Hp Hw Hs Hh) as (c & Hc & Hdo).
    unfold decode1 in Hc. destruct (parse d w) as [e|] eqn:E; [|discriminate]. cbn [option_map] in Hc. injection Hc as <-.
    pose proof (parse_sound d w e Hd E) as He.
    assert (Sem : a_sem (act1 e w) = m_sem m \/ a_sem (act1 e w) = [Fn "RiscVINop" []]) by (destruct Hdo as [(K & _)|(K & _)]; auto).
    change (a_sem (act1 e w)) with (sem1 e) in Sem.
    destruct (match e_sem e with SmScalar _ => true | _ => false end) eqn:Sc.
    - unfold exec1. rewrite E. destruct (e_sem e) eqn:Sc'; try discriminate Sc.
      pose proof (proj1 (forallb_forall _ _) halting_rows m Hi) as R. cbv beta in R.
      destruct (halting_kind (act_kind (act1 e w))) eqn:K; [|now apply scalar_quiet].
      rewrite kind_sem in K. change (a_sem (act1 e w)) with (sem1 e) in K. destruct Sem as [Sem|Sem]; rewrite Sem in K; [|discriminate K].
      rewrite K in R. cbn [implb] in R. apply existsb_exists in R as (n & In_n & En). apply String.eqb_eq in En. rewrite En in Hq.
      apply in_app_or in In_n as [In_n|In_n]; [now destruct Hq|]. apply in_app_or in In_n as [In_n|In_n].
      2: { exfalso. pose proof (proj1 (forallb_forall _ _) getvl_rows m Hi) as R. cbv beta in R.
           pose proof (proj1 (forallb_forall _ _) getvl_vector e (proj1 He)) as R'. cbv beta in R'. rewrite Sc' in R'.
           assert (X : existsb (String.eqb (m_name m)) getvls = true) by (apply existsb_exists; exists n; split; [exact In_n|now apply String.eqb_eq]).
           rewrite X in R. cbn [implb] in R. rewrite Sem, R in R'. discriminate R'. }
      (* slog, clog *)
      destruct (f_halt (exec_scalar sys ljunk (act1 e w) a s mem)) as [r|] eqn:F; [exfalso|reflexivity].
      assert (B : kind_of_sem (m_sem m) = KLog /\ (bound (Act (m_sem m) [] [] None) = 1 \/ bound (Act (m_sem m) [] [] None) = 2)).
      { pose proof (proj1 (forallb_forall _ _) slog_rows m Hi) as R. cbv beta in R.
        assert (X : existsb (String.eqb (m_name m)) ["slog"; "clog"] = true) by (apply existsb_exists; exists n; split; [exact In_n|now apply String.eqb_eq]).
        rewrite X in R. cbn [implb] in R. apply andb_true_iff in R as [R1 R2]. destruct (kind_of_sem (m_sem m)); try discriminate R1. split; [reflexivity|lia]. }
      destruct B as [B1 B2]. apply log_halts in F; [|rewrite kind_sem; change (a_sem (act1 e w)) with (sem1 e); now rewrite Sem].
      destruct F as (_ & F & _). unfold bound in F, B2. change (a_sem (act1 e w)) with (sem1 e) in F. rewrite Sem in F. cbn [a_sem] in B2. lia.
    - assert (Hn : ~ is_scalar_op (e_sem e)) by (intros K; destruct (e_sem e); try discriminate Sc; now destruct K).
      apply (vec_halts w e a s mem Hd E Hn H0 Ha). unfold faults. rewrite (proj1 (meaning_ok e (proj1 He)) Hn).
      pose proof (proj1 (forallb_forall _ _) vec_sems e (proj1 He)) as R. cbv beta in R.
      assert (X : match e_sem e with SmLd _ _ _ _ _ _ | SmSt _ _ _ _ | SmStq _ _ | SmConv => False | _ => True end).
      { destruct (e_sem e); try exact I; apply andb_true_iff in R as [R1 R2]; (destruct Sem as [Sem|Sem];
          [pose proof (proj1 (forallb_forall _ _) R1 m Hi) as Y; cbv beta in Y; rewrite Sem, String.eqb_refl in Y; discriminate Y|rewrite Sem in R2; discriminate R2]). }
      destruct (e_sem e); try (now destruct X); intros K; exact K.
  Qed.
  Theorem rv_log m w a s mem x : decoder_ok d -> proper m w -> In (m_name m) ["flog"; "klog"] -> values m w (a_regs s) [x] ->
    f_halt (exec w a s mem) <> None -> f_halt (exec w a s mem) = Some RUserRequest /\ top_address <= x mod 2 ^ 32.
  Proof.
    intros Hd Hp Hn HV Hh.
    assert (R : kind_of_sem (m_sem m) = KLog /\ m_src m = [V2DecSpec.KX 15] /\ m_nop m = []).
    { assert (G : Forall (named [("flog", tt); ("klog", tt)] (fun m _ => kind_of_sem (m_sem m) = KLog /\ m_src m = [V2DecSpec.KX 15] /\ m_nop m = [])) manual1) by (rows; auto).
      apply (in_manual m _ G (proj1 Hp) tt). cbn [In] in Hn. destruct Hn as [<-|[<-|[]]]; reflexivity. }
    destruct R as (Ek & Es & En).
    destruct (exec_proper d zbb sys junk ljunk m w Hd Hp) as (c & Hdo & E); [rewrite Ek; discriminate|]. rewrite E in *. clear E.
    destruct (nop_act m w c Hdo) as [(S1 & S2 & S3 & S4)|(S1 & l & S2 & S3)]; [rewrite Ek; discriminate| |rewrite En in S2; destruct S2].
    unfold values in HV. rewrite Es in *. unfold list_is in *. inversion S2 as [|? p ? r1 Hp1 O1 E1 E2]; subst. inversion O1; subst. inversion HV as [|? ? ? ? V1 V2]; subst.
    destruct (f_halt (exec_scalar sys ljunk c a s mem)) as [r|] eqn:F; [|now destruct Hh].
    apply log_halts in F; [|now rewrite kind_sem, S1]. destruct F as (-> & _ & p' & Ep & L). rewrite Ep in E2. injection E2 as ->.
    rewrite (value_ok (V2DecSpec.KX 15) w (a_regs s) x p') in L by tauto. split; [reflexivity|exact L].
  Qed.
  Lemma log_halts_conv c a s mem p : act_kind c = KLog -> (bound c = 0 \/ bound c = 3) -> a_src c = [p] -> a_dst c = [] ->
    top_address <= u32 (value1 (a_regs s) p) ->
    let f := exec_scalar sys ljunk c a s mem in
    k_wrong (a_csr (f_arch f)) = true \/ f_halt f = Some RUserRequest.
  Proof.
    intros K Hb Es Ed L f. unfold f, exec_scalar. rewrite K, Es, Ed.
    assert (Eo : exists op, log_op ljunk (bound c) (u32 (value1 (a_regs s) p)) s mem = Some op) by (destruct Hb as [->| ->]; eexists; reflexivity).
    destruct Eo as [op ->]. destruct (exec_log log_fuel op (k_log (a_csr s))) as [[l| |]|]; try (left; reflexivity).
    right. cbn [f_halt]. unfold log_trap. rewrite top_max. replace ((bound c =? 0) || (bound c =? 3)) with true by (destruct Hb as [->| ->]; reflexivity).
    replace (u32 (u32 (value1 (a_regs s) p))) with (u32 (value1 (a_regs s) p)) by (unfold u32; now rewrite Z.mod_mod).
    replace (top_address <=? u32 (value1 (a_regs s) p)) with true by (symmetry; now apply Z.leb_le). reflexivity.
  Qed.
  Theorem rv_log_conv m w a s mem x : decoder_ok d -> proper m w -> In (m_name m) ["flog"; "klog"] -> values m w (a_regs s) [x] ->
    top_address <= x mod 2 ^ 32 ->
    let f := exec w a s mem in
    k_wrong (a_csr (f_arch f)) = true \/ f_halt f = Some RUserRequest.
  Proof.
    intros Hd Hp Hn HV Hh.
    assert (R : kind_of_sem (m_sem m) = KLog /\ m_src m = [V2DecSpec.KX 15] /\ m_dst m = [] /\ m_nop m = [] /\
                (bound (Act (m_sem m) [] [] None) = 0 \/ bound (Act (m_sem m) [] [] None) = 3)).
    { assert (G : Forall (named [("flog", tt); ("klog", tt)] (fun m _ => kind_of_sem (m_sem m) = KLog /\ m_src m = [V2DecSpec.KX 15] /\ m_dst m = [] /\ m_nop m = [] /\
                (bound (Act (m_sem m) [] [] None) = 0 \/ bound (Act (m_sem m) [] [] None) = 3))) manual1) by (rows; auto 9).
      apply (in_manual m _ G (proj1 Hp) tt). cbn [In] in Hn. destruct Hn as [<-|[<-|[]]]; reflexivity. }
    destruct R as (Ek & Es & Ed & En & Hb).
    destruct (exec_proper d zbb sys junk ljunk m w Hd Hp) as (c & Hdo & E); [rewrite Ek; discriminate|]. rewrite E in *. clear E.
    destruct (nop_act m w c Hdo) as [(S1 & S2 & S3 & S4)|(S1 & l & S2 & S3)]; [rewrite Ek; discriminate| |rewrite En in S2; destruct S2].
    unfold values in HV. rewrite Es in *. rewrite Ed in *. unfold list_is in *. inversion S2 as [|? p ? r1 Hp1 O1 E1 E2]; subst. inversion O1; subst. inversion HV as [|? ? ? ? V1 V2]; subst.
    inversion S3; subst.
    apply (log_halts_conv c a s mem p).
    - now rewrite kind_sem, S1.
    - unfold bound in *. cbn [a_sem] in Hb. now rewrite S1.
    - auto.
    - auto.
    - rewrite (value_ok (V2DecSpec.KX 15) w (a_regs s) x p) by tauto. exact Hh.
  Qed.
  Theorem only_request w a s mem r : f_halt (exec w a s mem) = Some r -> r = RUserRequest.
  Proof.
    assert (T : forall c r, on_trap c = Some r -> r = RUserRequest) by (intros c r0; unfold on_trap; destruct (_ || _); congruence).
    assert (Q : forall c, f_halt (exec_scalar sys ljunk c a s mem) = Some r -> r = RUserRequest).
    { intros c. destruct (halting_kind (act_kind c)) eqn:K; [|rewrite scalar_quiet by exact K; discriminate].
      destruct (act_kind c) eqn:Kc; try discriminate K; unfold exec_scalar; rewrite Kc.
      - destruct (a_src c) as [|? [|? [|]]]; try discriminate. destruct (a_dst c); [|discriminate].
        destruct (max_address <? _); [apply T|]. destruct (a_child c) as [[? [|? [|]]]|]; discriminate.
      - destruct (a_src c) as [|? [|? [|? [|]]]]; try discriminate. destruct (a_dst c); [|discriminate]. destruct (max_address <? _); [apply T|discriminate].
      - cbn [f_halt]. destruct (a_src c); congruence.
      - intros H. apply (log_halts c a s mem r Kc). unfold exec_scalar. now rewrite Kc.
      - destruct (a_src c); destruct (sys c a s mem) as [[[? ?] ?] [t|]]; (apply T || discriminate). }
    unfold exec1. destruct (parse d w) as [e|].
    - destruct (e_sem e); try apply Q; unfold exec_vector; destruct (vec_step _ _ _ _ _) as [[[s' [t|]]| |]|]; try discriminate; apply T.
    - destruct (zbb w) as [c|]; [apply Q|]. apply (T 2).
  Qed.
End Rv.
