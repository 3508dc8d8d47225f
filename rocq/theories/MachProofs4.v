(** * Proofs for the V1 machine: runs of the strip-mined kernel *)
From Coq Require Import ZArith List Bool String Lia ZifyBool ZifyNat.
From Verif Require Import CInt VecModel VecSpec VecProofs VecEl ConvModel ConvSpec MemModel MemSpec MemProofs LogModel.
From Verif Require Import DecodeTypes DecodeTable DecodeModel DecodeSpec DecodeProofs DecodeProofs2 DecodeProofs3 DecodeProofs4.
From Verif Require Import V2DecModel V1ScalModel TopModel TopSpec TopProofs2 CliSpec MachModel MachSpec MachProofs MachProofs2 MachProofs3.
Import ListNotations.
Open Scope string_scope.
Open Scope Z_scope.

(** ** Runs that do not halt *)
Section Runs.
  Context {C : Type}.
  Variable exec : Z -> Z -> arch (C := C) -> (Z -> Z) -> effect (C := C).
  Notation ref := (ref exec).
  Notation ref_step := (ref_step exec).
  Notation ref_halt := (ref_halt exec).
  Definition runs (P : mach -> Prop) (m : mach) (n : nat) (m' : mach) : Prop :=
    ref n m = m' /\ forall i, (i < n)%nat -> P (ref i m) /\ ref_halt (ref i m) = None.
  Lemma runs_0 P m : runs P m 0 m.
  Proof. split; [reflexivity|]. intros i Hi. lia. Qed.
  Lemma runs_1 (P : mach -> Prop) m n m' : P m -> ref_halt m = None -> runs P (ref_step m) n m' -> runs P m (S n) m'.
  Proof.
    intros H1 H2 [H3 H4]. split; [now rewrite <- ref_shift|]. intros [|i] Hi; [split; assumption|].
    rewrite <- ref_shift. apply H4. lia.
  Qed.
  Lemma ref_add b a m : ref (b + a) m = ref b (ref a m).
  Proof. induction b as [|b IH]; [reflexivity|]. cbn [Nat.add TopSpec.ref]. now rewrite IH. Qed.
  Lemma runs_app P m a m1 b m2 : runs P m a m1 -> runs P m1 b m2 -> runs P m (a + b) m2.
  Proof.
    intros [<- H2] [<- H4]. split.
    - rewrite Nat.add_comm. apply ref_add.
    - intros i Hi. destruct (Nat.lt_ge_cases i a) as [L|L]; [now apply H2|].
      replace i with ((i - a) + a)%nat by lia. rewrite ref_add. apply H4. lia.
  Qed.
  Lemma do_step a s m w : uval 4 m a = w -> w <> ebreak ->
    let f := exec w a s m in
    ref_step (Mach a s m) = Mach (f_pc f) (f_arch f) (f_mem f) /\ ref_halt (Mach a s m) = f_halt f.
  Proof.
    intros H N. unfold TopSpec.ref_step, TopSpec.ref_halt, word_at. cbn [m_mem m_pc m_arch]. rewrite load32_uval, H.
    apply Z.eqb_neq in N. rewrite N. split; reflexivity.
  Qed.
End Runs.

Section Frame.
  Context {S : Type}.
  Notation arch := (arch (C := core S)).
  Definition changes (i : Z) : Prop := 10 <= i <= 14.
  (** Registers the loop does not change. *)
  Definition frame (s s' : arch) : Prop :=
    keeps s s' /\ (forall i, i < 64 -> ~ changes i -> a_regs s' i = a_regs s i) /\ vsame s s' (fun r => r < 12).
  Lemma keeps_trans (a b c : arch) : keeps a b -> keeps b c -> keeps a c.
  Proof. unfold keeps. intuition congruence. Qed.
  Lemma frame_trans a b c : frame a b -> frame b c -> frame a c.
  Proof.
    intros (K1 & X1 & V1) (K2 & X2 & V2). split; [exact (keeps_trans a b c K1 K2)|]. split.
    - intros i Hi N. rewrite X2 by assumption. now apply X1.
    - intros r j Hj N Hjj. rewrite V2 by assumption. now apply V1.
  Qed.
  Lemma frame_of s s' x (P : Z -> Prop) : keeps s s' -> xsame s s' x -> changes x -> vsame s s' P -> (forall r, P r -> r < 12) -> frame s s'.
  Proof.
    intros K X Cx V HP. split; [exact K|]. split.
    - intros i Hi N. apply X; [exact Hi|]. intros ->. now apply N.
    - intros r j Hj N Hjj. apply V; auto.
  Qed.
End Frame.

Section Kernel.
  Context {S : Type}.
  Notation arch := (arch (C := core S)).
  Variable d : decoder.
  Variable zbb : Z -> option act.
  Variable sys : act -> Z -> arch -> (Z -> Z) -> arch * (Z -> Z) * Z * option Z.
  Variable junk : Z -> Z -> vbytes.
  Variable ljunk : Z -> Z.
  Notation exec := (exec1 d zbb sys junk ljunk).
  Variables (k op p : Z) (e : entry) (o : elop) (T : ity).
  Hypothesis Hd : decoder_ok d.
  Hypothesis Hk : 0 <= k <= 2.
  Hypothesis Hp : parse d op = Some e.
  Hypothesis Hm : meaning (e_name e) = Some (SmVec (VEl o T) false true).
  Hypothesis HT : bits T = 8 * 2 ^ k.
  Hypothesis Hr : ~ reads_dest o.
  Hypothesis Hf : f_vd op = 8 /\ f_vs1 op = 0 /\ f_vs2 op = 4.
  Hypothesis Hpp : 0 <= p /\ p + 32 <= top_address.
  (** Memory as it was, and the bytes that may change. *)
  Variable mem0 : Z -> Z.
  Variables R W : Z -> Prop.
  Hypothesis Hcode : placed mem0 p (kernel k op).
  Hypothesis HW : forall A, p <= A < p + 32 -> ~ W A.
  (** Where the loop's data is: the next load reads [R], the store writes [W]. *)
  Definition strips (x : Z) (P : Z -> Prop) (s : arch) : Prop := forall A, a_regs s x mod 2 ^ 31 <= A < a_regs s x mod 2 ^ 31 + a_regs s 13 * 2 ^ k -> P A.
  Definition data (i : Z) (s : arch) : Prop :=
    a_regs s 0 = 0 /\ (i = 1 -> strips 10 R s) /\ (i = 2 -> strips 11 R s) /\ (i = 4 -> strips 14 W s) /\
    (i = 1 \/ i = 2 \/ i = 4 -> 0 <= a_regs s 13 <= 4 * nlanes (lane_ty k)).
  Definition inside (st : mach (C := core S)) : Prop :=
    (exists i, 0 <= i < 8 /\ m_pc st = p + 4 * i /\ data i (m_arch st)) /\ forall A, ~ W A -> m_mem st A = mem0 A.

  Lemma fetch i w m : (forall A, ~ W A -> m A = mem0 A) -> nth_error (kernel k op) i = Some w -> uval 4 m (p + 4 * Z.of_nat i) = w.
  Proof.
    intros H Hi. assert (L : (i < 8)%nat) by (change 8%nat with (List.length (kernel k op)); apply nth_error_Some; congruence).
    rewrite <- (Hcode i w Hi). apply uval_ext. intros j Hj. apply H, HW. lia.
  Qed.
  Lemma not_ebreak w : In w (kernel k op) -> w <> ebreak.
  Proof.
    intros Hi ->. unfold kernel, ebreak in Hi. cbn [In] in Hi. destruct Hf as (F & _).
    repeat (destruct Hi as [Hi|Hi]); try lia. unfold f_vd in F. rewrite Hi in F. vm_compute in F. discriminate.
  Qed.
  Lemma one i w m s : data (Z.of_nat i) s -> (forall A, ~ W A -> m A = mem0 A) -> nth_error (kernel k op) i = Some w ->
    let a := p + 4 * Z.of_nat i in let f := exec w a s m in
    inside (Mach a s m) /\ ref_step exec (Mach a s m) = Mach (f_pc f) (f_arch f) (f_mem f) /\ ref_halt exec (Mach a s m) = f_halt f /\
    next a = p + 4 * (Z.of_nat i + 1).
  Proof.
    intros HD H Hi a f. assert (L : (i < 8)%nat) by (change 8%nat with (List.length (kernel k op)); apply nth_error_Some; congruence).
    split; [split; [exists (Z.of_nat i); split; [lia|]; split; [reflexivity|exact HD]|exact H]|].
    destruct (do_step exec a s m w (fetch i w m H Hi)) as [E1 E2]; [apply not_ebreak; eapply nth_error_In; eassumption|].
    split; [exact E1|]. split; [exact E2|]. unfold next, u32, a. unfold top_address in Hpp. rewrite Z.mod_small by lia. lia.
  Qed.

  Definition cap : Z := 4 * nlanes (lane_ty k).
  Definition strip (n : Z) : Z := Z.min cap n.
  Lemma lane_spec_old a b c x y : lane_spec o T a x y c -> lane_spec o T b x y c.
  Proof. clear - Hr. destruct o; cbn [reads_dest] in Hr; try (now destruct Hr); exact (fun h => h). Qed.
  Lemma lane_pre_0 : lane_pre o T 0 0.
  Proof. clear. destruct o; cbn [lane_pre]; try exact I. intros (_ & H & _). now apply H. Qed.
  Lemma trunc_0 U : trunc U 0 = 0.
  Proof. now destruct U. Qed.

  Lemma quiet i (s : arch) : a_regs s 0 = 0 -> ~ (i = 1 \/ i = 2 \/ i = 4) -> data i s.
  Proof. intros H N. split; [exact H|]. repeat (split; [intros ->; exfalso; apply N; auto|]). intros K. now destruct N. Qed.
  Lemma data_at i (s : arch) x (P : Z -> Prop) A vl : a_regs s 0 = 0 -> a_regs s x mod 2 ^ 31 = A -> a_regs s 13 = vl -> 0 <= vl <= cap ->
    (forall y, A <= y < A + vl * 2 ^ k -> P y) -> (i = 1 /\ x = 10 /\ P = R) \/ (i = 2 /\ x = 11 /\ P = R) \/ (i = 4 /\ x = 14 /\ P = W) -> data i s.
  Proof.
    intros H0 H1 H2 Hv H D. assert (St : strips x P s) by (intros y Hy; rewrite H1, H2 in Hy; now apply H). rewrite <- H2 in Hv.
    destruct D as [(-> & -> & ->)|[(-> & -> & ->)|(-> & -> & ->)]]; (split; [exact H0|]); repeat (split; [intros E; (discriminate E || exact St)|]); intros _; exact Hv.
  Qed.
  Lemma iteration s m n A B O :
    let vl := strip n in
    (forall x, ~ W x -> m x = mem0 x) ->
    a_regs s 0 = 0 -> a_regs s 12 = n -> 0 <= n < 2 ^ 32 ->
    a_regs s 10 mod 2 ^ 31 = A -> a_regs s 11 mod 2 ^ 31 = B -> a_regs s 14 mod 2 ^ 31 = O ->
    A + vl * 2 ^ k <= top_address -> B + vl * 2 ^ k <= top_address -> O + vl * 2 ^ k <= top_address ->
    (forall x, O <= x < O + vl * 2 ^ k -> W x) -> (forall x, A <= x < A + vl * 2 ^ k -> R x) -> (forall x, B <= x < B + vl * 2 ^ k -> R x) ->
    (forall i, 0 <= i < vl -> lane_pre o T (elem T m A i) (elem T m B i)) ->
    exists s' m', runs exec inside (Mach p s m) 7 (Mach (if n - vl =? 0 then p + 28 else p) s' m') /\
      frame s s' /\ a_regs s' 10 = A + vl * 2 ^ k /\ a_regs s' 11 = B + vl * 2 ^ k /\ a_regs s' 14 = O + vl * 2 ^ k /\
      a_regs s' 12 = n - vl /\ a_regs s' 13 = vl /\
      (forall x, ~ (O <= x < O + vl * 2 ^ k) -> m' x = m x) /\
      (forall i old, 0 <= i < vl -> lane_spec o T old (elem T m A i) (elem T m B i) (elem (dst_ty o T) m' O i)).
  Proof.
    intros vl HM H0 H12 Hn HA HB HO LA LB LO HWO HRA HRB HL.
    destruct (lane_ty_facts k Hk) as (Hs & Lb & Bi & Nl & Pk). destruct Hf as (Fd & F1 & F2).
    assert (Hc : 0 < cap <= 128) by (unfold cap; nia).
    assert (Hv : 0 <= vl <= cap) by (unfold vl, strip; lia).
    (* getvl *)
    destruct (one 0 _ m s (quiet 0 s H0 ltac:(lia)) HM eq_refl) as (I0 & R0 & T0 & N0). cbn [Z.of_nat] in I0, R0, T0, N0. rewrite Z.mul_0_r, Z.add_0_r in I0, R0, T0, N0.
    destruct (step_getvl d zbb sys junk ljunk Hd k p s m Hk) as (E1 & E2 & E3 & E4 & E5 & E6 & E7).
    set (f := exec (0x180606f7 + k * 2 ^ 25) p s m) in *. rewrite E1, E2, N0 in R0. rewrite E3 in T0.
    assert (G1 : frame s (f_arch f)) by (apply (frame_of s _ 13 (fun _ => False)); [assumption..|unfold changes; lia|assumption|intros r []]).
    rewrite H12, Z.mod_small in E6 by lia. fold cap in E6. change (Z.min cap n) with vl in E6.
    pose proof (E5 0 ltac:(lia) ltac:(lia)) as X0. pose proof (E5 10 ltac:(lia) ltac:(lia)) as X10. pose proof (E5 11 ltac:(lia) ltac:(lia)) as X11.
    pose proof (E5 12 ltac:(lia) ltac:(lia)) as X12. pose proof (E5 14 ltac:(lia) ltac:(lia)) as X14.
    rewrite H0 in X0. rewrite H12 in X12. rewrite <- X10 in HA. rewrite <- X11 in HB. rewrite <- X14 in HO. clear X10 X11 X14.
    set (s1 := f_arch f) in *. clearbody s1. clear f E1 E2 E3 E4 E5 E7 N0 H0 H12. change (0 + 1) with 1 in R0.
    (* vld v0 *)
    destruct (one 1 _ m s1 (data_at 1 s1 10 R A vl X0 HA E6 Hv HRA (or_introl (conj eq_refl (conj eq_refl eq_refl)))) HM eq_refl) as (I1 & R1 & T1 & N1). change (Z.of_nat 1) with 1 in I1, R1, T1, N1.
    destruct (step_load d zbb sys junk ljunk Hd k 0x14d5003f 0 10 A vl (p + 4 * 1) s1 m Hk) as (E1 & E2 & E3 & E4 & E5 & E8 & E7 & LD0); [left; reflexivity|assumption..|].
    set (f := exec (0x14d5003f + k * 2 ^ 12) (p + 4 * 1) s1 m) in *. rewrite E1, E2, N1 in R1. rewrite E3 in T1.
    assert (G2 : frame s1 (f_arch f)) by (apply (frame_of s1 _ 10 (fun r => 0 <= r < 0 + 4)); [assumption..|unfold changes; lia|assumption|intros r ?; lia]).
    pose proof (E5 0 ltac:(lia) ltac:(lia)) as Y0. pose proof (E5 13 ltac:(lia) ltac:(lia)) as Y13. pose proof (E5 11 ltac:(lia) ltac:(lia)) as Y11.
    pose proof (E5 12 ltac:(lia) ltac:(lia)) as Y12. pose proof (E5 14 ltac:(lia) ltac:(lia)) as Y14.
    rewrite X0 in Y0. rewrite X12 in Y12. rewrite E6 in Y13. rewrite <- Y11 in HB. rewrite <- Y14 in HO. clear Y11 Y14 X0 X12 E6 HA.
    set (s2 := f_arch f) in *. clearbody s2. clear f E1 E2 E3 E4 E5 E7 N1. change (1 + 1) with 2 in R1.
    (* vld v4 *)
    destruct (one 2 _ m s2 (data_at 2 s2 11 R B vl Y0 HB Y13 Hv HRB (or_intror (or_introl (conj eq_refl (conj eq_refl eq_refl))))) HM eq_refl) as (I2 & R2 & T2 & N2). change (Z.of_nat 2) with 2 in I2, R2, T2, N2.
    destruct (step_load d zbb sys junk ljunk Hd k 0x14d5813f 4 11 B vl (p + 4 * 2) s2 m Hk) as (E1 & E2 & E3 & E4 & E5 & E9 & E7 & LD4); [right; left; reflexivity|assumption..|].
    set (f := exec (0x14d5813f + k * 2 ^ 12) (p + 4 * 2) s2 m) in *. rewrite E1, E2, N2 in R2. rewrite E3 in T2.
    assert (G3 : frame s2 (f_arch f)) by (apply (frame_of s2 _ 11 (fun r => 4 <= r < 4 + 4)); [assumption..|unfold changes; lia|assumption|intros r ?; lia]).
    pose proof (E5 0 ltac:(lia) ltac:(lia)) as Z0. pose proof (E5 13 ltac:(lia) ltac:(lia)) as Z13. pose proof (E5 10 ltac:(lia) ltac:(lia)) as Z10.
    pose proof (E5 12 ltac:(lia) ltac:(lia)) as Z12. pose proof (E5 14 ltac:(lia) ltac:(lia)) as Z14.
    rewrite Y0 in Z0. rewrite Y12 in Z12. rewrite Y13 in Z13. rewrite E8 in Z10. rewrite <- Z14 in HO. clear Z14 Y0 Y12 Y13 E8 HB.
    assert (LD0' : forall g j, 0 <= g < 4 -> 0 <= j < nlanes (lane_ty k) ->
      lane (lane_ty k) (vbyte (f_arch f) (0 + g)) j = let i := g * nlanes (lane_ty k) + j in if i <? vl then elem (lane_ty k) m A i else 0).
    { intros g j Hg Hj. rewrite <- LD0 by assumption. apply lane_ext; [exact Hs|exact Hj|]. intros i Hi. apply E7; lia. }
    clear LD0. rename LD0' into LD0.
    set (s3 := f_arch f) in *. clearbody s3. clear f E1 E2 E3 E4 E5 E7 N2. change (2 + 1) with 3 in R2.
    (* the operation *)
    destruct (one 3 op m s3 (quiet 3 s3 Z0 ltac:(lia)) HM eq_refl) as (I3 & R3 & T3 & N3). change (Z.of_nat 3) with 3 in I3, R3, T3, N3.
    assert (NT : nlanes T = nlanes (lane_ty k)) by (unfold nlanes; now rewrite HT, Bi).
    pose proof (parse_sound d op e Hd Hp) as Henc. pose proof (sem_of e _ (proj1 Henc) Hm (fun f => f)) as Es.
    destruct (vec_fields e op _ _ _ Henc Es) as [Wm Wf]. specialize (Wf I).
    assert (Wf' : w_form op =? 2 = false) by (apply Z.eqb_neq; intros h; apply (proj2 Wf) in h; discriminate).
    assert (CL : forall (M : Z) c, (forall g j, 0 <= g < 4 -> 0 <= j < nlanes (lane_ty k) ->
        lane (lane_ty k) (vbyte s3 (c + g)) j = let i := g * nlanes (lane_ty k) + j in if i <? vl then elem (lane_ty k) m M i else 0) ->
      forall g j, 0 <= g < 4 -> 0 <= j < nlanes T -> lane T (vbyte s3 (c + g)) j = if g * nlanes T + j <? vl then elem T m M (g * nlanes T + j) else 0).
    { intros M c H g j Hg Hj. rewrite NT in *. rewrite (lane_cast T (lane_ty k)) by congruence. rewrite H by assumption. cbv zeta.
      destruct (_ <? _); [symmetry; apply elem_cast; congruence|apply trunc_0]. }
    pose proof (CL A 0 LD0) as L0. pose proof (CL B 4 LD4) as L4. clear CL LD0 LD4.
    destruct (mach_elementwise d zbb sys junk ljunk op e (p + 4 * 3) s3 m o T false true Hd Hp Hm Z0) as (E1 & E2 & E3 & E4 & E5 & E7 & LE).
    { rewrite <- Wm, Fd, F1. unfold no_hazard. lia. }
    { intros _. rewrite <- Wm, Fd, F2. unfold no_hazard. lia. }
    { rewrite <- Wm, F1, F2, Wf'. intros g j Hg Hj. rewrite L0, L4 by assumption. assert (0 <= g * nlanes T) by (apply Z.mul_nonneg_nonneg; lia).
      destruct (_ <? vl) eqn:E; [apply HL; lia|exact lane_pre_0]. }
    rewrite <- Wm, Fd in E7. rewrite <- Wm, Fd, F1, F2, Wf' in LE.
    set (f := exec op (p + 4 * 3) s3 m) in *. rewrite E1, E2, N3 in R3. rewrite E3 in T3.
    assert (G4 : frame s3 (f_arch f)).
    { apply (frame_of s3 _ 10 (fun r => 8 <= r < 8 + 4)); [assumption| |unfold changes; lia| |intros r ?; lia].
      - intros i Hi _. now apply E5.
      - intros r j Hj N Hjj. now apply E7. }
    assert (LE' : forall g j old, 0 <= g < 4 -> 0 <= j < nlanes T -> g * nlanes T + j < vl ->
      lane_spec o T old (elem T m A (g * nlanes T + j)) (elem T m B (g * nlanes T + j)) (lane (dst_ty o T) (vbyte (f_arch f) (8 + g)) j)).
    { intros g j old Hg Hj Hi. specialize (LE g j Hg Hj). rewrite L0, L4 in LE by assumption. replace (_ <? vl) with true in LE by lia.
      exact (lane_spec_old _ old _ _ _ LE). }
    pose proof (E5 0 ltac:(lia)) as U0. pose proof (E5 13 ltac:(lia)) as U13. pose proof (E5 10 ltac:(lia)) as U10. pose proof (E5 11 ltac:(lia)) as U11.
    pose proof (E5 12 ltac:(lia)) as U12. pose proof (E5 14 ltac:(lia)) as U14.
    rewrite Z0 in U0. rewrite Z12 in U12. rewrite Z13 in U13. rewrite Z10 in U10. rewrite E9 in U11. rewrite <- U14 in HO. clear U14 Z0 Z12 Z13 Z10 E9 LE L0 L4.
    set (s4 := f_arch f) in *. clearbody s4. clear f E1 E2 E3 E4 E5 E7 N3. change (3 + 1) with 4 in R3.
    (* vst *)
    destruct (one 4 _ m s4 (data_at 4 s4 14 W O vl U0 HO U13 Hv HWO (or_intror (or_intror (conj eq_refl (conj eq_refl eq_refl))))) HM eq_refl) as (I4 & R4 & T4 & N4). change (Z.of_nat 4) with 4 in I4, R4, T4, N4.
    destruct (step_store d zbb sys junk ljunk Hd k O vl (p + 4 * 4) s4 m Hk) as (E2 & E3 & E4 & E5 & E8 & E7 & EO & ES); [assumption..|].
    set (f := exec (0x34d7023f + k * 2 ^ 12) (p + 4 * 4) s4 m) in *. rewrite E2, N4 in R4. rewrite E3 in T4.
    assert (G5 : frame s4 (f_arch f)) by (apply (frame_of s4 _ 14 (fun _ => False)); [assumption..|unfold changes; lia|assumption|intros r []]).
    pose proof (E5 0 ltac:(lia) ltac:(lia)) as V0. pose proof (E5 13 ltac:(lia) ltac:(lia)) as V13. pose proof (E5 10 ltac:(lia) ltac:(lia)) as V10.
    pose proof (E5 12 ltac:(lia) ltac:(lia)) as V12. pose proof (E5 11 ltac:(lia) ltac:(lia)) as V11.
    rewrite U0 in V0. rewrite U12 in V12. rewrite U13 in V13. rewrite U10 in V10. rewrite U11 in V11. clear U0 U12 U13 U10 U11 HO.
    assert (LS : forall i old, 0 <= i < vl -> lane_spec o T old (elem T m A i) (elem T m B i) (elem (dst_ty o T) (f_mem f) O i)).
    { intros i old Hi. assert (Pn : 0 < nlanes T) by (rewrite NT; nia). pose proof (Z_div_mod_eq_full i (nlanes T)) as D.
      pose proof (Z.mod_pos_bound i (nlanes T) Pn) as M. set (g := i / nlanes T) in *. set (j := i mod nlanes T) in *. clearbody g j.
      assert (Hg : 0 <= g < 4) by (rewrite NT in *; unfold cap in Hv; nia).
      assert (Ei : i = g * nlanes T + j) by lia. clear D.
      replace (elem (dst_ty o T) (f_mem f) O i) with (lane (dst_ty o T) (vbyte s4 (8 + g)) j); [rewrite Ei; apply LE'; lia|].
      assert (LD : lanebytes (dst_ty o T) = 2 ^ k).
      { unfold lanebytes. replace (bits (dst_ty o T)) with (bits T) by (clear; now destruct o, T). rewrite HT. rewrite Z.mul_comm. apply Z.div_mul. lia. }
      unfold lane, elem. fold (lanebytes (dst_ty o T)). apply f_equal. apply uval_ext. intros t Ht. rewrite LD in *. symmetry. rewrite Ei, NT. apply ES; rewrite <- ?NT; lia. }
    set (s5 := f_arch f) in *. set (m5 := f_mem f) in *. clearbody s5 m5. clear f E2 E3 E4 E5 E7 N4 ES LE'. change (4 + 1) with 5 in R4.
    assert (HM5 : forall x, ~ W x -> m5 x = mem0 x). { intros x Hx. rewrite EO; [now apply HM|]. intros h. now apply Hx, HWO. }
    (* sub *)
    destruct (one 5 _ m5 s5 (quiet 5 s5 V0 ltac:(lia)) HM5 eq_refl) as (I5 & R5 & T5 & N5). change (Z.of_nat 5) with 5 in I5, R5, T5, N5.
    destruct (step_sub d zbb sys junk ljunk Hd (p + 4 * 5) s5 m5) as (E1 & E2 & E3 & E4 & E5 & E6 & E7).
    set (f := exec 0x40d60633 (p + 4 * 5) s5 m5) in *. rewrite E1, E2, N5 in R5. rewrite E3 in T5.
    assert (G6 : frame s5 (f_arch f)) by (apply (frame_of s5 _ 12 (fun _ => False)); [assumption..|unfold changes; lia|assumption|intros r []]).
    pose proof (E5 13 ltac:(lia) ltac:(lia)) as W13. pose proof (E5 0 ltac:(lia) ltac:(lia)) as W0. rewrite V0 in W0. pose proof (E5 10 ltac:(lia) ltac:(lia)) as W10.
    pose proof (E5 14 ltac:(lia) ltac:(lia)) as W14. pose proof (E5 11 ltac:(lia) ltac:(lia)) as W11.
    rewrite V13 in W13. rewrite V10 in W10. rewrite V11 in W11. rewrite E8 in W14.
    assert (VN : vl <= n) by (unfold vl, strip; lia).
    rewrite V12, V13, (Z.mod_small n), (Z.mod_small vl), Z.mod_small in E6 by lia. clear V0 V12 V13 V10 V11 E8.
    set (s6 := f_arch f) in *. clearbody s6. clear f E1 E2 E3 E4 E5 E7 N5. change (5 + 1) with 6 in R5.
    (* bne *)
    destruct (one 6 _ m5 s6 (quiet 6 s6 W0 ltac:(lia)) HM5 eq_refl) as (I6 & R6 & T6 & N6). change (Z.of_nat 6) with 6 in I6, R6, T6, N6.
    destruct (step_bne d zbb sys junk ljunk Hd (p + 4 * 6) s6 m5) as (E1 & E2 & E3 & E4 & E5).
    set (f := exec 0xfe0614e3 (p + 4 * 6) s6 m5) in *. rewrite E6, Z.mod_small, N6 in E2 by lia.
    replace ((p + 4 * 6 + (2 ^ 32 - 24)) mod 2 ^ 32) with p in E2.
    2:{ replace (p + 4 * 6 + (2 ^ 32 - 24)) with (p + 1 * 2 ^ 32) by lia. rewrite Z_mod_plus_full. symmetry. apply Z.mod_small. unfold top_address in Hpp. lia. }
    rewrite E1, E2 in R6. rewrite E3 in T6.
    assert (G7 : frame s6 (f_arch f)).
    { split; [exact E4|]. split; [intros i _ _; now rewrite E5|]. intros r j _ _ _. unfold vbyte. now rewrite E5. }
    exists (f_arch f), m5. split.
    { apply runs_1; [exact I0|exact T0|]. rewrite R0. apply runs_1; [exact I1|exact T1|]. rewrite R1.
      apply runs_1; [exact I2|exact T2|]. rewrite R2. apply runs_1; [exact I3|exact T3|]. rewrite R3.
      apply runs_1; [exact I4|exact T4|]. rewrite R4. apply runs_1; [exact I5|exact T5|]. rewrite R5.
      apply runs_1; [exact I6|exact T6|]. rewrite R6. replace (p + 4 * (6 + 1)) with (p + 28) by lia. apply runs_0. }
    rewrite E5. split.
    { do 6 (eapply frame_trans; [eassumption|]). exact G7. }
    auto 10.
  Qed.
End Kernel.

Section Loop.
  Context {S : Type}.
  Notation arch := (arch (C := core S)).
  Variable d : decoder.
  Variable zbb : Z -> option act.
  Variable sys : act -> Z -> arch -> (Z -> Z) -> arch * (Z -> Z) * Z * option Z.
  Variable junk : Z -> Z -> vbytes.
  Variable ljunk : Z -> Z.
  Notation exec := (exec1 d zbb sys junk ljunk).
  Variables (k op p : Z) (e : entry) (o : elop) (T : ity).
  Hypothesis Hd : decoder_ok d.
  Hypothesis Hk : 0 <= k <= 2.
  Hypothesis Hp : parse d op = Some e.
  Hypothesis Hm : meaning (e_name e) = Some (SmVec (VEl o T) false true).
  Hypothesis HT : bits T = 8 * 2 ^ k.
  Hypothesis Hr : ~ reads_dest o.
  Hypothesis Hf : f_vd op = 8 /\ f_vs1 op = 0 /\ f_vs2 op = 4.
  Hypothesis Hpp : 0 <= p /\ p + 32 <= top_address.
  Variables (mem0 : Z -> Z) (n a b out : Z).
  Hypothesis Hcode : placed mem0 p (kernel k op).
  Hypothesis Hn : 0 <= n < 2 ^ 32.
  Hypothesis La : 0 <= a /\ a + n * 2 ^ k <= top_address.
  Hypothesis Lb : 0 <= b /\ b + n * 2 ^ k <= top_address.
  Hypothesis Lo : 0 <= out /\ out + n * 2 ^ k <= top_address.
  Definition window (A : Z) : Prop := out <= A < out + n * 2 ^ k.
  Hypothesis HW : forall A, p <= A < p + 32 -> ~ window A.
  Hypothesis Ha : apart_from out a (n * 2 ^ k).
  Hypothesis Hb : apart_from out b (n * 2 ^ k).
  Hypothesis HL : forall i, 0 <= i < n -> lane_pre o T (elem T mem0 a i) (elem T mem0 b i).
  Definition factors (A : Z) : Prop := a <= A < a + n * 2 ^ k \/ b <= A < b + n * 2 ^ k.
  Notation inside := (inside (S := S) k p mem0 factors window).

  Lemma shifted m dn c i : (forall x, ~ (out <= x < out + dn * 2 ^ k) -> m x = mem0 x) -> 0 <= dn -> 0 <= i -> dn + i < n ->
    apart_from out c (n * 2 ^ k) -> elem T m (c + dn * 2 ^ k) i = elem T mem0 c (dn + i).
  Proof.
    intros H H0 Hi Hlt Hc.
    assert (E : lanebytes T = 2 ^ k) by (unfold lanebytes; rewrite HT, Z.mul_comm; apply Z.div_mul; lia).
    assert (P : 0 < 2 ^ k) by (apply Z.pow_pos_nonneg; lia).
    unfold elem. rewrite E. apply f_equal. apply uval_ext. intros t Ht. rewrite Z2Nat.id in Ht by lia.
    replace (c + (dn + i) * 2 ^ k + t) with (c + dn * 2 ^ k + i * 2 ^ k + t) by ring. apply H.
    unfold apart_from in Hc. clear - Hc Ht H0 Hi Hlt P. set (z := 2 ^ k) in *. clearbody z. nia.
  Qed.

  Lemma loop : forall (r : nat) s m dn,
    let c := cap k in
    (forall x, ~ (out <= x < out + dn * 2 ^ k) -> m x = mem0 x) -> 0 <= dn <= n ->
    Z.of_nat r * c < Z.max 1 (n - dn) <= (Z.of_nat r + 1) * c ->
    a_regs s 0 = 0 -> a_regs s 12 = n - dn ->
    a_regs s 10 mod 2 ^ 31 = a + dn * 2 ^ k -> a_regs s 11 mod 2 ^ 31 = b + dn * 2 ^ k -> a_regs s 14 mod 2 ^ 31 = out + dn * 2 ^ k ->
    exists s' m', runs exec inside (Mach p s m) (7 * (r + 1)) (Mach (p + 28) s' m') /\
      frame s s' /\ a_regs s' 10 = a + n * 2 ^ k /\ a_regs s' 11 = b + n * 2 ^ k /\ a_regs s' 14 = out + n * 2 ^ k /\ a_regs s' 12 = 0 /\
      (forall x, ~ (out + dn * 2 ^ k <= x < out + n * 2 ^ k) -> m' x = m x) /\
      (forall i old, dn <= i < n -> lane_spec o T old (elem T mem0 a i) (elem T mem0 b i) (elem (dst_ty o T) m' out i)).
  Proof.
    destruct (lane_ty_facts k Hk) as (Hs & Lbt & Bi & Nl & Pk).
    assert (Hc : 0 < cap k <= 128) by (unfold cap; nia).
    assert (LD : lanebytes (dst_ty o T) = 2 ^ k).
    { unfold lanebytes. replace (bits (dst_ty o T)) with (bits T) by (clear; now destruct o, T). rewrite HT. rewrite Z.mul_comm. apply Z.div_mul. lia. }
    induction r as [|r IH]; intros s m dn c HM Hdn Hit H0 H12 H10 H11 H14.
    - destruct (iteration d zbb sys junk ljunk k op p e o T Hd Hk Hp Hm HT Hr Hf Hpp mem0 factors window Hcode HW s m (n - dn) (a + dn * 2 ^ k) (b + dn * 2 ^ k) (out + dn * 2 ^ k)) as
        (s' & m' & R & G & X10 & X11 & X14 & X12 & X13 & MO' & LS); [..|exists s', m']; cbv zeta in *.
      + intros x Hx. apply HM. intros h. apply Hx. unfold window. nia.
      + exact H0.
      + exact H12.
      + lia.
      + exact H10.
      + exact H11.
      + exact H14.
      + replace (strip k (n - dn)) with (n - dn) by (unfold strip; fold c; lia). nia.
      + replace (strip k (n - dn)) with (n - dn) by (unfold strip; fold c; lia). nia.
      + replace (strip k (n - dn)) with (n - dn) by (unfold strip; fold c; lia). nia.
      + replace (strip k (n - dn)) with (n - dn) by (unfold strip; fold c; lia). unfold window. intros x Hx. nia.
      + replace (strip k (n - dn)) with (n - dn) by (unfold strip; fold c; lia). unfold factors. intros x Hx. left. nia.
      + replace (strip k (n - dn)) with (n - dn) by (unfold strip; fold c; lia). unfold factors. intros x Hx. right. nia.
      + replace (strip k (n - dn)) with (n - dn) by (unfold strip; fold c; lia). intros i Hi.
        rewrite !shifted by (assumption || lia). apply HL. lia.
      + replace (strip k (n - dn)) with (n - dn) in * by (unfold strip; fold c; lia). rewrite Z.sub_diag in *. change (0 =? 0) with true in R. cbv iota in R.
        split; [exact R|]. split; [exact G|]. split; [rewrite X10; ring|]. split; [rewrite X11; ring|]. split; [rewrite X14; ring|]. split; [exact X12|].
        split; [intros x Hx; apply MO'; intros h; apply Hx; nia|]. intros i old Hi. specialize (LS (i - dn) old ltac:(lia)).
        rewrite !shifted in LS by (assumption || lia). replace (dn + (i - dn)) with i in LS by lia.
        replace (elem (dst_ty o T) m' out i) with (elem (dst_ty o T) m' (out + dn * 2 ^ k) (i - dn)); [exact LS|].
        apply elem_ext. intros t Ht. f_equal. rewrite LD. ring.
    - assert (HR : Z.of_nat (Datatypes.S r) * c = Z.of_nat r * c + c /\ (Z.of_nat (Datatypes.S r) + 1) * c = (Z.of_nat r + 1) * c + c) by (split; rewrite Nat2Z.inj_succ; ring).
      destruct HR as [HR1 HR2]. rewrite HR1, HR2 in Hit. clear HR1 HR2. fold c in Hc.
      assert (HR0 : 0 <= Z.of_nat r * c) by (apply Z.mul_nonneg_nonneg; lia).
      assert (Hlt : dn + c < n) by lia.
      assert (D0 : 0 <= dn * 2 ^ k) by (apply Z.mul_nonneg_nonneg; lia).
      assert (D1 : dn * 2 ^ k + c * 2 ^ k <= n * 2 ^ k) by (rewrite <- Z.mul_add_distr_r; apply Z.mul_le_mono_nonneg_r; lia).
      assert (D2 : 0 <= c * 2 ^ k) by (apply Z.mul_nonneg_nonneg; lia).
      assert (Es : strip k (n - dn) = c) by (unfold strip; fold c; lia).
      destruct (iteration d zbb sys junk ljunk k op p e o T Hd Hk Hp Hm HT Hr Hf Hpp mem0 factors window Hcode HW s m (n - dn) (a + dn * 2 ^ k) (b + dn * 2 ^ k) (out + dn * 2 ^ k)) as
        (s1 & m1 & R & G & X10 & X11 & X14 & X12 & X13 & MO' & LS); rewrite ?Es in *; clear Es.
      + intros x Hx. apply HM. intros h. apply Hx. unfold window. lia.
      + exact H0.
      + exact H12.
      + lia.
      + exact H10.
      + exact H11.
      + exact H14.
      + lia.
      + lia.
      + lia.
      + unfold window. intros x Hx. lia.
      + unfold factors. intros x Hx. left. lia.
      + unfold factors. intros x Hx. right. lia.
      + intros i Hi. rewrite !shifted by (assumption || lia). apply HL. lia.
      + replace (n - dn - c =? 0) with false in R by lia. rewrite <- Z.add_assoc, <- Z.mul_add_distr_r in X10, X11, X14.
        destruct (IH s1 m1 (dn + c)) as (s' & m' & R' & G' & Y10 & Y11 & Y14 & Y12 & MO2 & LS2).
        * intros x Hx. rewrite Z.mul_add_distr_r in Hx. rewrite MO' by lia. apply HM. lia.
        * lia.
        * fold c. lia.
        * destruct G as (_ & GX & _). rewrite GX; [exact H0|lia|unfold changes; lia].
        * rewrite X12. ring.
        * rewrite X10. rewrite Z.mul_add_distr_r. unfold top_address in La. rewrite Z.mod_small; [ring|lia].
        * rewrite X11. rewrite Z.mul_add_distr_r. unfold top_address in Lb. rewrite Z.mod_small; [ring|lia].
        * rewrite X14. rewrite Z.mul_add_distr_r. unfold top_address in Lo. rewrite Z.mod_small; [ring|lia].
        * rewrite Z.mul_add_distr_r in MO2. exists s', m'. split.
          { replace (7 * (Datatypes.S r + 1))%nat with (7 + 7 * (r + 1))%nat by lia. exact (runs_app exec _ _ _ _ _ _ R R'). }
          split; [exact (frame_trans _ _ _ G G')|]. split; [exact Y10|]. split; [exact Y11|]. split; [exact Y14|]. split; [exact Y12|]. split.
          { intros x Hx. rewrite MO2 by lia. apply MO'. lia. }
          intros i old Hi. destruct (Z_lt_dec i (dn + c)) as [L|L]; [|apply LS2; lia].
          specialize (LS (i - dn) old ltac:(lia)).
          rewrite !shifted in LS by (assumption || lia). replace (dn + (i - dn)) with i in LS by lia.
          replace (elem (dst_ty o T) m' out i) with (elem (dst_ty o T) m1 (out + dn * 2 ^ k) (i - dn)); [exact LS|].
          apply elem_ext. intros t Ht. rewrite LD in *. replace (out + i * 2 ^ k + t) with (out + dn * 2 ^ k + (i - dn) * 2 ^ k + t) by ring.
          symmetry. apply MO2. rewrite Z.mul_sub_distr_r. assert (i * 2 ^ k + 2 ^ k <= dn * 2 ^ k + c * 2 ^ k); [|lia].
          replace (i * 2 ^ k + 2 ^ k) with ((i + 1) * 2 ^ k) by ring. rewrite <- Z.mul_add_distr_r. apply Z.mul_le_mono_nonneg_r; lia.
  Qed.

  Theorem kernel_runs s :
    a_regs s 0 = 0 -> a_regs s 12 = n -> a_regs s 10 mod 2 ^ 31 = a -> a_regs s 11 mod 2 ^ 31 = b -> a_regs s 14 mod 2 ^ 31 = out ->
    let steps := Z.to_nat (7 * Z.max 1 ((n * 2 ^ k + 127) / 128) + 1) in
    let m0 := Mach p s mem0 in
    let m' := ref exec steps m0 in
    halts_at exec m0 steps RUserRequest /\
    ((forall i, (i < steps)%nat -> inside (ref exec i m0)) /\ m_pc (ref exec (steps - 1) m0) = p + 28) /\
    m_pc m' = p + 32 /\ frame s (m_arch m') /\
    a_regs (m_arch m') 10 = a + n * 2 ^ k /\ a_regs (m_arch m') 11 = b + n * 2 ^ k /\ a_regs (m_arch m') 14 = out + n * 2 ^ k /\ a_regs (m_arch m') 12 = 0 /\
    (forall x, ~ window x -> m_mem m' x = mem0 x) /\
    (forall i old, 0 <= i < n -> lane_spec o T old (elem T mem0 a i) (elem T mem0 b i) (elem (dst_ty o T) (m_mem m') out i)).
  Proof.
    intros H0 H12 H10 H11 H14 steps m0 m'.
    destruct (lane_ty_facts k Hk) as (Hs & Lbt & Bi & Nl & Pk).
    assert (Hc : 0 < cap k <= 128) by (unfold cap; nia).
    assert (Cz : cap k * 2 ^ k = 128) by (unfold cap; nia).
    set (q := (n * 2 ^ k + 127) / 128) in *.
    assert (Hq : 128 * q <= n * 2 ^ k + 127 < 128 * q + 128).
    { unfold q. pose proof (Z_div_mod_eq_full (n * 2 ^ k + 127) 128). pose proof (Z.mod_pos_bound (n * 2 ^ k + 127) 128). lia. }
    clearbody q.
    destruct (loop (Z.to_nat (Z.max 1 q - 1)) s mem0 0) as (s' & m1 & [R R2] & G & X10 & X11 & X14 & X12 & MO' & LS); rewrite ?Z.mul_0_l, ?Z.add_0_r, ?Z.sub_0_r in *; try assumption.
    { intros x _. reflexivity. } { lia. } { rewrite Z2Nat.id by lia. clear - Hn Pk Hc Cz Hq. set (z := 2 ^ k) in *. set (c := cap k) in *. clearbody z c. nia. }
    set (N := (7 * (Z.to_nat (Z.max 1 q - 1) + 1))%nat) in *.
    assert (ES : steps = Datatypes.S N) by (unfold steps, N; lia). clearbody steps N. subst steps.
    assert (Hq7 : data k factors window (Z.of_nat 7) s').
    { apply quiet; [|clear; lia]. destruct G as (_ & G & _). rewrite G; [exact H0|lia|unfold changes; lia]. }
    assert (Hin : inside (Mach (p + 28) s' m1)).
    { split; [exists 7; split; [lia|]; split; [cbn [m_pc]; lia|exact Hq7]|intros A HA; cbn [m_mem]; now apply MO']. }
    destruct (one d zbb sys junk ljunk k op p Hk Hf Hpp mem0 factors window Hcode HW 7 _ m1 s' Hq7 (proj2 Hin) eq_refl) as (_ & E1 & E2 & E3).
    change (p + 4 * Z.of_nat 7) with (p + 28) in *.
    destruct (step_mpause d zbb sys junk ljunk Hd (p + 28) s' m1) as (F1 & F2 & F3 & F4 & F5).
    set (f := exec 0x08000073 (p + 28) s' m1) in *. fold m0 in R, R2.
    assert (Em : m' = Mach (p + 32) (f_arch f) m1).
    { unfold m'. cbn [ref]. rewrite R, E1, F1, F2, E3. reflexivity. }
    rewrite Em. cbn [m_pc m_arch m_mem]. rewrite F5.
    split.
    { split; [lia|]. split; rewrite Nat.sub_1_r; cbn [Nat.pred].
      - intros i Hi. now apply R2.
      - rewrite R, E2. exact F3. }
    split. { split; [intros i Hi; destruct (Nat.eq_dec i N) as [->|Ne]; [rewrite R; exact Hin|apply R2; lia]|]. rewrite Nat.sub_1_r. cbn [Nat.pred]. rewrite R. reflexivity. }
    split; [reflexivity|]. split.
    { apply (frame_trans _ s'); [exact G|]. split; [exact F4|]. split; [intros i _ _; now rewrite F5|]. intros r j _ _ _. unfold vbyte. now rewrite F5. }
    auto 10.
  Qed.
End Loop.
