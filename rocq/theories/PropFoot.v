(** * The memory an instruction of the V1 core touches: C83 *)
From Coq Require Import ZArith List Bool String Lia ZifyBool ZifyNat.
From Verif Require Import CInt VecModel VecSpec ConvModel MemModel MemSpec LogModel.
From Verif Require Import DecodeTypes DecodeTable DecodeModel DecodeSpec V2DecTypes V2DecModel V2DecSpec V1ScalModel V1ScalSpec.
From Verif Require Import TopModel TopSpec CliSpec RvSpec MachModel MachSpec FootSpec.
From Verif Require FootProofs2 FootProofs3 TopProofs4 TopCor PropMach PropDecode MachProofs3.
Import ListNotations.
Open Scope string_scope.
Open Scope list_scope.
Open Scope Z_scope.

Section Foot.
  Context {S : Type}.
  Notation arch := (arch (C := core S)).
  Variable d : decoder.
  Variable zbb : Z -> option act.
  Variable sys : act -> Z -> arch -> (Z -> Z) -> arch * (Z -> Z) * Z * option Z.
  Variable junk : Z -> Z -> vbytes.
  Variable ljunk : Z -> Z.
  Notation exec := (exec1 d zbb sys junk ljunk).

  (** C83. Whatever the word, only the bytes it stores to change. *)
  Theorem C83_writes w a (s : arch) m x : decoder_ok d -> sys_quiet sys -> zbb_quiet zbb -> a_regs s 0 = 0 ->
    (forall e, parse d w = Some e -> ~ stores_to (e_name e) w s x) -> f_mem (exec w a s m) x = m x.
  Proof.
    intros Hd Hs Hz H0 H. apply (proj2 (FootProofs3.foot_writes d zbb sys junk ljunk Hd Hs Hz w a s m H0)). intros (e & E & K). exact (H e E K).
  Qed.
  (** C83. Nothing but the bytes it loads from has a say in what it does: registers,
      pc, halt, and every byte it changes. *)
  Theorem C83_reads w a (s : arch) m m' : decoder_ok d -> sys_quiet sys -> zbb_quiet zbb -> a_regs s 0 = 0 ->
    (forall e, parse d w = Some e -> In (e_name e) ["flog"; "klog"] -> bytes_ok m) ->
    (forall e x, parse d w = Some e -> loads_from (e_name e) w s m x -> m' x = m x) ->
    let f := exec w a s m in let f' := exec w a s m' in
    f_arch f' = f_arch f /\ f_pc f' = f_pc f /\ f_halt f' = f_halt f /\
    forall x, f_mem f' x = f_mem f x \/ (f_mem f' x = m' x /\ f_mem f x = m x).
  Proof. intros Hd Hs Hz H0 Hm H. exact (FootProofs3.foot_reads d zbb sys junk ljunk Hd Hs Hz w a s m m' H0 Hm H). Qed.
  (** C83. So an instruction that does not use the code as data meets the condition
      of the theorems about breakpoints, stepping and tracing (C33-C35, C82). *)
  Theorem C83_clean code (m : mach (C := core S)) : decoder_ok d -> sys_quiet sys -> zbb_quiet zbb ->
    leaves_code d code m -> clean exec code m.
  Proof. intros Hd Hs Hz. exact (FootProofs3.foot_clean d zbb sys junk ljunk Hd Hs Hz code m). Qed.

  (** C83. A program on this core that does not use its code as data, debugged with
      breakpoints: after any allowed calls the simulator shows a state of the
      program run without breakpoints. *)
  Theorem C83_debugged evicted reg_id reg_size csr_id csr_get csr_set code (m0 : mach (C := core S)) h s :
    decoder_ok d -> sys_quiet sys -> zbb_quiet zbb -> bytes_ok (m_mem m0) -> 0 <= m_pc m0 < 2 ^ 32 ->
    history exec evicted reg_id reg_size csr_id csr_get csr_set (allowed code m0) (fresh (m_arch m0) (m_mem m0) (m_pc m0)) h s ->
    (forall h1 h2 k m, h = h1 ++ h2 -> follows exec reg_id reg_size csr_id csr_set m0 h1 k m -> Z.of_nat k < t_insts s -> leaves_code d code m) ->
    exists k m, follows exec reg_id reg_size csr_id csr_set m0 h k m /\ Z.of_nat k <= t_insts s /\ shows s m /\ t_status s = Halted.
  Proof.
    intros Hd Hs Hz HB HP HH HL. apply (TopCor.transparent exec evicted reg_id reg_size csr_id csr_get csr_set code m0 HB HP h s HH).
    intros h1 h2 k m E F K. apply C83_clean; [exact Hd|exact Hs|exact Hz|exact (HL h1 h2 k m E F K)].
  Qed.
End Foot.
Print Assumptions C83_writes.
Print Assumptions C83_reads.
Print Assumptions C83_clean.
Print Assumptions C83_debugged.

(** ** Cases *)
Import PropMach.
Lemma m_sys_quiet : sys_quiet m_sys.
Proof. intros c a s m m'. cbn [m_sys]. split; [reflexivity|]. split; [reflexivity|]. split; [reflexivity|]. split; [apply Z.mod_pos_bound; reflexivity|reflexivity]. Qed.
Lemma no_zbb : zbb_quiet (fun _ => None).
Proof. intros w c H. discriminate H. Qed.

(** vst.w.lp.xx.m of five words at 50 changes no byte from 70 on. *)
Definition vst_regs : arch (C := core unit) := m_arch0 [(13, 5); (14, 2 ^ 31 + 50)].
Definition vstw : Z := 0x34d7223f.
Example C83_writes_case :
  (exists e, parse first_match vstw = Some e /\ e_name e = "vst_w_lp_xx_m") /\ a_regs vst_regs 0 = 0 /\
  stores_to "vst_w_lp_xx_m" vstw vst_regs 69 /\ (forall x, 70 <= x -> ~ stores_to "vst_w_lp_xx_m" vstw vst_regs x) /\
  map (f_mem (m_exec vstw 8 vst_regs m_bytes)) [69; 70] = [59; m_bytes 70] /\ m_bytes 69 <> 59.
Proof.
  assert (M : meaning "vst_w_lp_xx_m" = Some (SmSt I32 true false true)) by (vm_compute; reflexivity).
  assert (N : nsel I32 (operands vstw "vst_w_lp_xx_m" vst_regs true false false) = 5) by (vm_compute; reflexivity).
  split; [eexists; split; vm_compute; reflexivity|]. split; [reflexivity|]. split; [|split; [|split; [vm_compute; reflexivity|vm_compute; discriminate]]].
  - right. left. exists I32, true, false, true. split; [exact M|]. exists 4. split; [rewrite N; lia|]. split; [vm_compute; discriminate|vm_compute; reflexivity].
  - intros x Hx [(T & i & L & _)|[(T & len & stride & st & E & K)|(T & st & E & _)]].
    + vm_compute in L. discriminate L.
    + rewrite M in E. injection E as <- <- <- <-. destruct K as (e & He & K). rewrite N in He.
      assert (D : e = 0 \/ e = 1 \/ e = 2 \/ e = 3 \/ e = 4) by (clear - He; lia). clear He. unfold covers in K.
      destruct D as [->|[->|[->|[->| ->]]]]; destruct K as [_ K];
        match type of K with _ < ?y => let v := eval vm_compute in y in change y with v in K end; lia.
    + rewrite M in E. discriminate E.
Qed.
(** klog of "hi" at 300 reads the word there and nothing behind it. *)
Definition hi_mem (z : Z) (x : Z) : Z := nth (Z.to_nat (x - 300)) [104; 105; 0; 7; z] z.
Example C83_reads_case :
  let s := m_arch0 [(6, 300)] in let w := 0x78033077 in
  (exists e, parse first_match w = Some e /\ e_name e = "klog") /\ bytes_ok (hi_mem 1) /\
  (forall x, loads_from "klog" w s (hi_mem 1) x -> hi_mem 2 x = hi_mem 1 x) /\
  k_log (a_csr (f_arch (m_exec w 8 s (hi_mem 1)))) = k_log (a_csr (f_arch (m_exec w 8 s (hi_mem 2)))) /\ hi_mem 2 304 <> hi_mem 1 304.
Proof.
  cbv zeta. split; [eexists; split; vm_compute; reflexivity|]. split.
  { intros x. unfold hi_mem. generalize (Z.to_nat (x - 300)). intros n. do 5 (destruct n as [|n]; [cbn; lia|]). cbn. destruct n; lia. }
  split; [|split; [vm_compute; reflexivity|vm_compute; discriminate]].
  intros x [(T & i & L & _)|[(_ & K)|(T & len & stride & st & Tw & stw & M & _)]]; [vm_compute in L; discriminate L| |vm_compute in M; discriminate M].
  destruct K as (k & Hk & K). cbv zeta in K. replace (reg_at (a_regs (m_arch0 [(6, 300)])) 0x78033077 15) with 300 in K by (vm_compute; reflexivity).
  destruct K as (_ & K1 & K2). destruct (Z.eq_dec k 0) as [->|Nk].
  - change ((300 + 4 * 0) mod 2 ^ 32) with 300 in K1. assert (D : x = 300 \/ x = 301 \/ x = 302 \/ x = 303) by lia. destruct D as [->|[->|[->| ->]]]; reflexivity.
  - destruct (K2 0 ltac:(lia)) as [[_ B]|[_ B]]; [vm_compute in B; now destruct B|]. exfalso. now apply (B 2 ltac:(lia)).
Qed.

(** A loop that counts in memory: sw x5, 0x100(x0); addi x5, x5, 1; jal x0, -8. *)
Definition loop_words : list Z := [0x10502023; 0x128293; 0xff9ff06f].
Definition loop_code (x : Z) : Prop := 0 <= x < 12.
Definition loop_mem : Z -> Z := words_at 0 loop_words m_bytes.
Definition loop_m0 : mach := Mach 0 (m_arch0 [(5, 77)]) loop_mem.
Definition loop_ok (m : mach (C := core unit)) : Prop :=
  In (m_pc m) [0; 4; 8] /\ a_regs (m_arch m) 0 = 0 /\ forall x, loop_code x -> m_mem m x = loop_mem x.
Lemma loop_word m : loop_ok m -> word_at m = load32 loop_mem (m_pc m).
Proof.
  intros (P & _ & M). unfold word_at, load32. cbn [In] in P. rewrite !M; [reflexivity|..]; unfold loop_code; lia.
Qed.
Definition loop_rows : list (Z * string * act) :=
  [(0x10502023, "sw", Act [Fn "coralnpu::CoralNPUIStore<uint32_t>" []] [PZero; PImm 256; PX 5] [] None);
   (0x128293, "addi", Act [Fn "RV32::RiscVIAdd" []] [PX 5; PImm 1] [DX 5] None);
   (0xff9ff06f, "j", Act [Fn "RV32::RiscVIJal" []] [PImm (-8)] [DNextPc; DX0] None)].
Lemma loop_row w n c : In (w, n, c) loop_rows -> exists e q, parse first_match w = Some e /\ e_name e = n /\ e_sem e = SmScalar q /\ act1 e w = c.
Proof.
  intros H. cbn [loop_rows In] in H. destruct H as [H|[H|[H|[]]]]; injection H as <- <- <-; eexists; eexists; (split; [vm_compute; reflexivity|split; [vm_compute; reflexivity|split; vm_compute; reflexivity]]).
Qed.
Lemma loop_at m : loop_ok m -> exists n c, In (word_at m, n, c) loop_rows /\
  (n = "sw" -> m_pc m = 0) /\ (m_pc m = 8 -> c = Act [Fn "RV32::RiscVIJal" []] [PImm (-8)] [DNextPc; DX0] None) /\ (c = Act [Fn "RV32::RiscVIJal" []] [PImm (-8)] [DNextPc; DX0] None -> m_pc m = 8).
Proof.
  intros H. rewrite (loop_word m H). destruct H as (P & _). cbn [In] in P. destruct P as [<- |[<- |[<- |[]]]]; eexists; eexists.
  - split; [left; vm_compute; reflexivity|]. split; [reflexivity|]. split; discriminate.
  - split; [right; left; vm_compute; reflexivity|]. split; [discriminate|]. split; discriminate.
  - split; [right; right; left; vm_compute; reflexivity|]. split; [discriminate|]. split; reflexivity.
Qed.
Lemma loop_leaves m : loop_ok m -> leaves_code first_match loop_code m.
Proof.
  intros H. destruct (loop_at m H) as (n & c & Hi & Hn & _). destruct (loop_row _ _ _ Hi) as (e & q & E1 & E2 & E3 & E4).
  destruct H as (P & X & M). cbn [In] in P. unfold leaves_code. split; [lia|]. split; [destruct P as [<- |[<- |[<- |[]]]]; reflexivity|].
  split; [intros i Hi'; unfold loop_code; lia|]. split; [exact X|].
  assert (Hw : word_at m = 0x10502023 /\ n = "sw" \/ n = "addi" \/ n = "j").
  { cbn [loop_rows In] in Hi. destruct Hi as [Hi|[Hi|[Hi|[]]]]; [left; split|right; left|right; right]; congruence. }
  rewrite E1. split.
  - intros e' [= <-]. rewrite E2. intros K. exfalso. destruct Hw as [[_ ->]|[->| ->]]; cbn [In] in K; destruct K as [K|[K|[]]]; discriminate K.
  - intros e' x [= <-] Hx. rewrite E2. clear E1 E2 E3 E4 Hi Hn. split.
    + intros [(T & i & L & _)|[(K & _)|(T & len & stride & st & Tw & stw & K & _)]].
      * destruct Hw as [[_ ->]|[->| ->]]; vm_compute in L; discriminate L.
      * destruct Hw as [[_ ->]|[->| ->]]; cbn [In] in K; destruct K as [K|[K|[]]]; discriminate K.
      * destruct Hw as [[_ ->]|[->| ->]]; vm_compute in K; discriminate K.
    + intros [(T & i & L & V & K)|[(T & len & stride & st & K & _)|(T & st & K & _)]].
      * destruct Hw as [[Ew ->]|[->| ->]]; try (vm_compute in L; discriminate L). rewrite Ew in V, K.
        change (lookup "sw" store_specs) with (Some U32) in L. injection L as <-.
        assert (Ev : i = 256).
        { destruct V as (v & [= <-] & V1 & _ & V2). pose proof (V2 5 25 7 ltac:(left; reflexivity)) as A. pose proof (V2 0 7 5 ltac:(right; left; reflexivity)) as B.
          change (at_ 0x10502023 25 7) with 8 in A. change (at_ 0x10502023 7 5) with 0 in B. unfold at_ in A, B. clear - V1 A B.
          change (2 ^ 5) with 32 in *. change (2 ^ 7) with 128 in *. change (2 ^ 0) with 1 in *. Z.to_euclidean_division_equations. lia. }
        rewrite Ev in K. change (reg_at (a_regs (m_arch m)) 0x10502023 15) with 0 in K. cbv zeta in K. change ((0 + 256) mod 2 ^ 31) with 256 in K.
        unfold loop_code in Hx. clear - K Hx. lia.
      * destruct Hw as [[_ ->]|[->| ->]]; vm_compute in K; discriminate K.
      * destruct Hw as [[_ ->]|[->| ->]]; vm_compute in K; discriminate K.
Qed.
Lemma loop_step m : loop_ok m -> loop_ok (ref_step m_exec m).
Proof.
  intros H. destruct (loop_at m H) as (n & c & Hi & _ & J1 & J2). destruct (loop_row _ _ _ Hi) as (e & q & E1 & E2 & E3 & E4).
  destruct H as (P & X & M). unfold ref_step. replace (word_at m =? ebreak) with false.
  2: { cbn [loop_rows In] in Hi. destruct Hi as [Hi|[Hi|[Hi|[]]]]; assert (A := f_equal (fun p => fst (fst p)) Hi); cbn [fst] in A; rewrite <- A; reflexivity. }
  unfold m_exec, exec1. rewrite E1, E3, E4. cbv zeta. cbn [In] in P.
  destruct Hi as [Hi|[Hi|[Hi|[]]]]; assert (Ec := f_equal snd Hi); cbn [snd] in Ec; clear Hi E1 E2 E3 E4.
  - rewrite <- Ec in *. set (f := exec_scalar _ _ _ _ _ _).
    assert (F : f = normal (m_arch m) (exec_store U32 true 0 256 (a_regs (m_arch m) 5) (m_mem m)) (m_pc m)) by reflexivity.
    clearbody f. subst f. cbn [normal f_pc f_arch f_mem m_pc m_arch m_mem with_core]. unfold loop_ok. cbn [m_pc m_arch m_mem a_regs].
    split; [|split; [exact X|]].
    + destruct P as [P|[P|[P|[]]]]; [| |discriminate (J1 (eq_sym P))]; rewrite <- P; vm_compute; auto.
    + intros x Hx. rewrite <- (M x Hx). unfold exec_store, mem_put. unfold loop_code in Hx.
      change (wrap U32 (wrap U32 0 + wrap U32 (wrap I32 256))) with 256. cbn [sizeof]. destruct ((_ <=? x) && _) eqn:E; [|reflexivity].
      exfalso. apply andb_true_iff in E as [E _]. apply Z.leb_le in E. change (Z.land 256 2147483647) with 256 in E. lia.
  - rewrite <- Ec in *. set (f := exec_scalar _ _ _ _ _ _).
    assert (F : f = normal (set_dst (DX 5) (u32 (a_regs (m_arch m) 5) + u32 1) (m_arch m)) (m_mem m) (m_pc m)) by reflexivity.
    clearbody f. subst f. unfold loop_ok. cbn [normal f_pc f_arch f_mem m_pc m_arch m_mem with_core set_dst a_regs].
    split; [|split; [exact X|exact M]]. destruct P as [P|[P|[P|[]]]]; [| |discriminate (J1 (eq_sym P))]; rewrite <- P; vm_compute; auto.
  - rewrite <- Ec in *. specialize (J2 eq_refl). set (f := exec_scalar _ _ _ _ _ _).
    assert (F : f = Eff (with_core tock (set_dst DX0 (m_pc m + 4) (m_arch m))) (m_mem m) (u32 (m_pc m + u32 (-8))) None) by reflexivity.
    clearbody f. subst f. unfold loop_ok. cbn [f_pc f_arch f_mem m_pc m_arch m_mem with_core set_dst a_regs].
    split; [rewrite J2; vm_compute; auto|]. split; [exact X|exact M].
Qed.

(** Debugger calls on the core of the examples, one after the other. *)
Definition m_call : call -> top -> option (outcome (ret * top)) :=
  do_call m_exec (fun _ _ => false) (fun _ => None) (fun _ => 4) (fun _ => None) (fun _ _ => 0) (fun _ _ c => c).
Fixpoint drive (l : list call) (s : top) : option (outcome (list ret * top)) :=
  match l with
  | [] => Some (Ok ([], s))
  | c :: t =>
      match m_call c s with
      | Some (Ok (r, s1)) => match drive t s1 with Some (Ok (rs, s2)) => Some (Ok (r :: rs, s2)) | x => x end
      | Some (UB k) => Some (UB k)
      | Some Crash => Some Crash
      | None => None
      end
  end.
Notation m_history := (history m_exec (fun _ _ => false) (fun _ => None) (fun _ => 4) (fun _ => None) (fun _ _ => 0) (fun _ _ c => c)).
Notation m_follows := (follows m_exec (fun _ => None) (fun _ => 4) (fun _ => None) (fun _ _ c => c)).
Lemma drive_history (P : call -> top -> Prop) : forall l s rs s', (forall c s, In c l -> P c s) -> drive l s = Some (Ok (rs, s')) -> m_history P s (combine l rs) s'.
Proof.
  induction l as [|c l IH]; intros s rs s' HP H; cbn [drive] in H.
  - injection H as <- <-. constructor.
  - destruct (m_call c s) as [[[r s1]| |]|] eqn:E; try discriminate H. destruct (drive l s1) as [[[rs1 s2]| |]|] eqn:D; try discriminate H. injection H as <- <-.
    cbn [combine]. apply HCons with s1; [apply HP; now left|exact E|]. apply IH; [|exact D]. intros c0 s0 H0. apply HP. now right.
Qed.
(** Three times run to the breakpoint on the addi, seven instructions in all;
    the count in memory is that of the undebugged program. *)
Definition loop_calls : list call := [CSetBp 4; CRun 9; CRun 9; CRun 9; CReadMem 0 8; CReadMem 0x100 4].
Example C83_debugged_case :
  exists rs s, m_history (allowed loop_code loop_m0) (fresh (m_arch loop_m0) (m_mem loop_m0) (m_pc loop_m0)) (combine loop_calls rs) s /\
    rs = [ROk; ROk; ROk; ROk; RBytes [0x23; 0x20; 0x50; 0x10; 0x73; 0; 0x10; 0]; RBytes [79; 0; 0; 0]] /\
    bytes_ok (m_mem loop_m0) /\
    (forall h1 h2 k m, combine loop_calls rs = h1 ++ h2 -> m_follows loop_m0 h1 k m -> Z.of_nat k < t_insts s -> leaves_code first_match loop_code m).
Proof.
  destruct (drive loop_calls (fresh (m_arch loop_m0) (m_mem loop_m0) (m_pc loop_m0))) as [[[rs s]| |]|] eqn:E.
  2-4: (exfalso; assert (X := f_equal (fun x => match x with Some (Ok _) => true | _ => false end) E); vm_compute in X; discriminate X).
  assert (R : match drive loop_calls (fresh (m_arch loop_m0) (m_mem loop_m0) (m_pc loop_m0)) with Some (Ok (rs, _)) => rs | _ => [] end = rs) by now rewrite E.
  vm_compute in R. exists rs, s. split; [|split; [now symmetry|split]].
  - apply drive_history; [|exact E]. intros c s0 Hc. cbn [loop_calls In] in Hc.
    repeat (destruct Hc as [<-|Hc]; [cbn [allowed]; first [exact I|idtac]|]); [|destruct Hc].
    split; [lia|]. split; [reflexivity|]. split; [intros i Hi; unfold loop_code; lia|]. vm_compute. discriminate.
  - intros x. cbn [m_mem loop_m0]. unfold loop_mem, words_at. destruct (_ && _); [apply Z.mod_pos_bound; reflexivity|]. unfold m_bytes. apply Z.mod_pos_bound. reflexivity.
  - intros h1 h2 k m Eh F _. apply loop_leaves.
    assert (G : forall c r, In (c, r) h1 -> goes c = true \/ forall m, poke (C := core unit) (fun _ => None) (fun _ => 4) (fun _ => None) (fun _ _ c => c) c m = m).
    { intros c r Hi. assert (Hc : In c loop_calls) by (apply (in_combine_l loop_calls rs c r); rewrite Eh; apply in_or_app; now left).
      cbn [loop_calls In] in Hc. repeat (destruct Hc as [<-|Hc]; [first [left; reflexivity|right; intros m1; reflexivity]|]). destruct Hc. }
    clear Eh E R. assert (I0 : loop_ok loop_m0) by (split; [left; reflexivity|split; reflexivity]). revert I0 F. generalize loop_m0 as m0. revert k m. revert G.
    induction h1 as [|[c r] h1 IH]; intros G k m m0 I0 F; inversion F; subst; [exact I0| |].
    + match goal with K : TopSpec.follows _ _ _ _ _ (ref m_exec ?n m0) _ _ _ |- _ => apply (IH (fun c r Hc => G c r (or_intror Hc)) _ _ _) in K; [exact K|] end.
      match goal with |- loop_ok (ref m_exec ?n m0) => clear - I0; induction n as [|n IHn]; [exact I0|exact (loop_step _ IHn)] end.
    + match goal with K : TopSpec.follows _ _ _ _ _ (poke _ _ _ _ c m0) _ _ _, N : goes c = false |- _ =>
        destruct (G c r (or_introl eq_refl)) as [Q|Q]; [rewrite Q in N; discriminate N|]; rewrite Q in K; exact (IH (fun c r Hc => G c r (or_intror Hc)) _ _ _ I0 K) end.
Qed.
