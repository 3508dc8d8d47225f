(** * The memory an instruction of the V1 core touches: vector instructions and runs *)
From Coq Require Import ZArith List Bool Lia String.
From Coq Require Import ZifyBool ZifyNat.
From Verif Require Import CInt VecModel VecSpec LaneSpec ConvModel ConvSpec MemModel MemSpec LogModel LogSpec.
From Verif Require Import DecodeTypes DecodeTable DecodeModel DecodeSpec V2DecTypes V2DecModel V2DecSpec V1ScalModel V1ScalSpec.
From Verif Require Import VecProofs VecFrame MemProofs DecodeProofs DecodeProofs2 DecodeProofs3 DecodeProofs4 V1ScalProofs TopModel RvSpec MachModel MachSpec MachProofs MachProofs2 MachProofs5 MachProofs6 FootSpec FootProofs FootProofs2.
From Verif Require TopSpec MachInvProofs.
Import ListNotations.
Open Scope string_scope.
Open Scope list_scope.
Open Scope Z_scope.

Section Foot.
  Context {S : Type}.
  Notation arch := (arch (C := core S)).
  Notation effect := (effect (C := core S)).
  Variable d : decoder.
  Variable zbb : Z -> option act.
  Variable sys : act -> Z -> arch -> (Z -> Z) -> arch * (Z -> Z) * Z * option Z.
  Variable junk : Z -> Z -> vbytes.
  Variable ljunk : Z -> Z.
  Notation exec := (exec1 d zbb sys junk ljunk).

  (** ** Vector instructions *)
  Definition is_store (k : sem) : Prop := match k with SmSt _ _ _ _ | SmStq _ _ => True | _ => False end.
  Lemma vec_quiet e w a (s : arch) m : encodes e w -> a_regs s 0 = 0 -> ~ is_store (e_sem e) -> f_mem (exec_vector junk e w a s m) = m.
  Proof.
    intros He H0 Hn. unfold exec_vector. destruct (vec_step e w a (to_w s m) (junk (k_clock (a_csr s)))) as [[[s' t]| |]|] eqn:E; try reflexivity. cbn [f_mem].
    destruct (accesses (e_sem e)) eqn:Ha.
    - destruct (e_sem e) eqn:Es; try discriminate Ha; try (now destruct Hn).
      destruct (load_step e w a (to_w s m) (junk (k_clock (a_csr s))) _ _ _ _ _ _ He Es H0 eq_refl) as (_ & _ & x & HP & [(HO & E')|(HO & rf & E' & _)]);
        rewrite E' in E; injection E as <- _; reflexivity.
    - unfold vec_step in E. replace (mem_row e w (to_w s m)) with (@None (outcome (ity * mop * bool))) in E by (unfold mem_row; destruct (e_sem e); (reflexivity || discriminate Ha)).
      destruct (exec_row true a _ e w (to_w s m)) as [[s1| |]|] eqn:R; try discriminate E. cbn [option_map bind] in E. injection E as <- _.
      exact (proj2 (row_apart a _ e w (to_w s m) m Ha) s1 R).
  Qed.
  Lemma stored_agree T o q rf m m' n n' : stored T o q rf m n -> stored T o q rf m' n' -> forall x, n' x = n x \/ (n' x = m' x /\ n x = m x).
  Proof.
    intros A B x. destruct (A x) as [(e & He & Hc & Hl & Ev)|[Hn Ev]], (B x) as [(e' & He' & Hc' & Hl' & Ev')|[Hn' Ev']].
    - left. assert (e = e') as <-; [|now rewrite Ev, Ev']. destruct (Z.lt_trichotomy e e') as [L|[L|L]]; [|exact L|]; exfalso; [apply (Hl e')|apply (Hl' e)]; (lia || assumption).
    - now destruct (Hn' e He).
    - now destruct (Hn e' He').
    - right. now split.
  Qed.
  Lemma stored_frame T o q rf m n : stored T o q rf m n -> forall x, ~ element T o q x -> n x = m x.
  Proof. intros A x Hx. destruct (A x) as [(e & He & Hc & _)|[_ E]]; [destruct Hx; now exists e|exact E]. Qed.
  (** The operands of a store row. *)
  Lemma vec_store w e a s m T len stride st quad : decoder_ok d -> parse d w = Some e -> meaning (e_name e) = Some (if quad : bool then SmStq T st else SmSt T len stride st) ->
    (quad = true -> len = false /\ stride = true) -> a_regs s 0 = 0 ->
    let o := operands w (e_name e) s len stride quad in
    (forall x, ~ element T o quad x -> f_mem (exec w a s m) x = m x) /\
    forall m' x, f_mem (exec w a s m') x = f_mem (exec w a s m) x \/ (f_mem (exec w a s m') x = m' x /\ f_mem (exec w a s m) x = m x).
  Proof.
    intros Hd Hp M Hq H0 o. pose proof (parse_sound d w e Hd Hp) as He.
    assert (Es : e_sem e = (if quad : bool then SmStq T st else SmSt T len stride st)) by (apply (sem_of e _ (proj1 He) M); destruct quad; intros []).
    assert (D : over T o quad \/ ~ over T o quad).
    { destruct (store_step e w a (to_w s m) (junk (k_clock (a_csr s))) _ _ _ _ _ He Es Hq (to_w_wf s m) H0 eq_refl) as (-> & _ & x & HP & [(HO & _)|(HO & _)]);
        change (mem_operands _ _ _ _ _ _ _ _ _ _) with o in *; [now left|now right]. }
    destruct (mach_store d zbb sys junk ljunk w e a s m T len stride st quad Hd Hp M Hq H0) as (_ & _ & _ & _ & A & B). fold o in A, B.
    destruct D as [D|D].
    - destruct (A D) as [_ E]. rewrite E. split; [reflexivity|]. intros m' x. right. split; [|reflexivity].
      destruct (mach_store d zbb sys junk ljunk w e a s m' T len stride st quad Hd Hp M Hq H0) as (_ & _ & _ & _ & A' & _). fold o in A'. destruct (A' D) as [_ E']. now rewrite E'.
    - destruct (B D) as [_ E]. split; [exact (stored_frame _ _ _ _ _ _ E)|]. intros m' x.
      destruct (mach_store d zbb sys junk ljunk w e a s m' T len stride st quad Hd Hp M Hq H0) as (_ & _ & _ & _ & _ & B'). fold o in B'. destruct (B' D) as [_ E'].
      exact (stored_agree _ _ _ _ _ _ _ _ E E' x).
  Qed.
  Lemma vec_pc e w a (s : arch) m : 0 <= f_pc (exec_vector junk e w a s m) < 2 ^ 32.
  Proof. unfold exec_vector. destruct (vec_step _ _ _ _ _) as [[[s' t]| |]|]; apply u32_range. Qed.

  Definition cells (w a : Z) (s : arch) (m m' : Z -> Z) : Prop :=
    forall x, f_mem (exec w a s m') x = f_mem (exec w a s m) x \/ (f_mem (exec w a s m') x = m' x /\ f_mem (exec w a s m) x = m x).
  Lemma vec_cells w e a s m : decoder_ok d -> parse d w = Some e -> ~ is_scalar_op (e_sem e) -> a_regs s 0 = 0 ->
    framed (stores_to (e_name e) w s) m (exec w a s m) /\ forall m', cells w a s m m'.
  Proof.
    intros Hd Hp Hn H0. pose proof (parse_sound d w e Hd Hp) as He. pose proof (proj1 (meaning_ok e (proj1 He)) Hn) as M.
    assert (PC : 0 <= f_pc (exec w a s m) < 2 ^ 32) by (rewrite (exec_vec d zbb sys junk ljunk w e) by assumption; apply vec_pc).
    assert (Q : ~ is_store (e_sem e) -> framed (stores_to (e_name e) w s) m (exec w a s m) /\ forall m', cells w a s m m').
    { intros K. assert (E : forall n, f_mem (exec w a s n) = n) by (intros n; rewrite (exec_vec d zbb sys junk ljunk w e) by assumption; now apply vec_quiet).
      split; [now apply framed_same|]. intros m' x. right. now rewrite !E. }
    destruct (e_sem e) eqn:Es; try (solve [apply Q; intros []]).
    - destruct (vec_store w e a s m T len stride strip false Hd Hp M) as [A B]; [discriminate|exact H0|]. split; [|exact B]. split; [exact PC|].
      intros x Hx. apply A. intros K. apply Hx. right. left. exists T, len, stride, strip. now split.
    - destruct (vec_store w e a s m T false true strip true Hd Hp M) as [A B]; [split; reflexivity|exact H0|]. split; [|exact B]. split; [exact PC|].
      intros x Hx. apply A. intros K. apply Hx. right. right. exists T, strip. now split.
  Qed.

  (** ** The whole core *)
  Hypothesis Hd : decoder_ok d.
  Hypothesis Hs : sys_quiet sys.
  Hypothesis Hz : zbb_quiet zbb.
  Lemma zbb_ranges w c (s : arch) m x : zbb w = Some c -> ~ store_range c s x /\ ~ load_range c s x /\ ~ text_range c s m x.
  Proof.
    intros E. pose proof (Hz w c E) as K. unfold store_range, load_range, text_range. destruct (act_kind c); try (now destruct K); repeat split; intros [].
  Qed.
  Lemma foot_writes w a (s : arch) m : a_regs s 0 = 0 -> framed (fun x => exists e, parse d w = Some e /\ stores_to (e_name e) w s x) m (exec w a s m).
  Proof.
    intros H0. destruct (parse d w) as [e|] eqn:Hp.
    - pose proof (parse_sound d w e Hd Hp) as He.
      assert (D : is_scalar_op (e_sem e) \/ ~ is_scalar_op (e_sem e)) by (destruct (e_sem e); (now left) || (right; intros [])).
      destruct D as [D|D].
      + unfold exec1. rewrite Hp. destruct (e_sem e) eqn:Es; try (now destruct D). rewrite <- Es in D.
        destruct (scalar_frame zbb sys junk ljunk (act1 e w) a s m Hs) as [A B]. split; [exact A|]. intros x Hx. apply B. intros K. apply Hx. exists e. split; [reflexivity|].
        exact (proj2 (scalar_spec e w s m x (proj1 He) D) K).
      + destruct (vec_cells w e a s m Hd Hp D H0) as [[A B] _]. split; [exact A|]. intros x Hx. apply B. intros K. apply Hx. now exists e.
    - unfold exec1. rewrite Hp. destruct (zbb w) as [c|] eqn:E.
      + destruct (scalar_frame zbb sys junk ljunk c a s m Hs) as [A B]. split; [exact A|]. intros x _. apply B. exact (proj1 (zbb_ranges w c s m x E)).
      + apply framed_same; [apply u32_range|reflexivity].
  Qed.
  Lemma of_w_setm (s : arch) m x : of_w s (setm m x) = of_w s x.
  Proof. reflexivity. Qed.
  Lemma vec_arch e w a (s : arch) m m' : encodes e w -> a_regs s 0 = 0 -> 
    (forall T len stride st Tw stw, e_sem e = SmLd T len stride st Tw stw -> forall x, element T (operands w (e_name e) s len stride false) false x -> m' x = m x) ->
    let f := exec_vector junk e w a s m in let f' := exec_vector junk e w a s m' in f_arch f' = f_arch f /\ f_pc f' = f_pc f /\ f_halt f' = f_halt f.
  Proof.
    intros He H0 HL. cbv zeta. unfold exec_vector. change (to_w s m') with (setm m' (to_w s m)).
    pose proof (vec_alike a (junk (k_clock (a_csr s))) e w (to_w s m) m' He H0) as V.
    assert (K : alike (vec_step e w a (to_w s m) (junk (k_clock (a_csr s)))) (vec_step e w a (setm m' (to_w s m)) (junk (k_clock (a_csr s))))).
    { apply V. intros T len stride st Tw stw Es x Hx. apply (HL _ _ _ _ _ _ Es).
      pose proof (select_ok e w He) as Hf. rewrite Es in Hf. cbn [fields_select] in Hf. destruct Hf as (_ & _ & -> & _). exact Hx. }
    clear V. unfold alike in K.
    destruct (vec_step e w a (to_w s m) (junk (k_clock (a_csr s)))) as [[[x t]| |]|], (vec_step e w a (setm m' (to_w s m)) (junk (k_clock (a_csr s)))) as [[[x' t']| |]|];
      try (now destruct K); try (split; [|split]; reflexivity).
    destruct K as [-> [n ->]]. cbn [f_arch f_pc f_halt]. split; [|split]; reflexivity.
  Qed.
  Lemma foot_reads w a (s : arch) m m' : a_regs s 0 = 0 -> (forall e, parse d w = Some e -> In (e_name e) ["flog"; "klog"] -> forall x, 0 <= m x < 256) ->
    (forall e x, parse d w = Some e -> loads_from (e_name e) w s m x -> m' x = m x) ->
    agree m m' (exec w a s m) (exec w a s m').
  Proof.
    intros H0 Hm H. destruct (parse d w) as [e|] eqn:Hp.
    - pose proof (parse_sound d w e Hd Hp) as He.
      assert (D : is_scalar_op (e_sem e) \/ ~ is_scalar_op (e_sem e)) by (destruct (e_sem e); (now left) || (right; intros [])).
      destruct D as [D|D].
      + unfold exec1. rewrite Hp. destruct (e_sem e) eqn:Es; try (now destruct D). rewrite <- Es in D.
        apply scalar_agree; [exact Hs|intros K Kb; exact (Hm e eq_refl (log_name e w (proj1 He) D K Kb))|]. intros x Hx. apply (H e x eq_refl). exact (proj1 (scalar_spec e w s m x (proj1 He) D) Hx).
      + destruct (vec_arch e w a s m m' He H0) as (A & B & C).
        { intros T len stride st Tw stw Es x Hx. apply (H e x eq_refl). right. right. exists T, len, stride, st, Tw, stw. split; [|exact Hx].
          rewrite (proj1 (meaning_ok e (proj1 He)) D). now rewrite Es. }
        pose proof (proj2 (vec_cells w e a s m Hd Hp D H0) m') as X. unfold cells in X.
        rewrite !(exec_vec d zbb sys junk ljunk w e) by assumption. split; [exact A|]. split; [exact B|]. split; [exact C|]. intros x. specialize (X x).
        rewrite !(exec_vec d zbb sys junk ljunk w e) in X by assumption. exact X.
    - unfold exec1. rewrite Hp. destruct (zbb w) as [c|] eqn:E.
      + apply scalar_agree; [exact Hs|intros K; pose proof (Hz w c E) as Q; rewrite K in Q; destruct Q|]. intros x [K|K]; destruct (zbb_ranges w c s m x E) as (_ & N1 & N2); [now destruct N1|now destruct N2].
      + now apply agree_same.
  Qed.
  Theorem foot_clean code (x : TopSpec.mach (C := core S)) : leaves_code d code x -> TopSpec.clean exec code x.
  Proof.
    intros (P1 & P2 & P3 & H0 & Hm & H). unfold TopSpec.clean. split; [exact P1|]. split; [exact P2|]. split; [exact P3|]. cbv zeta.
    set (w := TopSpec.word_at x) in *. set (a := TopSpec.m_pc x) in *. set (s := TopSpec.m_arch x) in *. set (m := TopSpec.m_mem x) in *. clearbody w a s m.
    split; [|split].
    - intros mem Hs'. destruct (foot_writes w a s mem H0) as [_ F]. destruct (foot_writes w a s m H0) as [_ F0].
      destruct (foot_reads w a s m mem H0 Hm) as (A & B & C & D).
      { intros e y Hp Hl. apply Hs'. intros K. exact (proj1 (H e y Hp K) Hl). }
      split; [|split; [|split; [exact A|split; [exact B|exact C]]]].
      + intros y Hy. apply F. intros (e & Hp & K). exact (proj2 (H e y Hp Hy) K).
      + intros y Hy. destruct (D y) as [E|[E E0]]; [exact E|]. rewrite E, E0. now apply Hs'.
    - exact (proj1 (foot_writes w a s m H0)).
    - intros r Hr. apply only_request in Hr. subst r. split; discriminate.
  Qed.
End Foot.
