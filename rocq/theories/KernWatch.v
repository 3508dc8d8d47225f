(** * The strip-mined kernel does not use its code as data *)
From Coq Require Import ZArith List Bool String Lia.
From Verif Require Import CInt VecModel VecSpec ConvModel MemModel MemSpec LogModel.
From Verif Require Import DecodeTypes DecodeTable DecodeModel DecodeSpec V2DecTypes V2DecModel V2DecSpec V1ScalModel V1ScalSpec.
From Verif Require Import TopModel TopSpec CliSpec RvSpec MachModel MachSpec FootSpec.
From Verif Require Import MachProofs3 MachProofs4.
From Coq Require Import ZifyBool ZifyNat.
Import ListNotations.
Open Scope string_scope.
Open Scope list_scope.
Open Scope Z_scope.

(** The name of an instruction that does not access memory. *)
Definition still (n : string) : bool :=
  match lookup n load_specs, lookup n store_specs, meaning n with
  | None, None, Some (SmLd _ _ _ _ _ _ | SmSt _ _ _ _ | SmStq _ _) => false
  | None, None, _ => negb (String.eqb n "flog") && negb (String.eqb n "klog")
  | _, _, _ => false
  end.
Lemma still_none {C} n w (s : arch (C := C)) m x : still n = true -> ~ In n ["flog"; "klog"] /\ ~ loads_from n w s m x /\ ~ stores_to n w s x.
Proof.
  intros H. unfold still in H. destruct (lookup n load_specs) eqn:E1; [discriminate|]. destruct (lookup n store_specs) eqn:E2; [discriminate|].
  assert (NL : ~ In n ["flog"; "klog"]).
  { intros K. cbn [In] in K. destruct K as [K|[K|[]]]; rewrite <- K in H; vm_compute in H; discriminate H. }
  split; [exact NL|].
  split.
  - intros [(T & i & L & _)|[(K & _)|(T & l & st & b & Tw & sw & M & _)]]; [congruence|contradiction|rewrite M in H; discriminate H].
  - intros [(T & i & L & _)|[(T & l & st & b & M & _)|(T & b & M & _)]]; [congruence|rewrite M in H; discriminate H|rewrite M in H; discriminate H].
Qed.
Lemma vec_still n v b1 b2 : meaning n = Some (SmVec v b1 b2) -> still n = true.
Proof.
  intros M. unfold still. rewrite M.
  assert (L : forall l, forallb (fun p : string * ity => match meaning (fst p) with Some (SmVec _ _ _) => false | _ => true end) l = true -> lookup n l = None).
  { induction l as [|[m T] l IH]; [reflexivity|]. cbn [forallb lookup fst]. intros H. apply andb_true_iff in H as [H1 H2]. destruct (String.eqb_spec n m) as [E|E].
    - rewrite <- E, M in H1. discriminate H1.
    - now apply IH. }
  rewrite !L by (vm_compute; reflexivity).
  destruct (String.eqb_spec n "flog") as [E|E]; [exfalso; rewrite E in M; vm_compute in M; discriminate M|].
  destruct (String.eqb_spec n "klog") as [E'|E']; [exfalso; rewrite E' in M; vm_compute in M; discriminate M|]. reflexivity.
Qed.
Lemma access_only n : (exists T l st b Tw sw, meaning n = Some (SmLd T l st b Tw sw)) \/ (exists T l st b, meaning n = Some (SmSt T l st b)) ->
  lookup n load_specs = None /\ lookup n store_specs = None /\ ~ In n ["flog"; "klog"].
Proof.
  intros HM. set (mem := fun q => match meaning q with Some (SmLd _ _ _ _ _ _ | SmSt _ _ _ _) => true | _ => false end).
  assert (M : mem n = true) by (unfold mem; destruct HM as [(T & l & st & b & Tw & sw & ->)|(T & l & st & b & ->)]; reflexivity).
  assert (L : forall l, forallb (fun p : string * ity => negb (mem (fst p))) l = true -> lookup n l = None).
  { induction l as [|[m T] l IH]; [reflexivity|]. cbn [forallb lookup fst]. intros H. apply andb_true_iff in H as [H1 H2]. destruct (String.eqb_spec n m) as [E|E].
    - rewrite <- E, M in H1. discriminate H1.
    - now apply IH. }
  split; [apply L; vm_compute; reflexivity|]. split; [apply L; vm_compute; reflexivity|].
  intros K. cbn [In] in K. destruct K as [K|[K|[]]]; rewrite <- K in M; vm_compute in M; discriminate M.
Qed.
Lemma getvl_still d k : decoder_ok d -> 0 <= k <= 2 -> exists e, parse d (0x180606f7 + k * 2 ^ 25) = Some e /\ still (e_name e) = true.
Proof.
  intros Hd H. assert (E : k = 0 \/ k = 1 \/ k = 2) by lia.
  destruct E as [->|[->| ->]]; eexists; (split; [apply (in_inst d _ _ Hd); vm_compute; reflexivity|vm_compute; reflexivity]).
Qed.
Lemma scalar_still d w : decoder_ok d -> In w [0x40d60633; 0xfe0614e3; 0x08000073] -> exists e, parse d w = Some e /\ still (e_name e) = true.
Proof.
  intros Hd H. cbn [In] in H. destruct H as [<-|[<-|[<-|[]]]]; eexists; (split; [apply (in_inst d _ _ Hd); vm_compute; reflexivity|vm_compute; reflexivity]).
Qed.

Section Kernel.
  Context {S : Type}.
  Notation arch := (arch (C := core S)).
  Variable d : decoder.
  Variables (k op p : Z) (e : entry) (o : elop) (T : ity).
  Hypothesis Hd : decoder_ok d.
  Hypothesis Hk : 0 <= k <= 2.
  Hypothesis Hp : parse d op = Some e.
  Hypothesis Hm : meaning (e_name e) = Some (SmVec (VEl o T) false true).
  Hypothesis Hpp : 0 <= p /\ p + 32 <= top_address.
  Hypothesis Hal : p mod 4 = 0.
  Variable mem0 : Z -> Z.
  Variables R W : Z -> Prop.
  Hypothesis Hcode : placed mem0 p (kernel k op).
  Definition kcode (x : Z) : Prop := p <= x < p + 32.
  Hypothesis HW : forall A, kcode A -> ~ W A.
  Hypothesis HR : forall A, kcode A -> ~ R A.
  Hypothesis BW : forall A, W A -> A < top_address.
  Hypothesis BR : forall A, R A -> A < top_address.
  Notation inside := (MachProofs4.inside (S := S) k p mem0 R W).

  Lemma ops_elements (s : arch) x v (P : Z -> Prop) A : strips k x P s -> (forall A, P A -> A < top_address) ->
    0 <= a_regs s 13 <= 4 * nlanes (lane_ty k) -> element (lane_ty k) (ops s x v) false A -> P A.
  Proof.
    intros HS HB Hv (n & Hn & Hc). destruct (lane_ty_facts k Hk) as (HT & Lb & Bi & Nl & Pk). set (B := a_regs s x mod 2 ^ 31) in *.
    assert (En : nsel (lane_ty k) (ops s x v) = a_regs s 13).
    { assert (4 * nlanes (lane_ty k) <= 128) by nia. unfold nsel. replace (xs2_u (ops s x v)) with (a_regs s 13) by (symmetry; cbv [ops xs2_u mo_xs2]; apply Z.mod_small; lia).
      cbv [ops regs_of mo_strip mo_len]. lia. }
    rewrite En in Hn.
    assert (Ht : B + a_regs s 13 * 2 ^ k <= top_address).
    { assert (X : P (B + a_regs s 13 * 2 ^ k - 1)) by (apply HS; fold B; nia). apply HB in X. lia. }
    destruct (ops_facts (fun _ => None) (fun _ a s m => (s, m, a, None)) (fun _ _ _ => 0) (fun _ => 0) k s x v B (a_regs s 13) Hk eq_refl eq_refl Hv Ht) as (_ & _ & _ & Ea & _).
    unfold covers in Hc. rewrite Ea, Lb in Hc by exact Hn. apply HS. fold B. nia.
  Qed.
  Lemma ldst_leaves (st : bool) w v x (s : arch) m A (P : Z -> Prop) :
    In (st, w, v, x) [(false, 0x14d5003f, 0, 10); (false, 0x14d5813f, 4, 11); (true, 0x34d7023f, 8, 14)] ->
    strips k x P s -> (forall A, P A -> A < top_address) -> ~ P A -> 0 <= a_regs s 13 <= 4 * nlanes (lane_ty k) ->
    exists e, parse d (w + k * 2 ^ 12) = Some e /\ ~ In (e_name e) ["flog"; "klog"] /\
      ~ loads_from (e_name e) (w + k * 2 ^ 12) s m A /\ ~ stores_to (e_name e) (w + k * 2 ^ 12) s A.
  Proof.
    intros Hi HS HB HN Hv. destruct (ldst_row d st k w v x Hd Hk Hi) as (q & Pq & Mq & X2 & Po & Wm & Vd & X1 & Xs & V1).
    assert (Hx : x =? 0 = false) by (cbn [In] in Hi; destruct Hi as [Hi|[Hi|[Hi|[]]]]; injection Hi as <- <- <- <-; reflexivity).
    assert (EO : operands (w + k * 2 ^ 12) (e_name q) s true false false = ops s x v).
    { unfold operands. rewrite X2, Po, Wm, Vd, X1, Xs. replace (f_vs1 (w + k * 2 ^ 12) =? 0) with false by lia. rewrite Hx. reflexivity. }
    pose proof (ops_elements s x v P A HS HB Hv) as OE.
    assert (AO : lookup (e_name q) load_specs = None /\ lookup (e_name q) store_specs = None /\ ~ In (e_name q) ["flog"; "klog"]).
    { apply access_only. unfold ldst in Mq. destruct st; [right|left]; repeat eexists; exact Mq. }
    destruct AO as (A1 & A2 & A3). exists q. split; [exact Pq|]. split; [exact A3|]. unfold ldst in Mq. split.
    - intros [(U & i & L & _)|[(K & _)|(U & l & sd & b & Tw & sw & M & K)]]; [congruence|contradiction|]. destruct st; [congruence|].
      rewrite Mq in M. injection M as <- <- <- <- <- <-. rewrite EO in K. tauto.
    - intros [(U & i & L & _)|[(U & l & sd & b & M & K)|(U & b & M & _)]]; [congruence| |destruct st; congruence]. destruct st; [|congruence].
      rewrite Mq in M. injection M as <- <- <- <-. rewrite EO in K. tauto.
  Qed.

  Lemma inside_leaves (x : mach (C := core S)) : inside x -> leaves_code d kcode x.
  Proof.
    intros [(i & Hi & Pc & D) M]. destruct x as [pc s m]. cbn [m_pc m_arch m_mem] in *. unfold top_address in Hpp.
    assert (Wd : forall w, nth_error (kernel k op) (Z.to_nat i) = Some w -> word_at (Mach pc s m) = w).
    { intros w Hw. unfold word_at. cbn [m_pc m_mem]. rewrite load32_uval. replace pc with (p + 4 * Z.of_nat (Z.to_nat i)) by lia.
      rewrite <- (Hcode (Z.to_nat i) w Hw). apply uval_ext. intros j Hj. apply M, HW. unfold kcode. change (Z.of_nat 4) with 4 in Hj. clear - Hi Hj. lia. }
    unfold leaves_code. cbn [m_pc m_arch m_mem].
    split; [lia|]. split; [rewrite Pc, Z.mul_comm, Z.mod_add by lia; exact Hal|]. split; [intros j Hj; unfold kcode; lia|]. split; [exact (proj1 D)|].
    enough (Q : forall A, kcode A -> exists q, parse d (word_at (Mach pc s m)) = Some q /\ ~ In (e_name q) ["flog"; "klog"] /\
      ~ loads_from (e_name q) (word_at (Mach pc s m)) s m A /\ ~ stores_to (e_name q) (word_at (Mach pc s m)) s A).
    { split.
      - intros q Pq K. destruct (Q p) as (q' & Pq' & NK & _); [unfold kcode; lia|]. rewrite Pq in Pq'. injection Pq' as <-. contradiction.
      - intros q A Pq HA. destruct (Q A HA) as (q' & Pq' & _ & N1 & N2). rewrite Pq in Pq'. injection Pq' as <-. split; assumption. }
    intros A HA. destruct D as (_ & D1 & D2 & D4 & Dv).
    assert (ST : forall w, (exists q, parse d w = Some q /\ still (e_name q) = true) -> word_at (Mach pc s m) = w ->
      exists q, parse d (word_at (Mach pc s m)) = Some q /\ ~ In (e_name q) ["flog"; "klog"] /\
      ~ loads_from (e_name q) (word_at (Mach pc s m)) s m A /\ ~ stores_to (e_name q) (word_at (Mach pc s m)) s A).
    { intros w (q & Pq & Sq) ->. exists q. split; [exact Pq|]. exact (still_none (e_name q) w s m A Sq). }
    assert (E : i = 0 \/ i = 1 \/ i = 2 \/ i = 3 \/ i = 4 \/ i = 5 \/ i = 6 \/ i = 7) by lia.
    destruct E as [->|[->|[->|[->|[->|[->|[->| ->]]]]]]].
    - apply (ST _ (getvl_still d k Hd Hk)). apply Wd. reflexivity.
    - rewrite (Wd (0x14d5003f + k * 2 ^ 12) eq_refl). apply (ldst_leaves false 0x14d5003f 0 10 s m A R); [left; reflexivity|exact (D1 eq_refl)|exact BR|exact (HR A HA)|apply Dv; lia].
    - rewrite (Wd (0x14d5813f + k * 2 ^ 12) eq_refl). apply (ldst_leaves false 0x14d5813f 4 11 s m A R); [right; left; reflexivity|exact (D2 eq_refl)|exact BR|exact (HR A HA)|apply Dv; lia].
    - apply (ST op); [exists e; split; [exact Hp|exact (vec_still _ _ _ _ Hm)]|]. apply Wd. reflexivity.
    - rewrite (Wd (0x34d7023f + k * 2 ^ 12) eq_refl). apply (ldst_leaves true 0x34d7023f 8 14 s m A W); [right; right; left; reflexivity|exact (D4 eq_refl)|exact BW|exact (HW A HA)|apply Dv; lia].
    - apply (ST 0x40d60633); [apply scalar_still; [exact Hd|left; reflexivity]|]. apply Wd. reflexivity.
    - apply (ST 0xfe0614e3); [apply scalar_still; [exact Hd|right; left; reflexivity]|]. apply Wd. reflexivity.
    - apply (ST 0x08000073); [apply scalar_still; [exact Hd|right; right; left; reflexivity]|]. apply Wd. reflexivity.
  Qed.
End Kernel.
