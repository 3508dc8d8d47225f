(** * V2 core: properties C44-C47 *)
From Coq Require Import ZArith List Bool Lia ZifyBool.
From Verif Require Import CInt V2Model V2Spec.
From Verif Require V2Proofs.
Import ListNotations.
Open Scope Z_scope.

(** ** C44 *)
(** The default configuration: DTCM at 0x10000, 32 KiB. *)
Definition dtcm : list range := [(0x10000, 0x8000)].
(** A state that only records what happened. *)
Definition ev := (Z * Z)%type.
Definition perf (i : v2mem) (a : Z) (s : list ev) : list ev := s ++ [(a, width i)].
Definition trp (c e : Z) (s : list ev) : list ev := s ++ [(- c, e)].
Lemma low_dtcm : low dtcm.
Proof. intros s l [H|[]]. injection H as <- <-. lia. Qed.

(** Every scalar load and store except fsw. Missing: ranges and accesses that
    touch the top of the 32-bit address space. *)
Theorem C44_access_partial : forall St (perform : v2mem -> Z -> St -> St) trap i ranges pc base off s,
  let a := (base + off) mod 2 ^ 32 in
  i <> Fsw -> low ranges -> a + width i < 2 ^ 32 ->
  (contained ranges a (width i) ->
     v2_exec perform trap i ranges pc base off s = perform i a s) /\
  (~ contained ranges a (width i) ->
     v2_exec perform trap i ranges pc base off s = trap (if is_load i then 5 else 7) pc s).
Proof.
  intros St perform trap i ranges pc base off s a Hi.
  assert (width i = check_size i) as -> by (destruct i; try reflexivity; congruence).
  apply V2Proofs.v2_exec_exact.
Qed.
Print Assumptions C44_access_partial.
(** The last word of the range, the word one byte further, a negative offset. *)
Example C44_case :
  contained dtcm 0x17ffc 4 /\ ~ contained dtcm 0x17ffd 4 /\
  v2_exec perf trp Lw dtcm 8 0x18000 (-4) [] = [(0x17ffc, 4)] /\
  v2_exec perf trp Lw dtcm 8 0x18000 (-3) [] = [(-5, 8)] /\
  v2_exec perf trp Sh dtcm 8 0x17ffd 1 [] = [(0x17ffe, 2)] /\
  v2_exec perf trp Sb dtcm 8 0xffff 0 [] = [(-7, 8)] /\
  v2_exec perf trp Flw [(0, 16); (32, 16)] 8 40 4 [] = [(44, 4)] /\
  v2_exec perf trp Lw [(0, 16); (16, 16)] 8 14 0 [] = [(-5, 8)].
Proof.
  split; [exists 0x10000, 0x8000; split; [left; reflexivity | lia]|].
  split; [intros [s [l [[H|[]] Hc]]]; injection H as <- <-; pose proof (Hc 0x18000); lia|].
  repeat split; vm_compute; reflexivity.
Qed.
(** fsw is performed exactly when the EIGHT bytes at the address are inside. *)
Theorem C44_fsw_partial : forall St (perform : v2mem -> Z -> St -> St) trap ranges pc base off s,
  let a := (base + off) mod 2 ^ 32 in
  low ranges -> a + 8 < 2 ^ 32 ->
  (contained ranges a 8 -> v2_exec perform trap Fsw ranges pc base off s = perform Fsw a s) /\
  (~ contained ranges a 8 -> v2_exec perform trap Fsw ranges pc base off s = trap 7 pc s).
Proof. intros St perform trap. exact (V2Proofs.v2_exec_exact perform trap Fsw). Qed.
Print Assumptions C44_fsw_partial.
(** So fsw to the last word of a range faults, for every single range that is a
    multiple of a word and at least one word long. *)
Theorem C44_fsw_refuted : forall St (perform : v2mem -> Z -> St -> St) trap start len pc s,
  0 <= start -> 4 <= len -> start + len + 4 < 2 ^ 32 ->
  let a := start + len - 4 in
  contained [(start, len)] a (width Fsw) /\
  v2_exec perform trap Fsw [(start, len)] pc a 0 s = trap 7 pc s.
Proof.
  intros St perform trap start len pc s Hs Hl Hb a. split.
  - exists start, len. split; [left; reflexivity|]. unfold a. cbn [width]. lia.
  - assert (E : (a + 0) mod 2 ^ 32 = a) by (rewrite Z.add_0_r; apply Z.mod_small; unfold a; lia).
    destruct (V2Proofs.v2_exec_exact perform trap Fsw [(start, len)] pc a 0 s) as [_ D]; [| |apply D].
    + intros s0 l0 [H|[]]. injection H as <- <-. lia.
    + rewrite E. unfold a. cbn [check_size]. lia.
    + rewrite E. intros [s0 [l0 [[H|[]] Hc]]]. injection H as <- <-.
      pose proof (Hc (start + len)). cbn [check_size] in *. unfold a in *. lia.
Qed.
Print Assumptions C44_fsw_refuted.
Example C44_fsw_case : v2_exec perf trp Fsw dtcm 8 0x17ffc 0 [] = [(-7, 8)] /\
  v2_exec perf trp Fsw dtcm 8 0x17ff8 0 [] = [(0x17ff8, 4)].
Proof. split; vm_compute; reflexivity. Qed.
(** The check is defeated at the top of the address space: an access whose last
    byte is 0xffffffff passes whatever the ranges (that start below it) are. *)
Theorem C44_top_refuted : forall St (perform : v2mem -> Z -> St -> St) trap i ranges s0 l0 pc s,
  In (s0, l0) ranges -> 0 <= s0 -> s0 + l0 <= 2 ^ 32 - 8 -> 0 <= l0 ->
  v2_exec perform trap i ranges pc (2 ^ 32 - check_size i) 0 s = perform i (2 ^ 32 - check_size i) s.
Proof.
  intros St perform trap i ranges s0 l0 pc s Hi H0 H1 H2. unfold v2_exec. rewrite V2Proofs.addr_eq.
  pose proof (V2Proofs.check_size_pos i). rewrite Z.add_0_r, Z.mod_small by lia. cbv zeta.
  rewrite (V2Proofs.lsu_wrap ranges _ s0 l0) by (assumption || lia). reflexivity.
Qed.
Print Assumptions C44_top_refuted.
Example C44_top_case : ~ contained dtcm 0xfffffffc 4 /\
  v2_exec perf trp Sw dtcm 8 0xfffffffc 0 [] = [(0xfffffffc, 4)].
Proof.
  split; [|vm_compute; reflexivity].
  intros [s [l [[H|[]] Hc]]]; injection H as <- <-. pose proof (Hc 0xfffffffc). lia.
Qed.
(** A range that ends at 4 GiB admits none of its own accesses but those. *)
Theorem C44_top_range_refuted : forall St (perform : v2mem -> Z -> St -> St) trap i start len pc a s,
  0 <= start -> 0 < len -> start + len = 2 ^ 32 -> start <= a -> a + check_size i < 2 ^ 32 ->
  contained [(start, len)] a (width i) /\
  v2_exec perform trap i [(start, len)] pc a 0 s = trap (fault_code i) pc s.
Proof.
  intros St perform trap i start len pc a s H0 H1 H2 H3 H4. pose proof (V2Proofs.check_size_pos i) as Hc.
  split.
  - exists start, len. split; [left; reflexivity|]. destruct i; cbn [width check_size] in *; lia.
  - unfold v2_exec. rewrite V2Proofs.addr_eq, Z.add_0_r, Z.mod_small by lia. cbv zeta.
    destruct (lsu_valid [(start, len)] a (check_size i)) eqn:E; [|reflexivity].
    apply V2Proofs.lsu_valid_iff in E. destruct E as [s0 [l0 [[H|[]] E]]]. injection H as <- <-.
    rewrite H2, Z.mod_same in E by lia. rewrite Z.mod_small in E by lia. lia.
Qed.
Print Assumptions C44_top_range_refuted.
Example C44_top_range_case : v2_exec perf trp Lw [(0xf0000000, 0x10000000)] 8 0xf0000000 0 [] = [(-5, 8)].
Proof. vm_compute. reflexivity. Qed.

(** ** C45 *)
(** Missing: 64-bit addresses, and ranges that end below 4 or at/above 4 GiB. *)
Theorem C45_fetch_partial : forall start len a,
  0 <= start -> 0 <= len -> 4 <= start + len < 2 ^ 32 -> 0 <= a < 2 ^ 32 ->
  v2_decode start len a =
  if (start <=? a) && (a + 4 <=? start + len) then Decoded a else Invalid a.
Proof. exact V2Proofs.itcm_exact. Qed.
Print Assumptions C45_fetch_partial.
Example C45_case : v2_decode 0 0x2000 0x1ffc = Decoded 0x1ffc /\ v2_decode 0 0x2000 0x1ffd = Invalid 0x1ffd /\
  v2_decode 0x100 2 0x100 = Invalid 0x100 /\ v2_decode 0x100 4 0x100 = Decoded 0x100.
Proof. vm_compute. repeat split. Qed.
(** The exact condition, for all configurations and 64-bit addresses. *)
Theorem C45_fetch_exactly : forall start len a, u32 start -> u32 len -> 0 <= a < 2 ^ 64 ->
  v2_decode start len a = Decoded a <->
  start <= a mod 2 ^ 32 /\ ((start + len) mod 2 ^ 32 < 4 \/ a mod 2 ^ 32 + 4 <= (start + len) mod 2 ^ 32).
Proof. exact V2Proofs.itcm_iff. Qed.
Print Assumptions C45_fetch_exactly.
(** A range that ends below 4, or that ends at 4 GiB, or no range at all,
    admits every address from its start on. *)
Theorem C45_short_range_refuted : forall start len a, u32 start -> u32 len ->
  (start + len) mod 2 ^ 32 < 4 -> start <= a < 2 ^ 32 -> v2_decode start len a = Decoded a.
Proof.
  intros start len a Hs Hl H Ha. unfold u32 in *. apply V2Proofs.itcm_iff; [exact Hs | exact Hl | lia |].
  rewrite Z.mod_small by lia. split; [lia | left; exact H].
Qed.
Print Assumptions C45_short_range_refuted.
Example C45_short_range_case : v2_decode 0 2 0x12345678 = Decoded 0x12345678 /\
  v2_decode 0 0 0x12345678 = Decoded 0x12345678 /\
  v2_decode 0xffff0000 0x10000 0xfffffffe = Decoded 0xfffffffe.
Proof. vm_compute. repeat split. Qed.
(** Addresses above 4 GiB are fetched when their low half is in range. *)
Theorem C45_high_address_refuted : forall start len a k, 0 <= start -> 4 <= len -> start + len < 2 ^ 32 ->
  start <= a -> a + 4 <= start + len -> 0 <= k < 2 ^ 32 ->
  v2_decode start len (k * 2 ^ 32 + a) = Decoded (k * 2 ^ 32 + a).
Proof.
  intros start len a k H0 H1 H2 H3 H4 Hk. apply V2Proofs.itcm_iff; [unfold u32; lia | unfold u32; lia | lia |].
  rewrite Z.add_comm, Z.mod_add, !Z.mod_small by lia. lia.
Qed.
Print Assumptions C45_high_address_refuted.
Example C45_high_address_case : v2_decode 0 0x2000 0x100000010 = Decoded 0x100000010.
Proof. vm_compute. reflexivity. Qed.
(** An invalid instruction raises the instruction access fault when executed. *)
Theorem C45_fault : forall St (trap : Z -> Z -> St -> St) start len a s,
  0 <= start -> 0 <= len -> 4 <= start + len < 2 ^ 32 -> 0 <= a < 2 ^ 32 ->
  ~ (start <= a /\ a + 4 <= start + len) ->
  match v2_decode start len a with Decoded _ => False | Invalid b => run_invalid trap b s = trap 1 a s end.
Proof.
  intros St trap start len a s H0 H1 H2 H3 Hn. rewrite V2Proofs.itcm_exact by assumption.
  replace ((start <=? a) && (a + 4 <=? start + len)) with false by lia. reflexivity.
Qed.
Print Assumptions C45_fault.
Example C45_fault_case : match v2_decode 0 0x2000 0x1ffe with Invalid b => run_invalid trp b [] = [(-1, 0x1ffe)] | _ => False end.
Proof. vm_compute. reflexivity. Qed.

(** ** C46 *)
Theorem C46_mpause : forall St (trap : Z -> Z -> St -> St) hs inst s,
  (exists hs1 h hs2, hs = hs1 ++ h :: hs2 /\
     Forall (fun b => b = false) (fst (call_all hs1 inst s)) /\
     fst (h inst (snd (call_all hs1 inst s))) = true /\
     run_handlers trap hs inst s = snd (call_all (hs1 ++ [h]) inst s)) \/
  (Forall (fun b => b = false) (fst (call_all hs inst s)) /\
   run_handlers trap hs inst s = trap 3 (match inst with Some a => a | None => 0 end) (snd (call_all hs inst s))).
Proof. exact @V2Proofs.mpause_ok. Qed.
Print Assumptions C46_mpause.
(** Three handlers that record their number; handler [k] accepts if [b]. *)
Definition hk (k : Z) (b : bool) : handler (list ev) := fun _ s => (b, s ++ [(k, k)]).
Example C46_case :
  run_handlers trp (add_handler (add_handler (add_handler [] (hk 1 false)) (hk 2 true)) (hk 3 true)) (Some 64) [] = [(1, 1); (2, 2)] /\
  run_handlers trp [hk 1 false; hk 2 false] (Some 64) [] = [(1, 1); (2, 2); (-3, 64)] /\
  run_handlers trp [] None [] = [(-3, 0)].
Proof. vm_compute. repeat split. Qed.

(** ** C47 *)
Theorem C47_misa : forall v i, 0 <= v < 2 ^ 32 -> 0 <= i ->
  Z.testbit (stretch_misa v) i =
  if i <? 26 then Z.testbit v i
  else if (i =? 62) || (i =? 63) then Z.testbit v (i - 32) else false.
Proof. exact V2Proofs.misa_bits. Qed.
Print Assumptions C47_misa.
(** The default value, and one with stray bits. *)
Example C47_case : stretch_misa 0x40201120 = 0x4000000000201120 /\ stretch_misa 0xffffffff = 0xc000000003ffffff.
Proof. vm_compute. split; reflexivity. Qed.
(** The factory passes on the last ITCM range and misa value set, and all
    load/store ranges in order. *)
Theorem C47_factory : forall ops,
  c_lsu (build ops) = lsu_of ops /\
  (forall r, last_itcm ops r -> c_itcm (build ops) = r) /\
  ((forall s l, ~ In (SetItcmRange s l) ops) -> c_itcm (build ops) = (0, 0)) /\
  (forall v, last_misa ops v -> c_misa (build ops) = Some (stretch_misa v)) /\
  ((forall v, ~ In (SetInitialMisaValue v) ops) -> c_misa (build ops) = None).
Proof. exact V2Proofs.build_ok. Qed.
Print Assumptions C47_factory.
Example C47_factory_case :
  build [AddLsuAccessRange 1 2; SetItcmRange 0 8; SetInitialMisaValue 0x40000001; AddLsuAccessRange 3 4; SetItcmRange 0 16] =
  Co (0, 16) (Some 0x4000000000000001) [(1, 2); (3, 4)].
Proof. vm_compute. reflexivity. Qed.
