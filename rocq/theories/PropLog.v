(** * Log instructions and scalar stores: properties C41-C43 *)
From Coq Require Import ZArith List Bool Lia.
From Verif Require Import CInt LogModel LogSpec.
From Verif Require LogProofs.
Import ListNotations.
Open Scope Z_scope.

(** Memory for the examples: the string [s] at address [a], 255 elsewhere. *)
Definition mem_of (a : Z) (s : list Z) : Z -> Z :=
  fun x => if (a <=? x) && (x <? a + Z.of_nat (length s)) then nth (Z.to_nat (x - a)) s 0 else 255.
Definition env_of (a : Z) (s : list Z) : lenv := LE (mem_of a s) 0x3fffff (fun x => 0x3fffff <? x + 3) 77.
Lemma env_sane a s : Forall (fun c => 0 <= c < 256) s -> sane (env_of a s).
Proof.
  intro H. split.
  - intro x. cbn. unfold mem_of. destruct ((a <=? x) && (x <? a + Z.of_nat (length s))) eqn:E; [|lia].
    rewrite Forall_forall in H. apply H, nth_In. lia.
  - intros x _ Hx. cbn in *. lia.
Qed.
Lemma env_cstring a s : no_nul s -> cstring (e_mem (env_of a (s ++ [0]))) a s.
Proof.
  intro H. split; [exact H|]. cbn. unfold mem_of. rewrite app_length. cbn [length]. split.
  - intros i Hi. replace ((a <=? a + Z.of_nat i) && (a + Z.of_nat i <? a + Z.of_nat (length s + 1))) with true by lia.
    replace (Z.to_nat (a + Z.of_nat i - a)) with i by lia. symmetry. apply app_nth1, Hi.
  - replace ((a <=? a + Z.of_nat (length s)) && (a + Z.of_nat (length s) <? a + Z.of_nat (length s + 1))) with true by lia.
    replace (Z.to_nat (a + Z.of_nat (length s) - a)) with (length s) by lia.
    rewrite app_nth2 by lia. rewrite Nat.sub_diag. reflexivity.
Qed.

(** ** C41 *)
(** What flog does with the format [f]: it prints, or the process dies for want
    of an argument, or it reads past the end of the format. One of the three
    always applies, and the printed text is unique. *)
Theorem C41_format_partial : forall f s, no_nul f -> Forall wf_arg (l_args s) ->
  (forall o, prints f (l_args s) o -> print_log (f ++ [0]) s = Ok (LS [] (l_clog s) (l_out s ++ o))) /\
  (starved f (l_args s) <-> print_log (f ++ [0]) s = Crash) /\
  (dangling f (l_args s) <-> print_log (f ++ [0]) s = UB OutOfBounds) /\
  ((exists o, prints f (l_args s) o) \/ starved f (l_args s) \/ dangling f (l_args s)).
Proof. exact LogProofs.print_log_ok. Qed.
Print Assumptions C41_format_partial.
Theorem C41_text_unique : forall f args o o', prints f args o -> prints f args o' -> o = o'.
Proof. exact LogProofs.prints_unique. Qed.
Print Assumptions C41_text_unique.

(** Any sequence of slog, clog and klog instructions followed by flog prints
    the format with the arguments they gathered and leaves no argument. *)
Theorem C41_program_partial : forall p ops l p' e a f o s,
  gathers p ops l p' -> no_nul p -> l_clog s = p -> Forall wf_arg (l_args s) ->
  sane e -> cstring (e_mem e) (a mod 2 ^ 32) f -> inside e (a mod 2 ^ 32) (length f) ->
  prints f (l_args s ++ l) o ->
  exists n, forall fuel, (n < fuel)%nat ->
    exec_logs fuel (ops ++ [Flog e a]) s = Some (Ok (LS [] p' (l_out s ++ o))).
Proof. exact LogProofs.program_ok. Qed.
Print Assumptions C41_program_partial.
(** slog -3, clog "abcd", slog 255, clog "ef\0?", klog "ok", then flog of
    "d=%d s=%s x=%x %s" (with the clog words split around a slog). *)
Definition txt_f := [100; 61; 37; 100; 32; 120; 61; 37; 120; 32; 37; 115; 44; 37; 115].
Definition ops0 := [Slog (2 ^ 32 - 3); Clog 0x64636261; Slog 255; Clog 0x3f006665;
                    Klog (env_of 0x101 [111; 107; 0]) 0x101].
Example C41_case :
  (exists l, gathers [] ops0 l [] /\ length l = 4%nat) /\
  exec_logs 40 (ops0 ++ [Flog (env_of 0x2003 (txt_f ++ [0])) 0x2003]) (LS [] [] [33]) =
  Some (Ok (LS [] [] (* !d=-3 x=ff abcdef,ok *)
    [33; 100; 61; 45; 51; 32; 120; 61; 102; 102; 32; 97; 98; 99; 100; 101; 102; 44; 111; 107])) /\
  prints txt_f [AInt (2 ^ 32 - 3); AInt 255; AStr [97]; AStr []]
    [100; 61; 45; 51; 32; 120; 61; 102; 102; 32; 97; 44].
Proof.
  split; [|split; [vm_compute; reflexivity|]].
  - eexists. split; [|instantiate (1 := [_; _; _; _]); reflexivity].
    apply g_slog. apply g_clog_more.
    { intros i Hi. do 4 (destruct i as [|i]; [vm_compute; discriminate|]). lia. }
    apply g_slog. eapply (g_clog_end _ _ 2); [lia | reflexivity | |].
    { intros i Hi. do 2 (destruct i as [|i]; [vm_compute; discriminate|]). lia. }
    eapply g_klog; [| | | apply g_nil].
    + apply env_sane. repeat constructor; lia.
    + apply (env_cstring 0x101 [111; 107]). repeat constructor; lia.
    + vm_compute. intuition discriminate.
  - do 2 (apply p_char; [discriminate|]).
    apply (p_conv _ _ _ _ [45; 51]); [vm_compute; exists [51]; split; [reflexivity|]; split; [|split; [discriminate | discriminate]]; apply (pos_snoc 10 [] 0 51 3); [constructor | reflexivity | lia]|].
    do 3 (apply p_char; [discriminate|]).
    apply (p_conv _ _ _ _ [102; 102]).
    { split; [|split; discriminate]. apply (pos_snoc 16 [102] 15 102 15); [|reflexivity | lia].
      apply (pos_snoc 16 [] 0 102 15); [constructor | reflexivity | lia]. }
    apply p_char; [discriminate|]. apply (p_conv _ _ _ _ [97]); [reflexivity|].
    apply p_char; [discriminate|]. apply (p_conv _ _ _ _ [] []); [reflexivity|]. constructor.
Qed.

(** "no memory error for any format string" is false: a format ending in a
    percent sign makes flog read past the end of the format string. *)
Theorem C41_trailing_percent_refuted : forall f, no_nul f -> ~ In 37 f ->
  forall v c o, 0 <= v < 2 ^ 32 ->
  print_log (f ++ [37] ++ [0]) (LS [AInt v] c o) = UB OutOfBounds.
Proof.
  intros f Hf Hn v c o Hv.
  destruct (LogProofs.print_log_ok (f ++ [37]) (LS [AInt v] c o)) as [_ [_ [[D _] _]]].
  - apply Forall_app. split; [exact Hf | repeat constructor; discriminate].
  - repeat constructor; apply Hv.
  - rewrite app_assoc. apply D. cbn [l_args]. clear - Hn. induction f as [|x f IH]; [constructor|].
    cbn [app]. apply d_char; [intros ->; apply Hn; left; reflexivity|]. apply IH. intro H. apply Hn. right. exact H.
Qed.
Print Assumptions C41_trailing_percent_refuted.
(** "50%": three ordinary characters to printf, past the end here. *)
Example C41_trailing_percent_case :
  print_log [53; 48; 37; 0] (LS [AInt 7] [] []) = UB OutOfBounds.
Proof. reflexivity. Qed.
(** A conversion without an argument kills the process; a guest program can do
    this with a single flog. *)
Theorem C41_missing_argument_refuted : forall f g c o, no_nul (f ++ 37 :: g) -> ~ In 37 f ->
  print_log ((f ++ 37 :: g) ++ [0]) (LS [] c o) = Crash.
Proof.
  intros f g c o Hf Hn. destruct (LogProofs.print_log_ok (f ++ 37 :: g) (LS [] c o)) as [_ [[D _] _]];
    [exact Hf | constructor |]. apply D. cbn [l_args]. clear - Hn. induction f as [|x f IH]; [constructor|].
  cbn [app]. apply st_char; [intros ->; apply Hn; left; reflexivity|]. apply IH. intro H. apply Hn. right. exact H.
Qed.
Print Assumptions C41_missing_argument_refuted.
(** "%%" is not a literal percent sign: it takes an argument and prints nothing. *)
Theorem C41_percent_percent_refuted : exists f s t, no_nul f /\
  print_log (f ++ [0]) s = Ok t /\ f = [37; 37; 37; 117] /\ l_args s = [AInt 7; AInt 8] /\ l_out s = [] /\
  l_out t = [56].
Proof.
  exists [37; 37; 37; 117], (LS [AInt 7; AInt 8] [] []), (LS [] [] [56]).
  repeat split; try reflexivity. repeat constructor; discriminate.
Qed.
Print Assumptions C41_percent_percent_refuted.

(** ** C42 *)
Theorem C42_string_load_partial : forall fuel e a s, sane e -> cstring (e_mem e) (a mod 2 ^ 32) s ->
  inside e (a mod 2 ^ 32) (length s) -> (length s < fuel)%nat ->
  string_load fuel e a = Some (Ok s).
Proof. exact LogProofs.string_load_ok. Qed.
Print Assumptions C42_string_load_partial.
(** Unaligned, seven characters, terminator in the second group. *)
Example C42_case : let s := [104; 101; 108; 108; 111; 33; 200] in let e := env_of 0x33 (s ++ [0; 9]) in
  sane e /\ cstring (e_mem e) (0x33 mod 2 ^ 32) s /\ inside e (0x33 mod 2 ^ 32) (length s) /\
  string_load 8 e 0x33 = Some (Ok s) /\ load_loop 2 e 0x33 77 [] = Some (s ++ [0]).
Proof.
  cbv zeta. split; [apply env_sane; repeat constructor; lia|]. split; [|split; [|split; vm_compute; reflexivity]].
  - split; [repeat constructor; discriminate|]. split; [|reflexivity].
    intros i Hi. do 7 (destruct i as [|i]; [reflexivity|]). cbn [length] in Hi. lia.
  - vm_compute. intuition discriminate.
Qed.
(** The arguments gathered by a sequence of log instructions: one per slog and
    klog, and one per clog word with a zero byte, made of the characters of the
    clog words since the previous one. *)
Theorem C42_gathering : forall p ops l p', gathers p ops l p' -> no_nul p ->
  no_nul p' /\ Forall wf_arg l /\
  exists n, forall fuel s, (n < fuel)%nat -> l_clog s = p ->
    exec_logs fuel ops s = Some (Ok (LS (l_args s ++ l) p' (l_out s))).
Proof.
  intros p ops l p' G Hp. destruct (LogProofs.gathers_ok p ops l p' G Hp) as [A [B C]].
  split; [exact A|]. split; [exact B|]. exists (LogProofs.fuel_for l). exact C.
Qed.
Print Assumptions C42_gathering.
Example C42_gathering_case : exec_logs 9 [Clog 0x64636261; Clog 0; Clog 0x00420041] (LS [AInt 1] [] []) =
  Some (Ok (LS [AInt 1; AStr [97; 98; 99; 100]; AStr [65]] [] [])).
Proof. reflexivity. Qed.
(** Without a terminator the process dies. *)
Theorem C42_no_terminator : forall e a, sane e -> (forall x, e_max e < x + 3 -> e_fault e x = true) ->
  0 <= a -> a + 3 <= e_max e -> e_max e + 8 < 2 ^ 32 ->
  (forall x, a <= x -> x <= e_max e -> e_mem e x <> 0) ->
  exists n, forall fuel, (n < fuel)%nat -> string_load fuel e a = Some Crash.
Proof. exact LogProofs.string_load_none. Qed.
Print Assumptions C42_no_terminator.
Example C42_no_terminator_case : let e := env_of 0 [] in
  sane e /\ (forall x, e_max e < x + 3 -> e_fault e x = true) /\ (forall x, e_mem e x <> 0) /\
  string_load 9 e 0x3ffff1 = Some Crash.
Proof.
  cbv zeta. split; [apply env_sane; constructor|]. split; [intros x Hx; cbn in *; lia|].
  split; [|vm_compute; reflexivity]. intro x. cbn. unfold mem_of. cbn [length].
  replace ((0 <=? x) && (x <? 0 + Z.of_nat 0)) with false by lia. discriminate.
Qed.
(** A terminator below the limit is not enough: the load of its 4-byte group may
    reach beyond memory and trap, and then the previous group is used again. *)
Theorem C42_last_group_refuted : exists e a s, sane e /\ cstring (e_mem e) a s /\
  a + Z.of_nat (length s) <= e_max e /\ 0 <= a < 2 ^ 32 /\
  (forall x, e_max e < x + 3 -> e_fault e x = true) /\ string_load 9 e a = Some Crash.
Proof.
  exists (env_of 0x3ffffa [65; 66; 67; 68; 69; 0]), 0x3ffffa, [65; 66; 67; 68; 69].
  split; [apply env_sane; repeat constructor; lia|].
  split; [apply (env_cstring 0x3ffffa [65; 66; 67; 68; 69]); repeat constructor; discriminate|].
  split; [vm_compute; discriminate|]. split; [lia|]. split; [intros x Hx; cbn in *; lia|].
  vm_compute. reflexivity.
Qed.
Print Assumptions C42_last_group_refuted.

(** ** C43 *)
Theorem C43_store : forall T small base off val m, In T [U8; U16; U32] -> forall A,
  exec_store T small base off val m A =
  let a := store_addr small base off in
  if (a <=? A) && (A <? a + opbytes T) then (val / 256 ^ (A - a)) mod 256 else m A.
Proof. exact LogProofs.store_ok. Qed.
Print Assumptions C43_store.
(** sh with the cache-invalidation bit and a negative offset. *)
Example C43_case : let m := exec_store U16 true 0x80000010 (-6) 0xdeadbeef (fun x => x) in
  map m [9; 10; 11; 12] = [9; 0xef; 0xbe; 12] /\ store_addr true 0x80000010 (-6) = 10 /\
  store_addr false 0x80000010 (-6) = 0x8000000a.
Proof. vm_compute. repeat split. Qed.
