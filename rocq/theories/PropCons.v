(** * What a V1 run prints: property C88 *)
From Coq Require Import ZArith List Bool String Lia ZifyBool ZifyNat.
From Verif Require Import CInt LaneSpec VecModel VecSpec ConvModel ConvSpec MemModel MemSpec LogModel LogSpec.
From Verif Require Import DecodeTypes DecodeTable DecodeModel DecodeSpec V2DecTypes V2DecModel V2DecSpec V1ScalModel V1ScalSpec.
From Verif Require Import TopModel TopSpec CliModel CliSpec MachModel MachSpec RvSpec CsrModel ConsModel ConsSpec.
From Verif Require LogProofs CliProofs ConsProofs ConsProofs2 ConsProofs3 ConsProofs4 PropMach PropDecode.
Import ListNotations.
Open Scope string_scope.
Open Scope list_scope.
Open Scope Z_scope.

(** A line tells one cause: kind, address and text. *)
Theorem C88_one p x y : tells p x -> tells p y -> x = y.
Proof. exact (ConsProofs.tells_one p x y). Qed.

(** ** Any instruction set *)
Section Runs.
  Context {C : Type}.
  Variable exec : Z -> Z -> arch (C := C) -> (Z -> Z) -> effect (C := C).
  Variable evicted : Z -> Z -> bool.
  Variable says : Z -> Z -> arch (C := C) -> (Z -> Z) -> list print.
  (** The run that prints is the run of the other theorems, in every state. *)
  Theorem C88_same fuel (s : top (C := C)) : snd (p_run exec evicted says fuel s) = run exec evicted fuel s.
  Proof. exact (ConsProofs.p_run_erase exec evicted says fuel s). Qed.
  (** The output of a Run of a program just loaded is that of its instructions, up to
      the first that halts, in order. *)
  Theorem C88_order fuel boot mem pc : 0 <= pc < 2 ^ 32 ->
    let m := Mach pc boot mem in unmodified exec m -> regular exec m ->
    match p_run exec evicted says fuel (fresh boot mem pc) with
    | (o, None) => reached exec m fuel /\ o = said exec says m fuel
    | (o, Some x) => exists n r s', x = Ok (ROk, s') /\ (n <= fuel)%nat /\ halts_at exec m n r /\ o = said exec says m n /\
        t_reason s' = r /\ t_cycles s' = Z.of_nat n /\ t_arch s' = m_arch (ref exec n m) /\ t_mem s' = m_mem (ref exec n m) /\ t_pc s' = m_pc (ref exec n m)
    end.
  Proof.
    apply (ConsProofs.p_run_ok exec evicted says boot fuel (fresh boot mem pc)).
    unfold CliProofs.loaded. cbn [fresh t_arch t_status t_reason t_halted t_need t_bps t_cache t_insts t_cycles]. repeat (split; [reflexivity|]). reflexivity.
  Qed.
End Runs.
Print Assumptions C88_one.
Print Assumptions C88_same.
Print Assumptions C88_order.

(** ** The V1 machine *)
Section V1.
  Context {S : Type}.
  Notation arch := (arch (C := core S)).
  Variable d : decoder.
  Variable zbb : Z -> option act.
  Variable sys : act -> Z -> arch -> (Z -> Z) -> arch * (Z -> Z) * Z * option Z.
  Variable junk : Z -> Z -> vbytes.
  Variable ljunk : Z -> Z.
  Variable dis : Z -> Z -> list Z.
  Variable evicted : Z -> Z -> bool.
  Notation exec := (exec1 d zbb sys junk ljunk).
  Notation says := (says1 d zbb sys junk ljunk dis).

  (** *** One instruction *)
  (** Whatever the word: no line if it does not halt, but the log; else one line
      that tells a cause with this address and text, and the log. *)
  Theorem C88_line w a (s : arch) m : decoder_ok d -> sys_silent sys -> zbb_runs zbb -> 0 <= a < 2 ^ 64 ->
    let f := exec w a s m in let o := says w a s m in
    k_wrong (a_csr (f_arch f)) = false ->
    exists t, l_out (k_log (a_csr (f_arch f))) = l_out (k_log (a_csr s)) ++ t /\
    match f_halt f with
    | None => logged o t
    | Some _ => exists p x o', o = p :: o' /\ tells p x /\ blames dis w a x /\ (x = Proper -> o' = []) /\ logged o' t
    end.
  Proof. intros Hd Hs Hz Ha f o W. exact (proj2 (ConsProofs2.says_fine d zbb sys junk ljunk dis w a s m Hd Hs Hz Ha W)). Qed.
  (** The cause is the right one. *)
  Theorem C88_mpause w a (s : arch) mem : decoder_ok d -> w = 0x08000073 -> exists p, says w a s mem = [p] /\ tells p Proper.
  Proof. exact (ConsProofs3.says_mpause d zbb sys junk ljunk dis w a s mem). Qed.
  Theorem C88_illegal w a (s : arch) mem : decode1 d w = None -> zbb w = None -> 0 <= a < 2 ^ 64 -> exists p, says w a s mem = [p] /\ tells p (Illegal a).
  Proof. exact (ConsProofs3.says_illegal d zbb sys junk ljunk dis w a s mem). Qed.
  Theorem C88_load m w a (s : arch) mem T x i : decoder_ok d -> proper m w -> lookup (m_name m) load_specs = Some T -> values m w (a_regs s) [x; i] -> 0 <= a < 2 ^ 64 ->
    let o := says w a s mem in let at_ := (x + i) mod 2 ^ 32 in
    (at_ < top_address -> o = []) /\ (top_address <= at_ -> exists p, o = [p] /\ tells p (BadLoad a (dis w a))).
  Proof. exact (ConsProofs3.says_load d zbb sys junk ljunk dis m w a s mem T x i). Qed.
  Theorem C88_store m w a (s : arch) mem T x i y : decoder_ok d -> proper m w -> lookup (m_name m) store_specs = Some T -> values m w (a_regs s) [x; i; y] -> 0 <= a < 2 ^ 64 ->
    let o := says w a s mem in let at_ := (x + i) mod 2 ^ 31 in
    (at_ < top_address -> o = []) /\ (top_address <= at_ -> exists p, o = [p] /\ tells p (BadStore a (dis w a))).
  Proof. exact (ConsProofs3.says_store d zbb sys junk ljunk dis m w a s mem T x i y). Qed.
  Theorem C88_string m w a (s : arch) mem x : decoder_ok d -> proper m w -> In (m_name m) ["flog"; "klog"] -> values m w (a_regs s) [x] -> 0 <= a < 2 ^ 64 ->
    k_wrong (a_csr (f_arch (exec w a s mem))) = false -> top_address <= x mod 2 ^ 32 ->
    exists p o, says w a s mem = p :: o /\ tells p (BadLoad a (dis w a)).
  Proof. exact (ConsProofs3.says_log d zbb sys junk ljunk dis m w a s mem x). Qed.
  (** flog of a text in memory: a complaint for each conversion that does not suit its
      argument, then the text. *)
  Theorem C88_text m w a (s : arch) mem x f o n : decoder_ok d -> proper m w -> m_name m = "flog" -> values m w (a_regs s) [x] ->
    (forall b, 0 <= mem b < 256) -> cstring mem (x mod 2 ^ 32) f -> x mod 2 ^ 32 + Z.of_nat (length f) / 4 * 4 + 3 < top_address -> Z.of_nat (length f) < 2 ^ 20 ->
    Forall wf_arg (l_args (k_log (a_csr s))) -> prints f (l_args (k_log (a_csr s))) o -> misses f (l_args (k_log (a_csr s))) n ->
    says w a s mem = repeat (SErr, chars "incorrect format" ++ [10]) n ++ [(SOut, o)] /\
    f_halt (exec w a s mem) = None /\ f_mem (exec w a s mem) = mem /\
    k_log (a_csr (f_arch (exec w a s mem))) = LS [] (l_clog (k_log (a_csr s))) (l_out (k_log (a_csr s)) ++ o).
  Proof. exact (ConsProofs4.says_flog d zbb sys junk ljunk dis m w a s mem x f o n). Qed.
  Theorem C88_vector w e a (s : arch) m : decoder_ok d -> parse d w = Some e -> ~ is_scalar_op (e_sem e) -> a_regs s 0 = 0 -> acc_wf (k_acc (a_csr s)) -> 0 <= a < 2 ^ 64 ->
    let o := says w a s m in
    (~ faults w (e_name e) s -> o = []) /\
    (faults w (e_name e) s -> exists p, o = [p] /\
      tells p (match meaning (e_name e) with Some SmConv => Illegal a | Some (SmLd _ _ _ _ _ _) => BadLoad a (dis w a) | _ => BadStore a (dis w a) end)).
  Proof. exact (ConsProofs3.says_vec d zbb sys junk ljunk dis w e a s m). Qed.
  (** The others print nothing. *)
  Theorem C88_quiet m w a (s : arch) mem : decoder_ok d -> proper m w -> ~ In (m_name m) halting -> a_regs s 0 = 0 -> acc_wf (k_acc (a_csr s)) -> says w a s mem = [].
  Proof. exact (ConsProofs3.says_quiet d zbb sys junk ljunk dis m w a s mem). Qed.

  (** *** A run *)
  (** As long as the program has not halted there is only its log. When it has, there
      is one line more, and it blames the last instruction. *)
  Theorem C88_end fuel boot mem pc : decoder_ok d -> sys_silent sys -> zbb_runs zbb -> 0 <= pc < 2 ^ 32 ->
    let m := Mach pc boot mem in unmodified exec m -> regular exec m ->
    match p_run exec evicted says fuel (fresh boot mem pc) with
    | (o, None) => let s' := m_arch (ref exec fuel m) in
        k_wrong (a_csr s') = false -> exists t, l_out (k_log (a_csr s')) = l_out (k_log (a_csr boot)) ++ t /\ logged o t
    | (o, Some y) => exists n r s', y = Ok (ROk, s') /\ halts_at exec m n r /\ t_reason s' = r /\ t_cycles s' = Z.of_nat n /\ t_arch s' = m_arch (ref exec n m) /\
        (k_wrong (a_csr (t_arch s')) = false ->
         let last := ref exec (n - 1) m in
         exists o1 p o2 x t, o = o1 ++ p :: o2 /\ tells p x /\ blames dis (word_at last) (m_pc last) x /\ (x = Abort <-> r = RAbort) /\ (x = Proper -> o2 = []) /\
           l_out (k_log (a_csr (t_arch s'))) = l_out (k_log (a_csr boot)) ++ t /\ logged (o1 ++ o2) t)
    end.
  Proof.
    intros Hd Hs Hz Hp m U G. pose proof (C88_order exec evicted says fuel boot mem pc Hp U G) as X.
    destruct (p_run exec evicted says fuel (fresh boot mem pc)) as [o [y|]].
    - destruct X as (n & r & s' & -> & _ & Hh & -> & Er & Ec & Ea & _ & _). exists n, r, s'. split; [reflexivity|]. split; [exact Hh|]. split; [exact Er|]. split; [exact Ec|].
      split; [exact Ea|]. intros W. rewrite Ea in *. exact (ConsProofs3.run_tells d zbb sys junk ljunk dis m n r Hd Hs Hz G Hp Hh W).
    - destruct X as (R & ->). intros s' W. exact (ConsProofs3.run_logs d zbb sys junk ljunk dis m Hd Hs Hz G Hp fuel R W).
  Qed.
  (** *** The batch mode of the command-line simulator *)
  (** Everything on standard output if the program calls mpause. *)
  Theorem C88_stdout secs fuel boot mem pc n r : decoder_ok d -> sys_silent sys -> zbb_runs zbb -> 0 <= pc < 2 ^ 32 ->
    let m := Mach pc boot mem in unmodified exec m -> regular exec m -> halts_at exec m n r -> (n <= fuel)%nat ->
    let s' := m_arch (ref exec n m) in k_wrong (a_csr s') = false -> word_at (ref exec (n - 1) m) = 0x08000073 ->
    exists t c, l_out (k_log (a_csr s')) = l_out (k_log (a_csr boot)) ++ t /\ numeral 10 (Z.of_nat n mod 2 ^ 64) c /\
      on_out (fst (p_batch exec evicted says secs fuel (fresh boot mem pc))) =
        chars "Starting simulation" ++ [10] ++ t ++ chars "Program exits properly" ++ [10] ++
        chars "Total cycles: " ++ c ++ [10] ++ chars "Simulation done: " ++ secs ++ chars " sec" ++ [10].
  Proof.
    intros Hd Hs Hz Hp m U G Hh Hf s' W Hw. pose proof (C88_order exec evicted says fuel boot mem pc Hp U G) as X.
    unfold p_batch. destruct (p_run exec evicted says fuel (fresh boot mem pc)) as [o [y|]].
    2: { exfalso. destruct X as (R & _). change (Mach pc boot mem) with m in R. destruct Hh as (H0 & _ & H2). rewrite (R (n - 1)%nat) in H2 by lia. discriminate H2. }
    destruct X as (n' & r' & s1 & -> & _ & Hh' & -> & Er & Ec & Ea & _ & _). change (Mach pc boot mem) with m in Hh', Ea |- *.
    assert (n' = n).
    { destruct Hh as (H0 & Hr & Hx), Hh' as (H0' & Hr' & Hx'). destruct (Nat.lt_trichotomy n n') as [K|[K|K]]; [|auto|].
      - rewrite (Hr' (n - 1)%nat) in Hx by lia. discriminate.
      - rewrite (Hr (n' - 1)%nat) in Hx' by lia. discriminate. }
    subst n'. destruct (ConsProofs3.run_proper d zbb sys junk ljunk dis m n r Hd Hs Hz G Hp Hh W Hw) as (t & Et & Lo).
    exists t, (dec (Z.of_nat n mod 2 ^ 64)). split; [exact Et|]. split.
    { unfold dec. apply LogProofs.numeral_digits; [lia| |discriminate]. change (10 ^ Z.of_nat 20) with 100000000000000000000.
      pose proof (Z.mod_pos_bound (Z.of_nat n) (2 ^ 64) ltac:(lia)). lia. }
    rewrite Ec. set (o := said exec says m n) in *. clearbody o. unfold on_out in *. cbn [fst flat_map snd]. rewrite flat_map_app. cbn [flat_map fst snd].
    unfold print in *. rewrite Lo.
    rewrite ?app_nil_r, <- ?app_assoc. reflexivity.
  Qed.
End V1.
Print Assumptions C88_line.
Print Assumptions C88_mpause.
Print Assumptions C88_illegal.
Print Assumptions C88_load.
Print Assumptions C88_store.
Print Assumptions C88_string.
Print Assumptions C88_text.
Print Assumptions C88_vector.
Print Assumptions C88_quiet.
Print Assumptions C88_end.
Print Assumptions C88_stdout.

(** The csr instructions of C86 meet the contract if the privileged ones do. *)
Theorem C88_contract {S} (csrs : csr_file S) priv : sys_silent priv -> sys_silent (csr_sys csrs priv).
Proof.
  intros H c a s m. unfold csr_sys, read_modify.
  destruct (csr_fn_of (a_sem c)) as [[]|]; try (apply H);
    (destruct (a_src c) as [|p [|q [|]]]; try apply H; destruct (a_dst c) as [|r [|r' [|]]]; try apply H);
    destruct (c_ok csrs _ _ _); try (split; reflexivity);
    try destruct (c_read csrs _ _); cbn [fst with_core set_sys a_csr k_log k_wrong]; rewrite ?ConsProofs2.set_dst_core; split; reflexivity.
Qed.
Print Assumptions C88_contract.

(** ** Cases *)
(** Words from address 0, a text at 64, and a made-up disassembler. *)
Definition c_mem (l t : list Z) (x : Z) : Z :=
  if x <? 64 then (nth (Z.to_nat (x / 4)) l 0 / 256 ^ (x mod 4)) mod 256 else nth (Z.to_nat (x - 64)) t 0.
Definition c_dis (w a : Z) : list Z := chars "text of " ++ digits 8 16 w.
Definition c_says := says1 first_match (fun _ => None) PropMach.m_sys (fun _ _ _ => 170) (fun _ => 0) c_dis.
Definition c_batch (l t : list Z) (g : list (Z * Z)) : list print :=
  fst (p_batch PropMach.m_exec (fun _ _ => false) c_says (chars "0.5") 9 (fresh (PropMach.m_arch0 g) (c_mem l t) 0)).
(** slog x7; flog x6; mpause. *)
Definition c_prog : list Z := [0x78039077; 0x78030077; 0x08000073].
Definition c_start : mach (C := core unit) := Mach 0 (PropMach.m_arch0 [(6, 64); (7, 42)]) (c_mem c_prog (chars "n=%u;")).
Definition c_line (t : list Z) : print := (SOut, t ++ [10]).
Lemma c_halts : halts_at PropMach.m_exec c_start 3 RUserRequest.
Proof.
  split; [lia|]. split; [|vm_compute; reflexivity]. intros i Hi. assert (i = 0 \/ i = 1)%nat as [-> | ->] by lia; vm_compute; reflexivity.
Qed.
Lemma c_reached k : reached PropMach.m_exec c_start k -> (k <= 2)%nat.
Proof. intros R. destruct (le_lt_dec k 2) as [L|L]; [exact L|]. exfalso. pose proof (R 2%nat L) as H. change 2%nat with (3 - 1)%nat in H. rewrite (proj2 (proj2 c_halts)) in H. discriminate H. Qed.
Example C88_case :
  decoder_ok first_match /\ sys_silent PropMach.m_sys /\ zbb_runs (fun _ => None) /\
  unmodified PropMach.m_exec c_start /\ regular PropMach.m_exec c_start /\ halts_at PropMach.m_exec c_start 3 RUserRequest /\
  k_wrong (a_csr (m_arch (ref PropMach.m_exec 3 c_start))) = false /\ word_at (ref PropMach.m_exec 2 c_start) = 0x08000073 /\
  c_batch c_prog (chars "n=%u;") [(6, 64); (7, 42)] =
    [c_line (chars "Starting simulation"); (SOut, chars "n=42;"); c_line (chars "Program exits properly");
     c_line (chars "Total cycles: 3"); c_line (chars "Simulation done: 0.5 sec")].
Proof.
  assert (K : forall k, (k <= 2)%nat -> k = 0%nat \/ k = 1%nat \/ k = 2%nat) by lia.
  split; [exact PropDecode.first_match_ok|]. split; [split; reflexivity|]. split; [discriminate|].
  split; [|split; [|split; [exact c_halts|split; [vm_compute; reflexivity|split; vm_compute; reflexivity]]]].
  - intros i j L R E. pose proof (c_reached j R) as J.
    destruct (K j J) as [-> |[-> | -> ]], (K i (Nat.le_trans _ _ _ L J)) as [-> |[-> | -> ]];
      first [reflexivity|vm_compute in E; discriminate].
  - intros k R. destruct (K k (c_reached k R)) as [-> |[-> | -> ]].
    all: split; [vm_compute; split; [discriminate|reflexivity]|].
    all: intros r H; vm_compute in H; first [discriminate|injection H as <-; split; discriminate].
Qed.
(** The other causes: a refused word, a load, a vector load and a vector store beyond
    memory, a bad aconv; a log with a misfit. *)
Example C88_lines_case :
  let say w g := c_says w 0x1234 (PropMach.m_arch0 g) PropMach.m_bytes in
  say 0xffffffff [] = [(SErr, chars "Illegal instruction at 0x1234" ++ [10])] /\
  say 0x432283 [(6, 2 ^ 31)] = [(SErr, chars "Memory load access fault at 0x1234 as: text of 432283" ++ [10])] /\ say 0x432283 [] = [] /\
  say 0x732223 [(6, 2 ^ 30)] = [(SErr, chars "Memory store access fault at 0x1234 as: text of 732223" ++ [10])] /\
  say PropMach.vldw (PropMach.top_regs 0x3ffff0) = [(SErr, chars "Memory load access fault at 0x1234 as: text of 14d5203f" ++ [10])] /\
  say 0x80902c05 [(9, 0x400)] = [(SErr, chars "Illegal instruction at 0x1234" ++ [10])] /\
  c_batch c_prog (chars "n=%s;") [(6, 64); (7, 42)] =
    [c_line (chars "Starting simulation"); (SErr, chars "incorrect format" ++ [10]); (SOut, chars "n=;"); c_line (chars "Program exits properly");
     c_line (chars "Total cycles: 3"); c_line (chars "Simulation done: 0.5 sec")].
Proof. repeat apply conj; vm_compute; reflexivity. Qed.
(** flog of "n=%s;" with the argument 42, of C88_lines_case. *)
Example C88_text_case :
  PropMach.shows (length manual1 - 4) 0x78030077 (PropMach.m_regs [(6, 64)]) "flog" [64] = true /\
  cstring (c_mem c_prog (chars "n=%s;")) 64 (chars "n=%s;") /\ misses (chars "n=%s;") [AInt 42] 1 /\ prints (chars "n=%s;") [AInt 42] (chars "n=;").
Proof.
  split; [vm_compute; reflexivity|]. split; [|split].
  - split; [change (chars "n=%s;") with [110; 61; 37; 115; 59]; repeat (constructor; [discriminate|]); constructor|].
    split; [|vm_compute; reflexivity]. intros i Hi. change (length (chars "n=%s;")) with 5%nat in Hi.
    assert (i = 0 \/ i = 1 \/ i = 2 \/ i = 3 \/ i = 4)%nat as [->|[->|[->|[->| ->]]]] by lia; vm_compute; reflexivity.
  - change (chars "n=%s;") with [110; 61; 37; 115; 59]. apply mi_char; [lia|]. apply mi_char; [lia|]. apply mi_bad; [change (~ In 115 [117; 100; 120]); cbn [In]; lia|]. apply mi_char; [lia|]. apply mi_end.
  - change (chars "n=%s;") with [110; 61; 37; 115; 59]. change (chars "n=;") with [110; 61; 59]. apply p_char; [lia|]. apply p_char; [lia|].
    apply (p_conv 115 [59] (AInt 42) [] [] [59]); [reflexivity|]. apply p_char; [lia|]. apply p_end.
Qed.
(** ebreak. *)
Example C88_ebreak_case : c_batch [0x13; 0x00100073] [] [] =
  [c_line (chars "Starting simulation"); c_line (chars "Program exits with fault"); c_line (chars "Total cycles: 2"); c_line (chars "Simulation done: 0.5 sec")].
Proof. vm_compute. reflexivity. Qed.

(** C88 refuted for standard output alone: a program that logs the text of the last
    line and then hits a refused word prints there what one that ends with mpause does. *)
Theorem C88_stdout_refuted : exists l t g l', on_out (c_batch l t g) = on_out (c_batch l' [] []) /\
  (exists p, In p (c_batch l t g) /\ tells p (Illegal 4)) /\ (exists p, In p (c_batch l' [] []) /\ tells p Proper) /\
  (forall p, In p (c_batch l' [] []) -> fst p = SOut).
Proof.
  exists [0x78030077; 0xffffffff], (chars "Program exits properly" ++ [10]), [(6, 64)], [0x13; 0x08000073].
  remember (c_batch [0x78030077; 0xffffffff] (chars "Program exits properly" ++ [10]) [(6, 64)]) as o1 eqn:E1. remember (c_batch [0x13; 0x08000073] [] []) as o2 eqn:E2.
  vm_compute in E1, E2. subst o1 o2. split; [vm_compute; reflexivity|]. split; [|split].
  - eexists. split; [right; right; left; reflexivity|]. exists [52]. split; [|reflexivity].
    split; [|split; [discriminate|reflexivity]]. change [52] with ([] ++ [52]). change 4 with (0 * 16 + 4). constructor; [constructor|reflexivity|lia].
  - eexists. split; [right; left; reflexivity|]. reflexivity.
  - intros p H. repeat (destruct H as [<-|H]; [reflexivity|]). destruct H.
Qed.
Print Assumptions C88_stdout_refuted.
