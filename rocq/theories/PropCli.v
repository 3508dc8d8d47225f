(** * Command-line simulators: C67-C69 *)
From Coq Require Import ZArith List Bool String Lia ZifyBool ZifyNat.
From Verif Require Import CInt LogModel LogSpec V2Model V2Spec TopModel TopSpec TopToy CliModel CliSpec CliProofs.
From Verif Require PropV2.
Import ListNotations.
Open Scope Z_scope.
Open Scope list_scope.

(** ** C67 *)
Section V1.
  Context {C : Type}.
  Variable exec : Z -> Z -> arch (C := C) -> (Z -> Z) -> effect (C := C).
  Variable evicted : Z -> Z -> bool.
  Variable reg_id : string -> option Z.
  Variable reg_size : Z -> Z.
  Variable csr_id : string -> option Z.
  Variable csr_get : Z -> C -> Z.
  Variable csr_set : Z -> Z -> C -> C.
  Variable boot : arch (C := C).
  Variable boot_pc : Z.
  Variable files : string -> option (list Z).
  Variable elf : list Z -> (Z -> Z) -> option (Z * (Z -> Z)).
  Variable secs : list Z.
  Notation main := (main exec evicted reg_id reg_size csr_id csr_set boot boot_pc files elf secs).
  (** The pc register has four bytes. *)
  Definition has_pc : Prop := exists p, reg_id pc_name = Some p /\ reg_size p = 4.

  (** A raw image is written at the offset over zeroed memory and executed from the
      entry point to the first halting instruction; images that do not fit are
      refused.  Missing: files of fewer than four bytes, see below. *)
  Theorem C67_image_partial fuel f name l e : has_pc ->
    files name = Some l -> byte_file l -> (4 <= length l)%nat -> ~ elf_magic l ->
    fl_i f = false -> fl_interactive f = false -> fl_entry f = Some e -> 0 <= e < 2 ^ 32 -> 0 <= fl_offset f < 2 ^ 32 ->
    if fl_offset f + Z.of_nat (length l) <=? 0x400000 then
      exists mem, (forall x, mem x = if (fl_offset f <=? x) && (x <? fl_offset f + Z.of_nat (length l))
                                     then nth (Z.to_nat (x - fl_offset f)) l 0 else 0) /\
        (unmodified exec (Mach e boot mem) -> regular exec (Mach e boot mem) ->
         exists x, main fuel f [name] = Ok x /\ batch exec boot e mem secs fuel [] x)
    else main fuel f [name] = Ok (Refused [MLoad]).
  Proof.
    intros (p & H1 & H2).
    exact (main_image exec evicted reg_id reg_size csr_id csr_set boot boot_pc files elf secs p H1 H2 fuel f name l e).
  Qed.
  (** An ELF file goes to the ELF loader; the flag overrides its entry point, with a
      warning. *)
  Theorem C67_elf fuel f name l : has_pc ->
    files name = Some l -> byte_file l -> elf_magic l -> (forall e, fl_entry f = Some e -> 0 <= e < 2 ^ 32) ->
    match elf l (fun _ => 0) with
    | None => main fuel f [name] = Ok (Refused [MLoad])
    | Some (elf_entry, mem) =>
        let entry := match fl_entry f with Some e => e | None => elf_entry mod 2 ^ 32 end in
        let log := if elf_entry =? entry then [] else [MEntryDiffers elf_entry entry] in
        unmodified exec (Mach entry boot mem) -> regular exec (Mach entry boot mem) ->
        exists x, main fuel f [name] = Ok x /\
          if fl_i f || fl_interactive f then exists s, x = Shell log s /\ at_start boot entry mem s
          else batch exec boot entry mem secs fuel log x
    end.
  Proof.
    intros (p & H1 & H2).
    exact (main_elf exec evicted reg_id reg_size csr_id csr_set boot boot_pc files elf secs p H1 H2 fuel f name l).
  Qed.
  (** Refused without running anything: not exactly one file; a raw or missing file
      in interactive mode, without an entry point, or unreadable. *)
  Theorem C67_refused fuel f args :
    (length args <> 1%nat -> main fuel f args = Ok (Refused [MOneFile])) /\
    (forall name, args = [name] ->
      (files name = None \/ exists l, files name = Some l /\ byte_file l /\ (4 <= length l)%nat /\ ~ elf_magic l) ->
      (fl_i f = true \/ fl_interactive f = true -> main fuel f args = Ok (Refused [MNeedElf])) /\
      (fl_i f = false -> fl_interactive f = false -> fl_entry f = None -> main fuel f args = Ok (Refused [MNeedEntry])) /\
      (fl_i f = false -> fl_interactive f = false -> fl_entry f <> None -> files name = None -> main fuel f args = Ok (Refused [MLoad]))).
  Proof.
    split.
    - intros H. destruct args as [|a [|b r]]; [reflexivity|now destruct H|reflexivity].
    - intros name ->. exact (main_refused exec evicted reg_id reg_size csr_id csr_set boot boot_pc files elf secs fuel f name).
  Qed.
  (** A file of fewer than four bytes makes main test an uninitialised variable,
      whatever the flags. *)
  Theorem C67_short_file_refuted fuel f name l : files name = Some l -> (length l < 4)%nat ->
    main fuel f [name] = UB Uninitialised.
  Proof.
    intros E L. unfold CliModel.main, is_elf_file. rewrite E.
    destruct l as [|a [|b [|c [|d r]]]]; cbn [length] in L; try reflexivity. lia.
  Qed.

  (** ** C68 *)
  Notation read name s := (fst (read_register reg_id reg_size csr_id csr_get name s)).
  Notation print_registers := (print_registers reg_id reg_size csr_id csr_get).
  Notation print_vector_registers := (print_vector_registers reg_id).
  (** The command prints one line for each readable register x0 .. x31, in order,
      with its value in hexadecimal; other input is not the command's. *)
  Theorem C68_reg_info input (s : top (C := C)) :
    match print_registers input s with
    | Some text => says "reg" input /\
        listing (fun i t => exists v d, read (reg_name "x" i) s = RVal v /\ hex_text v d /\ line_of (nth i aliases ""%string) d t)
                (fun i => forall v, read (reg_name "x" i) s <> RVal v) 32 text
    | None => ~ says "reg" input
    end.
  Proof. exact (reg_info reg_id reg_size csr_id csr_get input s). Qed.
  (** Equal listings mean equal registers. *)
  Theorem C68_reg_info_faithful input (s s' : top (C := C)) text : t_status s = Halted -> t_status s' = Halted ->
    (forall i, (i < 32)%nat -> exists r, reg_id (reg_name "x" i) = Some r /\ reg_size r = 4) ->
    print_registers input s = Some text -> print_registers input s' = Some text ->
    forall i, (i < 32)%nat -> read (reg_name "x" i) s = read (reg_name "x" i) s'.
  Proof. exact (reg_info_inj reg_id reg_size csr_id csr_get input s s' text). Qed.
  Theorem C68_vreg_info input (s : top (C := C)) : t_status s = Halted ->
    (forall i r, (i < 64)%nat -> reg_id (reg_name "v" i) = Some r -> 0 <= a_regs (t_arch s) r < 2 ^ 256) ->
    match print_vector_registers input s with
    | Some text => says "vreg" input /\
        listing (fun i t => exists r l d, reg_id (reg_name "v" i) = Some r /\ length l = 8%nat /\
                   of_words l = a_regs (t_arch s) r /\ colon_words l d /\ line_of (reg_name "v" i) d t)
                (fun i => reg_id (reg_name "v" i) = None) 64 text
    | None => ~ says "vreg" input
    end.
  Proof. exact (vreg_info reg_id input s). Qed.
  Theorem C68_vreg_info_faithful input (s s' : top (C := C)) text : t_status s = Halted -> t_status s' = Halted ->
    (forall i r, (i < 64)%nat -> reg_id (reg_name "v" i) = Some r ->
       0 <= a_regs (t_arch s) r < 2 ^ 256 /\ 0 <= a_regs (t_arch s') r < 2 ^ 256) ->
    print_vector_registers input s = Some text -> print_vector_registers input s' = Some text ->
    forall i r, (i < 64)%nat -> reg_id (reg_name "v" i) = Some r -> a_regs (t_arch s) r = a_regs (t_arch s') r.
  Proof. exact (vreg_info_inj reg_id input s s' text). Qed.
End V1.

(** The listings name x0-x31 by the calling convention, and read x0-x31 and v0-v63. *)
Theorem C68_names i : ((i < 32)%nat -> abi i (nth i aliases ""%string) /\ named "x" i (reg_name "x" i)) /\ ((i < 64)%nat -> named "v" i (reg_name "v" i)).
Proof. split; intros H; [split; [now apply aliases_ok|]|]; apply reg_name_ok; lia. Qed.

(** ** C67, C68: cases *)
(** The words 1 2 7 of the small instruction set, little-endian. *)
Definition toy_file : list Z := [1; 0; 0; 0; 2; 0; 0; 0; 7; 0; 0; 0].
Definition toy_mem (off x : Z) : Z := if (off <=? x) && (x <? off + 12) then nth (Z.to_nat (x - off)) toy_file 0 else 0.
Definition toy_files (n : string) : option (list Z) :=
  if String.eqb n "a.bin" then Some toy_file else if String.eqb n "a.elf" then Some ([0x7f; 0x45; 0x4c; 0x46] ++ toy_file)
  else if String.eqb n "tiny" then Some [1; 2] else None.
(** Loads the bytes after the magic word at 0x200, entry point 0x200. *)
Definition toy_elf (l : list Z) (m : Z -> Z) : option (Z * (Z -> Z)) := Some (0x200, toy_mem 0x200).
Definition toy_main : nat -> flags -> list string -> outcome (ending (C := unit)) :=
  main toy_exec never toy_reg toy_size toy_csr (fun _ _ c => c) toy_regs 0 toy_files toy_elf (chars "0.001").
Definition shown (e : outcome (ending (C := unit))) : option (list message * list Z * Z * Z * reason) :=
  match e with Ok (Finished log out s) => Some (log, out, t_pc s, a_regs (t_arch s) 1, t_reason s) | _ => None end.
Lemma toy_reached off : off = 0x100 \/ off = 0x200 -> forall k, reached toy_exec (Mach off toy_regs (toy_mem off)) k -> (k <= 2)%nat.
Proof.
  intros H k R. destruct (Nat.le_gt_cases k 2) as [L|L]; [exact L|]. specialize (R 2%nat L).
  destruct H as [-> | ->]; vm_compute in R; discriminate R.
Qed.
Lemma toy_program off : off = 0x100 \/ off = 0x200 ->
  unmodified toy_exec (Mach off toy_regs (toy_mem off)) /\ regular toy_exec (Mach off toy_regs (toy_mem off)).
Proof.
  intros H. split.
  - intros i j Hij R. apply (toy_reached off H) in R.
    assert (D : ((i = 0 \/ i = 1 \/ i = 2) /\ (j = 0 \/ j = 1 \/ j = 2))%nat) by lia.
    destruct H as [-> | ->], D as [[-> |[-> | ->]] [-> |[-> | ->]]]; vm_compute; intros E; congruence.
  - intros k R. apply (toy_reached off H) in R. assert (D : (k = 0 \/ k = 1 \/ k = 2)%nat) by lia.
    destruct H as [-> | ->], D as [-> |[-> | ->]]; (split; [vm_compute; split; congruence|vm_compute; intros r E; split; congruence]).
Qed.
Definition toy_out : list Z :=
  chars "Starting simulation" ++ [10] ++ chars "Total cycles: 3" ++ [10] ++ chars "Simulation done: 0.001 sec" ++ [10].
Example C67_case :
  has_pc toy_reg toy_size /\ byte_file toy_file /\ ~ elf_magic toy_file /\
  (forall off, off = 0x100 \/ off = 0x200 ->
     unmodified toy_exec (Mach off toy_regs (toy_mem off)) /\ regular toy_exec (Mach off toy_regs (toy_mem off))) /\
  shown (toy_main 9 (Flags false false 0x100 (Some 0x100)) ["a.bin"%string]) = Some ([], toy_out, 0x10c, 127, ROther 1) /\
  shown (toy_main 9 (Flags false false 0 None) ["a.elf"%string]) = Some ([], toy_out, 0x20c, 127, ROther 1) /\
  shown (toy_main 9 (Flags false false 0 (Some 0x208)) ["a.elf"%string]) =
    Some ([MEntryDiffers 0x200 0x208], chars "Starting simulation" ++ [10] ++ chars "Total cycles: 1" ++ [10] ++ chars "Simulation done: 0.001 sec" ++ [10], 0x20c, 7, ROther 1) /\
  match toy_main 9 (Flags true false 0 None) ["a.elf"%string] with Ok (Shell [] s) => t_pc s = 0x200 | _ => False end /\
  toy_main 2 (Flags false false 0x100 (Some 0x100)) ["a.bin"%string] = Ok (StillRunning []) /\
  toy_main 9 (Flags false false 0x3ffff5 (Some 0x100)) ["a.bin"%string] = Ok (Refused [MLoad]) /\
  toy_main 9 (Flags false true 0 (Some 0)) ["a.bin"%string] = Ok (Refused [MNeedElf]) /\
  toy_main 9 (Flags false false 0 None) ["a.bin"%string] = Ok (Refused [MNeedEntry]) /\
  toy_main 9 (Flags false false 0 (Some 0)) ["nosuch"%string] = Ok (Refused [MLoad]) /\
  toy_main 9 (Flags false false 0 (Some 0)) ["a.bin"; "a.bin"]%string = Ok (Refused [MOneFile]) /\
  toy_main 9 (Flags false false 0 (Some 0)) ["tiny"%string] = UB Uninitialised.
Proof.
  split; [exists 0; split; reflexivity|]. split; [unfold byte_file, toy_file; cbn [In]; intros x H; lia|].
  split; [intros (r & E); discriminate E|]. split; [exact toy_program|].
  repeat (split; [vm_compute; reflexivity|]). vm_compute. reflexivity.
Qed.
(** C67: status 0 does not mean that the program ended properly: a program that
    stops at ebreak, a fault, ends like any other. *)
Definition bad_file : list Z := [1; 0; 0; 0; 0x73; 0; 0x10; 0].
Theorem C67_status_refuted :
  match main toy_exec never toy_reg toy_size toy_csr (fun _ _ c => c) toy_regs 0 (fun _ => Some bad_file) toy_elf (chars "0.001")
          9 (Flags false false 0 (Some 0)) ["bad.bin"%string] with
  | Ok (Finished log _ s) => log = [] /\ t_reason s = RAbort
  | _ => False
  end.
Proof. vm_compute. split; reflexivity. Qed.

(** Registers x0 .. x31 with ids 0 .. 31, of which x1 can be written; v0 and v3. *)
Definition list_reg (n : string) : option Z :=
  match find (fun i => String.eqb n (reg_name "x" i)) (seq 0 32) with
  | Some i => Some (Z.of_nat i)
  | None => if String.eqb n "v0" then Some 40 else if String.eqb n "v3" then Some 43 else None
  end.
Definition list_size (i : Z) : Z := if i <? 32 then 4 else 32.
Definition list_top (x1 x31 v3 : Z) : top (C := unit) :=
  fresh (Arch (fun i => if i =? 1 then x1 else if i =? 31 then x31 else if i =? 43 then v3 else 0) tt) (fun _ => 0) 0.
Definition list_regs (input : string) (s : top (C := unit)) : option (list Z) :=
  print_registers list_reg list_size (fun _ => None) (fun _ _ => 0) (chars input) s.
Definition text_v : list Z :=
  chars "v0" ++ [9] ++ chars " = [00000000:00000000:00000000:00000000:00000000:00000000:00000000:00000000]" ++ [10] ++
  chars "v3" ++ [9] ++ chars " = [00000005:00000000:00000000:00000000:00000000:00000000:00000000:80000000]" ++ [10].
Example C68_case :
  (forall i, (i < 32)%nat -> exists r, list_reg (reg_name "x" i) = Some r /\ list_size r = 4) /\
  match list_regs " reg  info" (list_top 0xdeadbeef 7 0) with
  | Some t => firstn 63 t = chars "zero" ++ [9] ++ chars " = [00000000]" ++ [10] ++ chars "ra" ++ [9] ++ chars " = [deadbeef]" ++ [10] ++
                            chars "sp" ++ [9] ++ chars " = [00000000]" ++ [10] ++ chars "gp" ++ [9] ++ chars " = [000" /\
              skipn (length t - 17) t = chars "t6" ++ [9] ++ chars " = [00000007]" ++ [10]
  | None => False
  end /\
  list_regs "reginfo" (list_top 0 0 0) = None /\ list_regs "reg info x" (list_top 0 0 0) = None /\
  list_regs "reg info" (set_status Running (list_top 0 0 0)) = Some [] /\
  print_vector_registers list_reg (chars "vreg info ") (list_top 0 0 (2 ^ 255 + 5)) = Some text_v.
Proof.
  split.
  { intros i Hi. exists (Z.of_nat i). do 32 (destruct i as [|i]; [vm_compute; split; reflexivity|]). lia. }
  split; [vm_compute; split; reflexivity|]. repeat (split; [vm_compute; reflexivity|]). vm_compute. reflexivity.
Qed.

(** ** C69 *)
(** The options decide what can be fetched, loaded and stored.  Missing: fsw, and
    ranges and accesses at the ends of the address space (C44, C45). *)
Theorem C69_options_partial : forall St (perform : v2mem -> Z -> St -> St) trap o,
  let itcm := (o_itcm_start o, o_itcm_length o) in
  let dtcm := (o_dtcm_start o, o_dtcm_length o) in
  low [itcm; dtcm] -> 4 <= o_itcm_start o + o_itcm_length o -> 0 <= o_misa o < 2 ^ 32 ->
  let c := v2_config o in
  (forall a, 0 <= a < 2 ^ 32 ->
     (contained [itcm] a 4 -> v2_decode (fst (c_itcm c)) (snd (c_itcm c)) a = Decoded a) /\
     (~ contained [itcm] a 4 -> v2_decode (fst (c_itcm c)) (snd (c_itcm c)) a = Invalid a)) /\
  (forall i pc base off s, i <> Fsw -> let a := (base + off) mod 2 ^ 32 in a + width i < 2 ^ 32 ->
     (contained [dtcm] a (width i) -> v2_exec perform trap i (c_lsu c) pc base off s = perform i a s) /\
     (~ contained [dtcm] a (width i) -> v2_exec perform trap i (c_lsu c) pc base off s = trap (if is_load i then 5 else 7) pc s)) /\
  (exists m, c_misa c = Some m /\ forall i, 0 <= i ->
     Z.testbit m i = if i <? 26 then Z.testbit (o_misa o) i
                     else if (i =? 62) || (i =? 63) then Z.testbit (o_misa o) (i - 32) else false).
Proof.
  intros St perform trap o itcm dtcm Hlow H4 Hm c.
  destruct (Hlow _ _ (or_introl eq_refl)) as (I1 & I2 & I3). destruct (Hlow _ _ (or_intror (or_introl eq_refl))) as (D1 & D2 & D3).
  assert (X : forall a, 0 <= a < 2 ^ 32 -> contained [itcm] a 4 <-> (o_itcm_start o <=? a) && (a + 4 <=? o_itcm_start o + o_itcm_length o) = true).
  { intros a Ha. unfold contained. split.
    - intros (s & l & [E|[]] & H). injection E as <- <-. pose proof (H a ltac:(lia)). pose proof (H (a + 3) ltac:(lia)). lia.
    - intros E. exists (o_itcm_start o), (o_itcm_length o). split; [now left|]. lia. }
  split; [|split].
  - intros a Ha. change (fst (c_itcm c)) with (o_itcm_start o). change (snd (c_itcm c)) with (o_itcm_length o).
    rewrite PropV2.C45_fetch_partial by lia. specialize (X a Ha).
    destruct ((o_itcm_start o <=? a) && (a + 4 <=? o_itcm_start o + o_itcm_length o)); split; intros H; try reflexivity.
    + exfalso. apply H, X. reflexivity.
    + apply X in H. discriminate H.
  - intros i pc base off s Hi. change (c_lsu c) with [dtcm]. intros a Ha.
    apply PropV2.C44_access_partial; [exact Hi| |exact Ha].
    intros s0 l0 [E|[]]. injection E as <- <-. lia.
  - exists (stretch_misa (o_misa o)). split; [reflexivity|]. intros i Hi. apply PropV2.C47_misa; assumption.
Qed.
(** Running mpause stops the simulation, with the message and without a trap; mpause
    handlers added later are not called. *)
Theorem C69_mpause : forall St (trap : Z -> Z -> St -> St) halt say later pc s,
  let r := halt (Some pc) (say (chars "mpause instruction received." ++ [10]) s) in
  v2_mpause St trap halt say pc s = r /\
  run_handlers trap (fold_left add_handler later (add_handler [] (mpause_handler St halt say))) (Some pc) s = r.
Proof.
  intros St trap halt say later pc s. split; [reflexivity|].
  assert (E : forall a, exists b, fold_left add_handler later (mpause_handler St halt say :: a) = mpause_handler St halt say :: b).
  { induction later as [|h l IH]; intros a; [exists a; reflexivity|]. exact (IH (a ++ [h])). }
  destruct (E []) as (b & Eb). change (add_handler [] (mpause_handler St halt say)) with [mpause_handler St halt say]. rewrite Eb. reflexivity.
Qed.
(** ebreak: a handler of the core (a breakpoint) has precedence; otherwise the
    address is printed and the simulation stops exactly if asked to, else the
    breakpoint trap is taken. *)
Theorem C69_ebreak : forall St (trap : Z -> Z -> St -> St) halt say hs o pc s, 0 <= pc < 2 ^ 64 ->
  (forall b s', Forall (fun b => b = false) (fst (call_all hs (Some pc) s)) -> snd (call_all hs (Some pc) s) = s' -> b = o_exit_on_ebreak o ->
     exists d, hex_text pc d /\
       let s2 := say (chars "ebreak instruction received. Instruction address: 0x" ++ d ++ [10]) s' in
       v2_ebreak St trap halt say hs o pc s = if b then halt (Some pc) s2 else trap 3 pc s2) /\
  (forall hs1 h hs2, hs = hs1 ++ h :: hs2 -> Forall (fun b => b = false) (fst (call_all hs1 (Some pc) s)) ->
     fst (h (Some pc) (snd (call_all hs1 (Some pc) s))) = true ->
     v2_ebreak St trap halt say hs o pc s = snd (call_all (hs1 ++ [h]) (Some pc) s)).
Proof.
  intros St trap halt say hs o pc s Hp. unfold v2_ebreak, add_handler. split.
  - intros b s' F E ->. exists (hex8 pc). split; [now apply hex8_text|]. cbv zeta. revert s F E.
    induction hs as [|h hs IH]; intros s F E; cbn [app run_handlers].
    + cbn [call_all snd] in E. subst s'. unfold ebreak_handler. destruct (o_exit_on_ebreak o); reflexivity.
    + cbn [call_all] in F, E. destruct (h (Some pc) s) as [r s1]. specialize (IH s1).
      destruct (call_all hs (Some pc) s1) as [bs s2]. cbn [fst snd] in *. inversion F as [|x y Fx Fy]; subst. apply IH; [exact Fy|reflexivity].
  - intros hs1 h hs2 ->. revert s. induction hs1 as [|g hs1 IH]; intros s F T.
    + cbn [app run_handlers call_all fst snd] in *. destruct (h (Some pc) s) as [r s1]. cbn [fst snd] in *. now rewrite T.
    + cbn [app run_handlers call_all] in *. destruct (g (Some pc) s) as [r s1] eqn:Eg. specialize (IH s1).
      destruct (call_all hs1 (Some pc) s1) as [bs s2]. cbn [fst snd] in *. inversion F as [|x y Fx Fy]; subst.
      specialize (IH Fy T). rewrite IH. destruct (call_all (hs1 ++ [h]) (Some pc) s1). reflexivity.
Qed.
(** LoadProgram: the pc is written once, with the given entry point or that of the
    file; nothing is written if the file cannot be loaded. *)
Theorem C69_load_program : forall St load (write_pc : Z -> St -> option St) entry s,
  (forall e, entry = Some e -> 0 <= e < 2 ^ 32) ->
  match load s with
  | None => load_program St load write_pc entry s = None
  | Some (elf_entry, s1) =>
      let e := match entry with Some e => e | None => elf_entry mod 2 ^ 32 end in
      match write_pc e s1, load_program St load write_pc entry s with
      | Some s2, Some (log, s3) => s3 = s2 /\ log = if elf_entry =? e then [] else [MEntryDiffers elf_entry e]
      | None, None => True
      | _, _ => False
      end
  end.
Proof.
  intros St load write_pc entry s He. unfold load_program. destruct (load s) as [[ee s1]|]; [|reflexivity]. cbv zeta.
  assert (E : match entry with Some e => e | None => ee end mod 2 ^ 32 = match entry with Some e => e | None => ee mod 2 ^ 32 end).
  { destruct entry as [e|]; [|reflexivity]. apply Z.mod_small, He. reflexivity. }
  rewrite E. destruct (write_pc _ s1); cbn [option_map]; [split; reflexivity|exact I].
Qed.
(** The V2 command line runs or starts the shell exactly after a successful load. *)
Theorem C69_main : forall St load write_pc (launch : bool -> St -> St) inter entry nargs s,
  match v2_main St load write_pc launch inter entry nargs s with
  | V2Refused _ log => (nargs <> 1%nat /\ log = [MOneFile]) \/ (nargs = 1%nat /\ log = [MLoad] /\ load_program St load write_pc entry s = None)
  | V2Done _ log s' => nargs = 1%nat /\ exists s1, load_program St load write_pc entry s = Some (log, s1) /\ s' = launch inter s1
  end.
Proof.
  intros. unfold v2_main. destruct (Nat.eqb_spec nargs 1) as [->|N]; [|left; auto].
  destruct (load_program St load write_pc entry s) as [[log s1]|]; [split; [reflexivity|]; exists s1; auto|right; auto].
Qed.

(** Default options: the last word of ITCM can be fetched, DTCM is 0x10000..0x17fff. *)
Definition v2_events := list (Z * list Z).
Example C69_case :
  low [(o_itcm_start default_options, o_itcm_length default_options); (o_dtcm_start default_options, o_dtcm_length default_options)] /\
  v2_config default_options = Co (0, 0x2000) (Some 0x4000000000201120) [(0x10000, 0x8000)] /\
  v2_config (Options 0x100 0x10 0xffffffff 0x2000 8 true) = Co (0x100, 0x10) (Some 0xc000000003ffffff) [(0x2000, 8)] /\
  (let trap c e (s : v2_events) := s ++ [(c, [e])] in
   let halt i (s : v2_events) := s ++ [(-1, match i with Some a => [a] | None => [] end)] in
   let say t (s : v2_events) := s ++ [(-2, t)] in
   let bp : handler v2_events := fun i s => (match i with Some a => a =? 64 | None => false end, s ++ [(-3, [])]) in
   let msg a := (-2, chars "ebreak instruction received. Instruction address: 0x" ++ chars a ++ [10]) in
   v2_mpause v2_events trap halt say 16 [] = [(-2, chars "mpause instruction received." ++ [10]); (-1, [16])] /\
   v2_ebreak v2_events trap halt say [bp] default_options 64 [] = [(-3, [])] /\
   v2_ebreak v2_events trap halt say [bp] default_options 0x1f4 [] = [(-3, []); msg "000001f4"%string; (3, [0x1f4])] /\
   v2_ebreak v2_events trap halt say [bp] (Options 0 8 0 0 8 true) 0x1f4 [] = [(-3, []); msg "000001f4"%string; (-1, [0x1f4])]) /\
  (let load (s : Z) := if s =? 0 then None else Some (0x100000040, s + 1) in
   let write e (s : Z) := Some (s * 1000 + e) in
   load_program Z load write None 1 = Some ([MEntryDiffers 0x100000040 0x40], 2064) /\
   load_program Z load write (Some 8) 1 = Some ([MEntryDiffers 0x100000040 8], 2008) /\
   load_program Z load write (Some 8) 0 = None).
Proof.
  split; [intros s l [H|[H|[]]]; vm_compute in H; injection H as <- <-; vm_compute; intuition discriminate|].
  repeat (split; [vm_compute; reflexivity|]). split; [vm_compute; repeat split|vm_compute; repeat split].
Qed.

Print Assumptions C67_image_partial.
Print Assumptions C67_elf.
Print Assumptions C67_refused.
Print Assumptions C67_short_file_refuted.
Print Assumptions C67_status_refuted.
Print Assumptions C68_names.
Print Assumptions C68_reg_info.
Print Assumptions C68_reg_info_faithful.
Print Assumptions C68_vreg_info.
Print Assumptions C68_vreg_info_faithful.
Print Assumptions C69_options_partial.
Print Assumptions C69_mpause.
Print Assumptions C69_ebreak.
Print Assumptions C69_load_program.
Print Assumptions C69_main.
