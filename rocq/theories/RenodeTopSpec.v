(** * Specification of a Renode session *)
From Coq Require Import ZArith List Bool String.
From Verif Require Import CInt TopModel TopSpec RenodeModel RenodeSpec.
Import ListNotations.
Open Scope Z_scope.

Section Spec.
  Context {C : Type}.
  Variable exec : Z -> Z -> arch (C := C) -> (Z -> Z) -> effect (C := C).
  Variable reg_id : string -> option Z.
  Variable reg_size : Z -> Z.
  Variable csr_id : string -> option Z.
  Variable csr_get : Z -> C -> Z.
  Variable csr_set : Z -> Z -> C -> C.
  Variable boot : arch (C := C).
  Variable boot_pc : Z.
  Context {File Blocks : Type}.
  Variable files : File -> option (list Z).
  Variable elf : File -> (Z -> Z) -> option Z * (Z -> Z).
  Variable names : Z -> option string.
  Notation call := (RenodeModel.call File Blocks).
  Notation mach := (mach (C := C)).

  (** An instance: the program's state and why it stopped last. *)
  Record inst := Inst { n_mach : mach; n_last : reason }.
  Definition born : inst := Inst (Mach boot_pc boot (fun _ => 0)) RNone.
  (** A register or CSR the debugger can name, as 32-bit (or its own size) value. *)
  Definition peek (name : string) (m : mach) : option Z :=
    match reg_id name with
    | Some i => if size_ok (reg_size i) then Some ((if String.eqb name "pc" then m_pc m else a_regs (m_arch m) i) mod 2 ^ (8 * reg_size i)) else None
    | None => match csr_id name with Some c => Some (csr_get c (a_csr (m_arch m)) mod 2 ^ 32) | None => None end
    end.
  (** The state after [name] was given the value [v]. *)
  Definition assign (name : string) (v : Z) (m : mach) : mach := poke reg_id reg_size csr_id csr_set (CWriteReg name v) m.
  (** [n] instructions asked for, [k] executed, ending for [r]. *)
  Definition executes (m : mach) (n : Z) (k : nat) (r : reason) : Prop :=
    Z.of_nat k <= n /\ (forall i, (i + 1 < k)%nat -> ref_halt exec (ref exec i m) = None) /\
    ((Z.of_nat k = n /\ r = RNone /\ forall i, (i < k)%nat -> ref_halt exec (ref exec i m) = None) \/
     ((0 < k)%nat /\ ref_halt exec (ref exec (k - 1) m) = Some r)).
  (** Status that is reported for the end of a step. *)
  Definition step_code (r : reason) : Z := match r with RSemihost | RAbort => -1 | RSwBreakpoint => 3 | _ => 0 end.
  Definition halt_code (r : reason) : option Z :=
    match r with RNone => Some 0 | RUserRequest => Some 1 | RSwBreakpoint => Some 3 | RSemihost | RAbort => Some (-1) | _ => None end.
  Definition stored_at (m : mach) (a : Z) (l : list Z) (m' : mach) : Prop :=
    m_pc m' = m_pc m /\ m_arch m' = m_arch m /\ forall x, m_mem m' x = written (m_mem m) a l x.

  (** What a call to an existing instance does and answers; [None]: it is gone. *)
  Definition behaves (k : call) (r : result) (x : inst) (x' : option inst) : Prop :=
    let m := n_mach x in
    match k with
    | Construct _ _ => False
    | Destroy _ => r_ret r = 0 /\ x' = None
    | Reset _ => r_ret r = 0 /\ x' = Some x
    | RegInfoSize _ => r_ret r = 33 /\ x' = Some x
    | RegInfo _ _ _ _ => x' = Some x
    | LoadExecutable _ f _ =>
        let (e, mem) := elf f (m_mem m) in
        let m1 := Mach (m_pc m) (m_arch m) mem in
        match (match e with Some e => match peek "pc" m with Some _ => Some e | None => None end | None => None end) with
        | Some e => r_ret r = e /\ r_status r = Some 0 /\ x' = Some (Inst (assign "pc" e m1) (n_last x))
        | None => r_ret r = 0 /\ r_status r = Some (-1) /\ x' = Some (Inst m1 (n_last x))
        end
    | LoadImage _ f a => 0 <= a < 2 ^ 64 ->
        match files f with
        | None => r_ret r = -1 /\ x' = Some x
        | Some l => r_ret r = (if (Z.of_nat (length l) =? 0) || (a + Z.of_nat (length l) <=? max_address + 1) then 0 else -1) /\
            exists m', x' = Some (Inst m' (n_last x)) /\ stored_at m a l m'
        end
    | ReadReg _ i val => x' = Some x /\
        match (if val then match names (i mod 2 ^ 32) with Some n => peek n m | None => None end else None) with
        | Some v => r_ret r = 0 /\ r_data r = [v]
        | None => r_ret r = -1 /\ r_data r = []
        end
    | WriteReg _ i v =>
        match (match names (i mod 2 ^ 32) with Some n => match peek n m with Some _ => Some n | None => None end | None => None end) with
        | Some n => r_ret r = 0 /\ x' = Some (Inst (assign n v m) (n_last x))
        | None => r_ret r = -1 /\ x' = Some x
        end
    | ReadMem _ a n => 0 <= a -> 0 <= n < 2 ^ 64 -> x' = Some x /\
        r_data r = (if max_address <? a then [] else map (fun i => m_mem m (a + Z.of_nat i)) (seq 0 (Z.to_nat (Z.min n (max_address - a + 1))))) /\
        r_ret r = Z.of_nat (length (r_data r))
    | WriteMem _ a l => 0 <= a -> Z.of_nat (length l) < 2 ^ 64 ->
        r_ret r = Z.max 0 (Z.min (Z.of_nat (length l)) (max_address - a + 1)) /\
        exists m', x' = Some (Inst m' (n_last x)) /\ stored_at m a l m'
    | Step _ n st => 0 <= n < 2 ^ 64 ->
        exists code, r_status r = (if st then Some code else None) /\
        if (n =? 0) || reason_eqb (n_last x) RSemihost
        then x' = Some x /\ r_ret r = 0 /\ code = (if n =? 0 then 0 else -1)
        else exists k last, executes m n k last /\ x' = Some (Inst (ref exec k m) last) /\ r_ret r = Z.of_nat k mod 2 ^ 32 /\ code = step_code last
    | Halt _ st => x' = Some x /\ r_ret r = 0 /\ r_status r = if st then halt_code (n_last x) else None
    end.
  (** What any call means for instance [j]. *)
  Definition concerns (j : Z) (k : call) (r : result) (x x' : option inst) : Prop :=
    match target k with
    | Some i =>
        if i mod 2 ^ 32 =? j mod 2 ^ 32
        then match x with Some x => behaves k r x x' | None => rejected k r /\ x' = None end
        else x' = x
    | None => if r_ret r mod 2 ^ 32 =? j mod 2 ^ 32 then x = None /\ x' = Some born else x' = x
    end.
  (** A session, as instance [j] sees it. *)
  Inductive session (j : Z) : option inst -> list (call * result) -> option inst -> Prop :=
  | SNil x : session j x [] x
  | SCons x k r x1 h x2 : concerns j k r x x1 -> session j x1 h x2 -> session j x ((k, r) :: h) x2.
  (** [m]: a state in which instance [j] executes an instruction. *)
  Definition visited (j : Z) (x0 : option inst) (h : list (call * result)) (m : mach) : Prop :=
    exists h1 id n st r h2 x i, h = h1 ++ (Step id n st, r) :: h2 /\ id mod 2 ^ 32 = j mod 2 ^ 32 /\
      session j x0 h1 (Some x) /\ n_last x <> RSemihost /\ Z.of_nat i < n < 2 ^ 64 /\
      (forall i', (i' < i)%nat -> ref_halt exec (ref exec i' (n_mach x)) = None) /\ m = ref exec i (n_mach x).
  (** No address is ever executed with two different instructions; pcs have 32 bits;
      instructions halt only for the reasons of the core. *)
  Definition steady (j : Z) (x0 : option inst) (h : list (call * result)) : Prop :=
    exists code, forall m, visited j x0 h m ->
      word_at m = code (m_pc m) /\ 0 <= m_pc (ref_step exec m) < 2 ^ 32 /\
      (forall r, ref_halt exec m = Some r -> r = RUserRequest \/ r = RAbort \/ r = RSemihost).
  (** Addresses and lengths are the interface's unsigned 64-bit numbers. *)
  Definition arguments_ok (k : call) : Prop :=
    match k with
    | LoadImage _ _ a => 0 <= a < 2 ^ 64
    | ReadMem _ a n => 0 <= a < 2 ^ 64 /\ 0 <= n < 2 ^ 64
    | WriteMem _ a l => 0 <= a < 2 ^ 64 /\ Z.of_nat (length l) < 2 ^ 64
    | Step _ n _ => 0 <= n < 2 ^ 64
    | _ => True
    end.
End Spec.
