(** * Specification of the log instructions and scalar stores *)
From Coq Require Import ZArith List Bool.
From Verif Require Import CInt LogModel.
Import ListNotations.
Open Scope Z_scope.

(** ** Strings in memory *)
Definition no_nul (s : list Z) : Prop := Forall (fun c => c <> 0) s.
(** The C string [s] is stored at address [a]. *)
Definition cstring (m : Z -> Z) (a : Z) (s : list Z) : Prop :=
  no_nul s /\ (forall i, (i < length s)%nat -> nth i s 0 = m (a + Z.of_nat i)) /\
  m (a + Z.of_nat (length s)) = 0.
(** [a], its terminator and the rest of the terminator's 4-byte group (groups
    are counted from [a]) are inside memory and below 4 GiB. *)
Definition inside (e : lenv) (a : Z) (n : nat) : Prop :=
  0 <= a /\ let last := a + Z.of_nat n / 4 * 4 + 3 in last <= e_max e /\ last < 2 ^ 32.
(** Memory holds bytes, and accesses inside it do not trap. *)
Definition sane (e : lenv) : Prop :=
  (forall x, 0 <= e_mem e x < 256) /\ (forall x, 0 <= x -> x + 3 <= e_max e -> e_fault e x = false).

(** ** Formatting *)
(** Value of an ASCII digit. *)
Definition digit_value (c : Z) : option Z :=
  if (48 <=? c) && (c <=? 57) then Some (c - 48)
  else if (97 <=? c) && (c <=? 102) then Some (c - 87) else None.
(** Positional value of a digit string. *)
Inductive positional (b : Z) : list Z -> Z -> Prop :=
| pos_nil : positional b [] 0
| pos_snoc s v c d : positional b s v -> digit_value c = Some d -> d < b ->
    positional b (s ++ [c]) (v * b + d).
(** [s] is the numeral of [v] in base [b]: no empty string, no leading zero. *)
Definition numeral (b v : Z) (s : list Z) : Prop :=
  positional b s v /\ s <> [] /\ (hd 0 s = 48 -> length s = 1%nat).
(** Signed 32-bit reading. *)
Definition as_int (v : Z) : Z := if v <? 2 ^ 31 then v else v - 2 ^ 32.
Definition signed_numeral (v : Z) (s : list Z) : Prop :=
  if as_int v <? 0 then exists t, s = 45 :: t /\ numeral 10 (- as_int v) t
  else numeral 10 (as_int v) s.
(** The text printed for one conversion; a conversion that does not fit the
    argument prints nothing. *)
Definition converts (k : Z) (a : larg) (t : list Z) : Prop :=
  match a with
  | AInt v => if k =? 117 then numeral 10 v t else if k =? 100 then signed_numeral v t
              else if k =? 120 then numeral 16 v t else t = []
  | AStr s => if k =? 115 then t = s else t = []
  end.
(** printf: ordinary characters are copied, each conversion takes the next
    argument. Surplus arguments are dropped. *)
Inductive prints : list Z -> list larg -> list Z -> Prop :=
| p_end args : prints [] args []
| p_char c f args o : c <> 37 -> prints f args o -> prints (c :: f) args (c :: o)
| p_conv k f a args t o : converts k a t -> prints f args o ->
    prints (37 :: k :: f) (a :: args) (t ++ o).
(** A format that asks for more arguments than there are. *)
Inductive starved : list Z -> list larg -> Prop :=
| st_here f : starved (37 :: f) []
| st_char c f args : c <> 37 -> starved f args -> starved (c :: f) args
| st_conv k f a args : starved f args -> starved (37 :: k :: f) (a :: args).
(** A format whose last character is the percent sign of a conversion (and
    there are arguments for all conversions). *)
Inductive dangling : list Z -> list larg -> Prop :=
| d_here a args : dangling [37] (a :: args)
| d_char c f args : c <> 37 -> dangling f args -> dangling (c :: f) args
| d_conv k f a args : dangling f args -> dangling (37 :: k :: f) (a :: args).
Definition wf_arg (a : larg) : Prop := match a with AInt v => 0 <= v < 2 ^ 32 | AStr _ => True end.

(** ** Collecting arguments *)
(** Byte number [i] of a word. *)
Definition byte_of (w : Z) (i : nat) : Z := (w / 256 ^ Z.of_nat i) mod 256.
(** [gathers p ops l p']: with the characters [p] pending from earlier clog
    words, the instructions [ops] provide the arguments [l] and leave [p']
    pending. *)
Inductive gathers : list Z -> list lop -> list larg -> list Z -> Prop :=
| g_nil p : gathers p [] [] p
| g_slog p v ops l p' : gathers p ops l p' -> gathers p (Slog v :: ops) (AInt (v mod 2 ^ 32) :: l) p'
| g_klog p e a s ops l p' : sane e -> cstring (e_mem e) (a mod 2 ^ 32) s ->
    inside e (a mod 2 ^ 32) (length s) ->
    gathers p ops l p' -> gathers p (Klog e a :: ops) (AStr s :: l) p'
| g_clog_more p w ops l p' :
    (forall i, (i < 4)%nat -> byte_of w i <> 0) ->
    gathers (p ++ [byte_of w 0; byte_of w 1; byte_of w 2; byte_of w 3]) ops l p' ->
    gathers p (Clog w :: ops) l p'
| g_clog_end p w k ops l p' :
    (k < 4)%nat -> byte_of w k = 0 -> (forall i, (i < k)%nat -> byte_of w i <> 0) ->
    gathers [] ops l p' ->
    gathers p (Clog w :: ops) (AStr (p ++ map (byte_of w) (seq 0 k)) :: l) p'.

(** ** Stores *)
Definition opbytes (T : ity) : Z := match T with U8 => 1 | U16 => 2 | _ => 4 end.
(** Effective address of a scalar store. *)
Definition store_addr (small : bool) (base off : Z) : Z :=
  if small then (base + off) mod 2 ^ 31 else (base + off) mod 2 ^ 32.
