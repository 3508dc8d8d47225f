(** * Memory shared with Renode: property C53 *)
From Coq Require Import ZArith List Bool Lia ZifyBool ZifyNat.
From Verif Require Import CInt RenodeMem RenodeMemSpec.
From Verif Require RenodeMemProofs RenodeMemProofs2.
Import ListNotations.
Open Scope Z_scope.

(** A memory of 5 MB in 1 MB blocks starting at address 3, in scattered places. *)
Definition mb : Z := 2 ^ 20.
Definition blocks1 : list Z := [70; 20; 50; 10; 90; 30].
Definition avail1 (p : Z) : Z := mb.
Definition bytes1 : heap := fun p o => (p + o * 7) mod 256.
Definition mem1 : res rmem := make true mb (5 * mb) blocks1 3 1 bytes1.

Section C53.
  Context (avail : Z -> Z) (bs size : Z) (ptrs : list Z) (base : Z) (h0 : heap).

  Theorem C53_construct : config avail bs size ptrs base ->
    exists m, make true bs size ptrs base 1 h0 = Done m /\ m_base m = base /\ m_max m = base + size.
  Proof.
    intros [A [B [C [D [E [F [G H]]]]]]].
    destruct (RenodeMemProofs.make_ok avail bs size ptrs base h0 A B C D E F G H) as [m [M [_ [_ [X [Y _]]]]]].
    exists m. auto.
  Qed.

  Context (m : rmem).

  (** A load of [n] bytes inside the memory delivers the flat bytes and changes
      no memory and no other byte of the buffer; any other load is rejected with
      the memory unchanged. The part left out of the property: block sizes from
      2^31. Builds without the checks and larger units follow below. *)
  Theorem C53_load_partial : config avail bs size ptrs base -> make true bs size ptrs base 1 h0 = Done m ->
    forall a n h buf, 0 <= a < 2 ^ 64 -> 0 <= n < 2 ^ 31 ->
    (0 < n -> within base size a n ->
       exists buf', rload true avail m a n h buf = Done (h, buf') /\
         forall i, buf' i = if (0 <=? i) && (i <? n) then flat ptrs bs h (a + i) else buf i) /\
    (~ (0 < n /\ within base size a n) -> rload true avail m a n h buf = Rejected h).
  Proof. intros C M a n h buf. exact (RenodeMemProofs.pub_load avail bs size ptrs base h0 m C M a n h buf). Qed.

  (** A store inside writes the flat bytes at its addresses, and changes no other
      byte, of the blocks or outside them. *)
  Theorem C53_store_partial : config avail bs size ptrs base -> make true bs size ptrs base 1 h0 = Done m ->
    forall a n h buf, 0 <= a < 2 ^ 64 -> 0 <= n < 2 ^ 31 ->
    (0 < n -> within base size a n ->
       exists h', rstore true avail m a n h buf = Done (h', buf) /\
         (forall x, 0 <= x < bs * Z.of_nat (length ptrs) -> flat ptrs bs h' x = flat_write (flat ptrs bs h) a n buf x) /\
         (forall q o, foreign ptrs bs q o -> h' q o = h q o)) /\
    (~ (0 < n /\ within base size a n) -> rstore true avail m a n h buf = Rejected h).
  Proof. intros C M a n h buf. exact (RenodeMemProofs.pub_store avail bs size ptrs base h0 m C M a n h buf). Qed.

  (** Gather loads: unmasked elements get the flat bytes at their address, masked
      elements of the buffer and the memory stay. *)
  Theorem C53_gather_partial : config avail bs size ptrs base -> make true bs size ptrs base 1 h0 = Done m ->
    forall addrs masks el n h buf, 0 < el < 2 ^ 31 -> el * Z.of_nat (length masks) < 2 ^ 31 ->
    Forall (fun a => 0 <= a < 2 ^ 64) addrs ->
    length addrs = 1%nat \/ (0 < length addrs /\ length masks <= length addrs)%nat ->
    el * Z.of_nat (length masks) <= n ->
    (forall k, (k < length masks)%nat -> nth k masks false = true -> within base size (el_addr addrs el (Z.of_nat k)) el) ->
    exists buf', vaccess true avail m true addrs masks el n h buf = Done (h, buf') /\
      (forall j, (j < 0 \/ el * Z.of_nat (length masks) <= j) -> buf' j = buf j) /\
      (forall k j, (k < length masks)%nat -> 0 <= j < el ->
         buf' (el * Z.of_nat k + j) =
         if nth k masks false then flat ptrs bs h (el_addr addrs el (Z.of_nat k) + j) else buf (el * Z.of_nat k + j)).
  Proof.
    intros C M addrs masks el n h buf He Ht Ha Hl.
    exact (RenodeMemProofs.pub_gather avail bs size ptrs base h0 m C M addrs masks el (proj1 He) Ht (proj2 He) Ha Hl n h buf).
  Qed.

  (** Scatter stores: the unmasked elements are written in order, nothing else. *)
  Theorem C53_scatter_partial : config avail bs size ptrs base -> make true bs size ptrs base 1 h0 = Done m ->
    forall addrs masks el n h buf, 0 < el < 2 ^ 31 -> el * Z.of_nat (length masks) < 2 ^ 31 ->
    Forall (fun a => 0 <= a < 2 ^ 64) addrs ->
    length addrs = 1%nat \/ (0 < length addrs /\ length masks <= length addrs)%nat ->
    el * Z.of_nat (length masks) <= n ->
    (forall k, (k < length masks)%nat -> nth k masks false = true -> within base size (el_addr addrs el (Z.of_nat k)) el) ->
    exists h', vaccess true avail m false addrs masks el n h buf = Done (h', buf) /\
      (forall x, 0 <= x < bs * Z.of_nat (length ptrs) -> flat ptrs bs h' x = flat_scatter (flat ptrs bs h) addrs masks 0 el buf x) /\
      (forall q o, foreign ptrs bs q o -> h' q o = h q o).
  Proof.
    intros C M addrs masks el n h buf He Ht Ha Hl.
    exact (RenodeMemProofs.pub_scatter avail bs size ptrs base h0 m C M addrs masks el (proj1 He) Ht (proj2 He) Ha Hl n h buf).
  Qed.

  (** The first unmasked element [j] outside is rejected; a load has changed no
      memory by then, a store has written exactly the elements before [j]. *)
  Theorem C53_vector_reject_partial : config avail bs size ptrs base -> make true bs size ptrs base 1 h0 = Done m ->
    forall addrs masks el n h buf load j, 0 < el < 2 ^ 31 -> el * Z.of_nat (length masks) < 2 ^ 31 ->
    Forall (fun a => 0 <= a < 2 ^ 64) addrs ->
    length addrs = 1%nat \/ (0 < length addrs /\ length masks <= length addrs)%nat ->
    el * Z.of_nat (length masks) <= n ->
    (j < length masks)%nat -> nth j masks false = true -> ~ within base size (el_addr addrs el (Z.of_nat j)) el ->
    (forall k, (k < j)%nat -> nth k masks false = true -> within base size (el_addr addrs el (Z.of_nat k)) el) ->
    exists h', vaccess true avail m load addrs masks el n h buf = Rejected h' /\ (load = true -> h' = h) /\
      (load = false -> forall x, 0 <= x < base + size ->
         flat ptrs bs h' x = flat_scatter (flat ptrs bs h) addrs (firstn j masks) 0 el buf x).
  Proof.
    intros C M addrs masks el n h buf load j He Ht Ha Hl.
    exact (RenodeMemProofs.pub_reject avail bs size ptrs base h0 m C M addrs masks el (proj1 He) Ht (proj2 He) Ha Hl load n h buf j).
  Qed.
End C53.
Print Assumptions C53_construct.
Print Assumptions C53_load_partial.
Print Assumptions C53_store_partial.
Print Assumptions C53_gather_partial.
Print Assumptions C53_scatter_partial.
Print Assumptions C53_vector_reject_partial.

(** The example memory meets the conditions; a store of 10 bytes over the border
    of the first two blocks, a gather with a masked element, a scatter. *)
Example C53_case : config avail1 mb (5 * mb) blocks1 3 /\
  match mem1 with
  | Done m =>
      match rstore true avail1 m (mb - 4) 10 bytes1 (fun i => 200 + i) with
      | Done (h, _) => map (fun i => flat blocks1 mb h (mb - 5 + i)) [0; 1; 4; 5; 10; 11] = [35; 200; 203; 204; 209; 62]
                       /\ h 70 (mb - 4) = 200 /\ h 20 0 = 204
      | _ => False
      end /\
      match vaccess true avail1 m true [mb - 1; 5; 3 * mb - 1] [true; false; true] 2 6 bytes1 (fun i => 1000) with
      | Done (_, b) => map b [0; 1; 2; 3; 4; 5] = [63; 20; 1000; 1000; 43; 10]
      | _ => False
      end /\
      match vaccess true avail1 m false [4] [true; false; true] 2 6 bytes1 (fun i => 200 + i) with
      | Done (h, _) => map (h 70) [3; 4; 5; 6; 7; 8; 9; 10] = [91; 200; 201; 112; 119; 204; 205; 140]
      | _ => False
      end /\
      rload true avail1 m (5 * mb) 4 bytes1 (fun _ => 0) = Rejected bytes1
  | _ => False
  end.
Proof.
  split.
  - unfold config, good_blocks, avail1, mb, blocks1. split; [lia|]. split; [lia|]. split; [lia|]. split; [lia|]. split; [lia|].
    split; [vm_compute; discriminate|]. split; [cbn [length]; lia|]. split.
    + repeat constructor; cbn; lia.
    + unfold mb. repeat (apply Forall_cons; [lia|]). apply Forall_nil.
  - vm_compute. repeat split.
Qed.

(** "Rejected before any byte is touched" fails for scatter stores: the second
    element is outside, the first has been written. *)
Theorem C53_scatter_atomic_refuted :
  exists m h h' buf, mem1 = Done m /\ vaccess true avail1 m false [3; 5 * mb] [true; true] 4 8 h buf = Rejected h' /\
    h 70 3 <> h' 70 3.
Proof.
  destruct (C53_construct avail1 mb (5 * mb) blocks1 3 bytes1 (proj1 C53_case)) as [m [M _]].
  exists m, bytes1.
  destruct (C53_vector_reject_partial avail1 mb (5 * mb) blocks1 3 bytes1 m (proj1 C53_case) M
              [3; 5 * mb] [true; true] 4 8 bytes1 (fun i => 200 + i) false 1%nat) as [h' [R [_ S]]].
  - lia.
  - cbn; lia.
  - unfold mb. repeat constructor; lia.
  - right. cbn. lia.
  - cbn; lia.
  - cbn; lia.
  - reflexivity.
  - intros [_ X]. vm_compute in X. congruence.
  - intros k Hk _. assert (k = 0%nat) by lia. subst k. split; vm_compute; discriminate.
  - exists h', (fun i => 200 + i). split; [exact M|]. split; [exact R|].
    specialize (S eq_refl 3). change (h' 70 3) with (flat blocks1 mb h' 3). rewrite S by (unfold mb; lia). vm_compute. discriminate.
Qed.
Print Assumptions C53_scatter_atomic_refuted.

(** Without the checks (ABSL_HARDENING_ASSERT off, as in the build here) every
    access whose first byte is beyond the last block is undefined, not rejected. *)
Theorem C53_unchecked_refuted : forall avail m load a n h buf, m_unit m = 1 -> 0 < m_bs m -> 0 < n ->
  m_bs m * Z.of_nat (length (m_blocks m)) <= a -> access false avail m load a n h buf = Undefined Bounds.
Proof.
  intros avail m load a n h buf U B N A. unfold access, ls_helper, hassert. rewrite U. cbn [Z.eqb andb]. cbv zeta.
  cbn [ls_loop]. replace (m_bs m =? 0) with false by lia.
  destruct (nth_error (m_blocks m) (Z.to_nat (a / m_bs m))) eqn:E; [|reflexivity]. exfalso.
  assert (X : (Z.to_nat (a / m_bs m) < length (m_blocks m))%nat) by (apply nth_error_Some; congruence).
  assert (Y : Z.of_nat (length (m_blocks m)) <= a / m_bs m) by (apply Z.div_le_lower_bound; lia). lia.
Qed.
Print Assumptions C53_unchecked_refuted.
Example C53_unchecked_case : exists m, make false mb (5 * mb) blocks1 0 1 bytes1 = Done m /\
  access false avail1 m true (6 * mb) 4 bytes1 (fun _ => 0) = Undefined Bounds.
Proof. eexists. split; [vm_compute; reflexivity|]. vm_compute. reflexivity. Qed.

(** Addressable units of two bytes: an access over a block border runs past the
    end of the block although each block holds all its bytes. *)
Theorem C53_unit_refuted : exists m, make true (4 * mb) (8 * mb) [100; 200] 0 2 bytes1 = Done m /\
  rload true (fun _ => 8 * mb) m (4 * mb - 1) 4 bytes1 (fun _ => 0) = Undefined Bounds.
Proof. eexists. split; [vm_compute; reflexivity|]. vm_compute. reflexivity. Qed.
Print Assumptions C53_unit_refuted.

(** A base address: the constructor reads blocks for everything below the base
    too, so an array covering the memory alone is read past its end. *)
Theorem C53_base_refuted : make true (4 * mb) (4 * mb) [100] (4 * mb) 1 bytes1 = Undefined Bounds.
Proof. vm_compute. reflexivity. Qed.
Print Assumptions C53_base_refuted.

(** A block of 4 GB: the allocation size is kept in an int and becomes zero; the
    first load never ends. *)
Theorem C53_large_block_refuted : exists m, make true (2 ^ 32) (2 ^ 32) [100] 0 1 bytes1 = Done m /\
  forall fuel n buf, 0 < n -> ls_loop (fun _ => 2 ^ 32) m fuel true 0 n 0 n bytes1 buf = Loops.
Proof.
  eexists. split; [vm_compute; reflexivity|]. induction fuel as [|fuel IH]; intros n buf N; [reflexivity|].
  cbn [ls_loop m_bs m_blocks m_alloc m_shift Z.eqb]. change (0 / 4294967296) with 0.
  change (nth_error [100] (Z.to_nat 0)) with (Some 100). cbv iota beta.
  change (wrap I32 (0 - 0 * 4294967296)) with 0. change (int_sub 0 0) with (Done (A := Z) 0). cbn [rbind].
  rewrite Z.min_r by lia. change (int_shl 0 0) with (Done (A := Z) 0). cbn [rbind]. unfold copy.
  change (2 ^ 32 <? 0 + 0) with false. change (0 <? 0) with false. cbn [orb].
  replace (n <? 0 + 0) with false by lia. cbn [rbind fst snd].
  rewrite Z.gtb_ltb, Z.sub_0_r. replace (0 <? n) with true by lia. change (wrap U64 (0 + 0)) with 0.
  change (0 + 0) with 0. apply IH. exact N.
Qed.
Print Assumptions C53_large_block_refuted.

(** Builds without the checks (the default of this repo): constructing and
    accessing give the same result wherever the checked build gives one, so all
    of the above holds for the accesses inside the memory. *)
Theorem C53_without_checks : forall avail bs size ptrs base u h0 m,
  make true bs size ptrs base u h0 = Done m ->
  make false bs size ptrs base u h0 = Done m /\
  (forall load a n h buf r, access true avail m load a n h buf = Done r -> access false avail m load a n h buf = Done r) /\
  (forall load addrs masks el n h buf r, vaccess true avail m load addrs masks el n h buf = Done r ->
     vaccess false avail m load addrs masks el n h buf = Done r).
Proof.
  intros avail bs size ptrs base u h0 m M. split; [exact (RenodeMemProofs2.unchecked_make _ _ _ _ _ _ _ M)|]. split.
  - intros load a n h buf r. apply RenodeMemProofs2.unchecked_access.
  - intros load addrs masks el n h buf r. apply RenodeMemProofs2.unchecked_vaccess.
Qed.
Print Assumptions C53_without_checks.

(** Addressable units of [u] bytes, [u] a power of two, with or without the
    checks: accesses that stay inside one block (the others are refuted in
    C53_unit_refuted). Unit [a] is the [u] flat bytes from [a * u] on. *)
Section C53_units.
  Context (avail : Z -> Z) (bs size : Z) (ptrs : list Z) (base u : Z) (h0 : heap) (m : rmem).
  Theorem C53_units_load_partial : config_units avail bs size ptrs base u -> make true bs size ptrs base u h0 = Done m ->
    forall checked a c h buf, within_block bs base size a c -> 0 < c ->
    exists buf', rload checked avail m a (c * u) h buf = Done (h, buf') /\
      forall i, buf' i = if (0 <=? i) && (i <? c * u) then flat ptrs (bs * u) h (a * u + i) else buf i.
  Proof. intros C M. exact (RenodeMemProofs2.unit_load avail bs size ptrs base u h0 m C M). Qed.
  Theorem C53_units_store_partial : config_units avail bs size ptrs base u -> make true bs size ptrs base u h0 = Done m ->
    forall checked a c h buf, within_block bs base size a c -> 0 < c ->
    exists h', rstore checked avail m a (c * u) h buf = Done (h', buf) /\
      (forall x, 0 <= x < (base + size) * u -> flat ptrs (bs * u) h' x = flat_write (flat ptrs (bs * u) h) (a * u) (c * u) buf x) /\
      (forall q o, foreign ptrs (bs * u) q o -> h' q o = h q o).
  Proof. intros C M. exact (RenodeMemProofs2.unit_store avail bs size ptrs base u h0 m C M). Qed.
  (** Gather loads with an address for each of the elements of [c] units. *)
  Theorem C53_units_gather_partial : config_units avail bs size ptrs base u -> make true bs size ptrs base u h0 = Done m ->
    forall addrs c masks, 0 < c -> c * u * Z.of_nat (length masks) < 2 ^ 31 ->
    Forall (fun a => 0 <= a * u < 2 ^ 64) addrs -> (1 < length addrs)%nat -> (length masks <= length addrs)%nat ->
    forall checked n h buf, c * u * Z.of_nat (length masks) <= n ->
    (forall k, (k < length masks)%nat -> nth k masks false = true -> within_block bs base size (nth k addrs 0) c) ->
    exists buf', vaccess checked avail m true addrs masks (c * u) n h buf = Done (h, buf') /\
      (forall j, (j < 0 \/ c * u * Z.of_nat (length masks) <= j) -> buf' j = buf j) /\
      (forall k j, (k < length masks)%nat -> 0 <= j < c * u ->
         buf' (c * u * Z.of_nat k + j) =
         if nth k masks false then flat ptrs (bs * u) h (nth k addrs 0 * u + j) else buf (c * u * Z.of_nat k + j)).
  Proof.
    intros C M addrs c masks Hc Ht Ha H1 Hl checked n h buf Hn.
    exact (RenodeMemProofs2.unit_gather avail bs size ptrs base u h0 m C M addrs c (length masks) Hc Ht Ha H1 Hl checked masks n h buf eq_refl Hn).
  Qed.
End C53_units.
Print Assumptions C53_units_load_partial.
Print Assumptions C53_units_store_partial.
Print Assumptions C53_units_gather_partial.

(** Units of four bytes, six blocks of 1 M units: a load and a store of two units,
    and a gather of single units with one masked. *)
Definition avail4 (p : Z) : Z := 4 * mb.
Example C53_units_case : config_units avail4 mb (5 * mb) blocks1 3 4 /\ within_block mb 3 (5 * mb) (mb + 6) 2 /\
  match make true mb (5 * mb) blocks1 3 4 bytes1 with
  | Done m =>
      match rload false avail4 m (mb + 6) 8 bytes1 (fun _ => 1000) with
      | Done (_, b) => map b [-1; 0; 1; 7; 8] = [1000; 188; 195; 237; 1000]
      | _ => False
      end /\
      match rstore true avail4 m (mb + 6) 8 bytes1 (fun i => 200 + i) with
      | Done (h, _) => map (h 20) [23; 24; 31; 32] = [181; 200; 207; 244]
      | _ => False
      end /\
      match vaccess false avail4 m true [mb + 6; 5; 7] [true; false; true] 4 12 bytes1 (fun i => 1000) with
      | Done (_, b) => map b [0; 3; 4; 7; 8; 11; 12] = [188; 209; 1000; 1000; 10; 31; 1000]
      | _ => False
      end
  | _ => False
  end.
Proof.
  split; [|split].
  - unfold config_units, good_blocks, avail4, mb, blocks1. split; [exists 2; lia|]. split; [lia|]. split; [lia|]. split; [lia|].
    split; [lia|]. split; [lia|]. split; [lia|].
    split; [vm_compute; discriminate|]. split; [cbn [length]; lia|]. split.
    + repeat constructor; cbn; lia.
    + unfold mb. repeat (apply Forall_cons; [lia|]). apply Forall_nil.
  - unfold within_block, mb. split; [lia|]. split; [lia|]. vm_compute. discriminate.
  - vm_compute. repeat split.
Qed.

(** A vector load from one address steps by bytes where it should step by units:
    with units of two bytes the second two-byte element is taken two units, not
    one, after the first. *)
Theorem C53_unit_stride_refuted : exists m buf, make true mb (5 * mb) blocks1 0 2 bytes1 = Done m /\
  vaccess true avail4 m true [10] [true; true] 2 4 bytes1 (fun _ => 0) = Done (bytes1, buf) /\
  (buf 2 = flat blocks1 (mb * 2) bytes1 (12 * 2) /\ buf 2 <> flat blocks1 (mb * 2) bytes1 (11 * 2)).
Proof. do 2 eexists. split; [vm_compute; reflexivity|]. split; [vm_compute; reflexivity|]. vm_compute. split; [reflexivity | discriminate]. Qed.
Print Assumptions C53_unit_stride_refuted.
