(* C113: what is changed through a mutable view is what the shared view then shows. *)
From Coq Require Import Lia.
From Verif Require Import Base Streams Utf8 Types Encode Decode Mem SizedSlice SizedIter SizedStr Slot SpecContainers Utf8Facts ViewProofs.

(* as_mut_slice, AsMut, BorrowMut, DerefMut and iter_mut of a SizedSlice: any change [f] of the items that keeps their number *)
Theorem C113_slice : forall n A (s : sslice A) items f, Reachable n s -> ss_as_slice s = Done items -> length (f items) = length items ->
  exists s', ss_edit f s = Done s' /\ Reachable n s' /\ ss_as_slice s' = Done (f items) /\ ss_length s' = ss_length s /\ ss_capacity s' = n /\
    skipn (ss_length s) (ss_buf s') = skipn (ss_length s) (ss_buf s).
Proof. exact C113_slice_lemma. Qed.
Print Assumptions C113_slice.

(* storing through the k-th reference of each_mut is storing at index k *)
Theorem C113_each_mut : forall n A (s : sslice A) refs addrs k a x, Reachable n s -> ss_each_ref s = Done refs -> ss_as_slice refs = Done addrs ->
  nth_error addrs k = Some a -> ss_store s a x = ss_index_set s k x /\ exists s', ss_store s a x = Done s' /\ Reachable n s'.
Proof. exact C113_store_lemma. Qed.
Print Assumptions C113_each_mut.

(* as_mut_slice of a SizedIter: what is left is changed, and from either end the iterator then gives the changed items *)
Theorem C113_iter : forall n A (i : siter A) rest f, IterReachable n i -> it_as_slice i = Done rest -> (forall l, length (f l) = length l) ->
  exists i', it_edit f i = Done i' /\ IterReachable n i' /\ it_as_slice i' = Done (f rest) /\
    (forall es, exists i'', it_run es i' = Done (fst (deque es (f rest)), i'') /\ it_as_slice i'' = Done (snd (deque es (f rest)))).
Proof. exact C113_iter_lemma. Qed.
Print Assumptions C113_iter.

(* as_mut_str of a SizedStr: `&mut str` can only come to hold text of the same number of octets *)
Theorem C113_str : forall n w s bs f, StrReachable n w s -> st_as_str s = Done bs -> valid_utf8 (f bs) -> length (f bs) = length bs ->
  exists s', st_change s (f bs) = Done s' /\ StrReachable n w s' /\ st_as_str s' = Done (f bs) /\ st_as_bytes s' = Done (f bs) /\
    st_length s' = st_length s /\ st_capacity s' = n.
Proof. exact C113_str_lemma. Qed.
Print Assumptions C113_str.

(* Slot: as_mut_slice, AsMut, BorrowMut and DerefMut give the whole buffer, as_slice, AsRef, Borrow and Deref only the part that has been marked. *)
Theorem C113_slot_exact : forall s, slot_length s <= slot_capacity s ->
  (slot_as_slice s = slot_as_mut_slice s <-> slot_is_full s = true) /\
  (slot_as_slice s <> slot_as_mut_slice s -> length (slot_as_slice s) < length (slot_as_mut_slice s)).
Proof. exact C113_slot_exact_lemma. Qed.
Print Assumptions C113_slot_exact.

Theorem C113_slot_partial : forall s f, slot_length s <= slot_capacity s -> (forall l, length (f l) = length l) ->
  slot_as_slice (slot_edit f s) = firstn (slot_length s) (f (slot_as_mut_slice s)) /\
  (slot_is_full s = true -> slot_as_slice (slot_edit f s) = f (slot_as_slice s)) /\
  (forall g, (forall l, f l = map g l) -> slot_as_slice (slot_edit f s) = f (slot_as_slice s)) /\
  (forall k b, k < slot_length s -> slot_index (fst (slot_index_set s k b)) k = Ok b).
Proof. exact C113_slot_lemma. Qed.
Print Assumptions C113_slot_partial.

(* `slot[k] = b` can succeed and `slot[k]` then panic; and `slot.reverse()` moves in what was never marked. *)
Theorem C113_slot_refuted :
  (forall s k b, slot_length s <= k < slot_capacity s ->
     snd (slot_index_set s k b) = Ok tt /\ slot_index (fst (slot_index_set s k b)) k = Panic PIndex) /\
  (exists s, slot_length s <= slot_capacity s /\ slot_as_slice s = [x01; x02] /\ slot_as_slice (slot_edit (@rev byte) s) = [x00; x02] /\
     slot_as_slice (slot_edit (@rev byte) s) <> rev (slot_as_slice s)).
Proof. exact C113_slot_refutation. Qed.
Print Assumptions C113_slot_refuted.

Example C113_case :
  ss_edit (@rev nat) (SSlice [Some 7; Some 8; Some 9; None] 3) = Done (SSlice [Some 9; Some 8; Some 7; None] 3) /\
  Reachable 4 (SSlice [Some 7; Some 8; Some 9; None] 3) /\
  ss_store (SSlice [Some 7; Some 8; None] 2) 1 5 = Done (SSlice [Some 7; Some 5; None] 2) /\
  (exists i, it_step Front (ss_into_iter (SSlice [Some 7; Some 8; Some 9; None] 3)) = Done (Some 7, i) /\
     omap it_as_slice (it_edit (@rev nat) i) = Done (Done [9; 8])) /\
  (forall l : list nat, length (rev l) = length l) /\
  slot_length (Slot [x01; x02; x00] 2) <= 2 < slot_capacity (Slot [x01; x02; x00] 2) /\
  slot_is_full (Slot [x01; x02] 2) = true.
Proof.
  split; [reflexivity|]. split; [apply (R_new 4 Some [7; 8; 9]); reflexivity|]. split; [reflexivity|].
  split; [eexists; split; reflexivity|]. split; [intros; apply rev_length|]. split; [cbn; lia | reflexivity].
Qed.

(* the text of a SizedStr made upper case *)
Example C113_str_case : exists s, st_new 3 [x61; x62] = Done (inr s) /\ StrReachable 3 true s /\
  valid_utf8 [x41; x42] /\ omap st_as_str (st_change s [x41; x42]) = Done (Done [x41; x42]).
Proof.
  eexists. split; [reflexivity|]. split; [eapply SR_new with (s := [x61; x62])|].
  - apply from_utf8_valid. reflexivity.
  - reflexivity.
  - split; [apply from_utf8_valid; reflexivity | reflexivity].
Qed.
