(* C43-C48, C70: Slot. *)
From Coq Require Import Lia.
From Verif Require Import Base Streams Utf8 Types Encode Decode Sized Slot Spec SpecCalls SpecDecode SpecValues SpecSize SpecPeak SlotProofs RoomProofs SizedTextProofs Samples SampleFacts.

(* C43: after any history of safe operations, failed and panicking ones included. *)
Theorem C43_slot_invariant : forall checks t cap ops s rs, slot_run checks t (slot_with_capacity cap) ops = (s, rs) ->
  length rs = length ops /\ slot_length s <= slot_capacity s /\ slot_capacity s = cap /\ length (slot_as_slice s) = slot_length s.
Proof. exact @C43_lemma. Qed.
Print Assumptions C43_slot_invariant.

Example C43_case : slot_run true (TVec (TInt Usize)) (slot_with_capacity 4)
    [SWrite (VSeq [VInt 7]); SWrite (VSeq [VInt 1; VInt 2]); SWrite (VSeq [VInt 65536]); SSetLen 5; SSet 3 xaa; SCopy [x01]] =
  (Slot [x01; x00; x01; xaa] 1,
   [Ok tt; Panic (POutput (StreamError 4 4 2)); Err (EItem 0 (EUsize 65536)); Panic PAssert; Ok tt; Ok tt]).
Proof. vm_compute. reflexivity. Qed.

(* C44: the marked bytes are the encoding, whatever was there, and bytes beyond it stay. *)
Theorem C44_slot_write : forall checks t s v s', slot_write checks t s v = (s', Ok tt) ->
  Appends (encode checks t v) (slot_as_slice s') (Ok tt) /\
  skipn (slot_length s') (s_buf s') = skipn (slot_length s') (s_buf s) /\ slot_capacity s' = slot_capacity s.
Proof. exact @C44_write_lemma. Qed.
Print Assumptions C44_slot_write.

(* an encodable value can be written exactly when it fits *)
Theorem C44_slot_write_succeeds : forall checks t s v bs, Appends (encode checks t v) bs (Ok tt) ->
  ((exists s', slot_write checks t s v = (s', Ok tt) /\ slot_as_slice s' = bs) <-> length bs <= slot_capacity s).
Proof. exact @C44_succeeds_lemma. Qed.
Print Assumptions C44_slot_write_succeeds.

(* reading it back, with the exclusions of C13 *)
Theorem C44_slot_read_back_partial : forall checks t s v s', wt t v -> RoundTrips t v -> lossless v = true ->
  slot_write checks t s v = (s', Ok tt) -> exists v', slot_read t s' = Ok v' /\ erase v' = erase v.
Proof. exact @C44_read_equal_lemma. Qed.
Print Assumptions C44_slot_read_back_partial.

Theorem C44_slot_read_back_exact_partial : forall checks t s v s', wt t v -> RoundTrips t v ->
  slot_write checks t s v = (s', Ok tt) -> slot_read t s' = Ok (norm v).
Proof. exact @C44_read_lemma. Qed.
Print Assumptions C44_slot_read_back_exact_partial.

Theorem C44_slot_read_back_refuted : exists s v s', wt (THashSet (TInt U8)) v /\ slot_write true (THashSet (TInt U8)) s v = (s', Ok tt) /\
  slot_read (THashSet (TInt U8)) s' = Ok (VSet [VInt 5]) /\ v = VSet [VInt 1; VInt 0; VInt 5].
Proof. exact @C44_refutation. Qed.
Print Assumptions C44_slot_read_back_refuted.

Example C44_case : wt sample_ty sample_val /\ RoundTrips sample_ty sample_val /\ lossless sample_val = true /\
  slot_write true sample_ty (Slot (repeat xff 31) 17) sample_val = (Slot (sample_bytes ++ [xff; xff]) 29, Ok tt).
Proof. split; [exact sample_wt|]. split; [exact sample_round_trips|]. split; [reflexivity | vm_compute; reflexivity]. Qed.

(* C45: the length stays, but the contents do not: the bytes written before the failure stay written. *)
Theorem C45_failed_write_partial : forall checks t s v s' r, slot_write checks t s v = (s', r) -> r <> Ok tt ->
  slot_length s' = slot_length s /\ slot_capacity s' = slot_capacity s /\
  exists bs, length bs <= slot_capacity s /\ s_buf s' = bs ++ skipn (length bs) (s_buf s) /\
    forall e, r = Err e -> Appends (encode checks t v) bs (Err e).
Proof. exact @C45_lemma. Qed.
Print Assumptions C45_failed_write_partial.

Theorem C45_failed_write_refuted :
  (exists checks t s v s' e, wt t v /\ slot_write checks t s v = (s', Err e) /\ slot_as_slice s' <> slot_as_slice s) /\
  (exists checks t s v s' p, wt t v /\ slot_write checks t s v = (s', Panic p) /\ slot_as_slice s' <> slot_as_slice s).
Proof. exact @C45_refutation. Qed.
Print Assumptions C45_failed_write_refuted.

Example C45_case : slot_write true (TArray (TInt Usize) 2) (Slot [x07; x08; x09; x0a] 4) (VSeq [VInt 1; VInt 65536]) =
  (Slot [x01; x00; x09; x0a] 4, Err (EItem 1 (EUsize 65536))).
Proof. vm_compute. reflexivity. Qed.

(* C46: if the marked bytes are enough for the decoder to return, reading returns the same. *)
Theorem C46_read_marked_partial : forall t s i' r, slot_length s <= slot_capacity s ->
  decode t (input_new (slot_as_slice s)) = (i', r) -> (forall p, r <> Panic p) -> slot_read t s = r.
Proof. exact @C46_lemma. Qed.
Print Assumptions C46_read_marked_partial.

(* if they are not, it goes on beyond them *)
Theorem C46_read_marked_refuted : exists t s1 s2 v1 v2, slot_length s1 <= slot_capacity s1 /\ slot_length s2 <= slot_capacity s2 /\
  slot_as_slice s1 = slot_as_slice s2 /\ slot_read t s1 = Ok v1 /\ slot_read t s2 = Ok v2 /\ v1 <> v2.
Proof. exact @C46_refutation. Qed.
Print Assumptions C46_read_marked_refuted.

Example C46_case : decode (TVec (TInt U8)) (input_new (slot_as_slice (Slot [x01; x00; x07; xff] 3))) =
  (Input [x01; x00; x07] 3, Ok (VSeq [VInt 7])).
Proof. vm_compute. reflexivity. Qed.

(* C47: after any history, with the exclusions of C35, and of C09 for the lowest time. *)
Theorem C47_new_has_room_partial : forall size_of checks t s0 ops s rs v s' r,
  slot_new size_of t = Some s0 -> slot_run checks t s0 ops = (s, rs) -> SizeOk size_of t -> wt t v ->
  slot_write checks t s v = (s', r) -> checks = false \/ has_lowest_second v = false -> forall p, r <> Panic p.
Proof. exact @C47_lemma. Qed.
Print Assumptions C47_new_has_room_partial.

Theorem C47_new_has_room_refuted :
  (exists t s v s' e, (forall size_of, slot_new size_of t = Some s) /\ wt t v /\ slot_write true t s v = (s', Panic (POutput e))) /\
  (forall size_of, size_of (TOption (TNonZero U8)) = 1%N -> size_of TUnit = 0%N -> exists t s v s' e, slot_new size_of t = Some s /\ wt t v /\
     slot_write true t s v = (s', Panic (POutput e))).
Proof. exact @C47_refutation. Qed.
Print Assumptions C47_new_has_room_refuted.

(* for every type: there is room for all values exactly if the constant is right *)
Theorem C47_exact : forall size_of checks t s0 ops s rs, slot_new size_of t = Some s0 -> slot_run checks t s0 ops = (s, rs) -> EnumsOk t ->
  ((forall v bs, wt t v -> Appends (encode checks t v) bs (Ok tt) -> exists s', slot_write checks t s v = (s', Ok tt) /\ slot_as_slice s' = bs) <->
   (or_zero (peak t) <= N.of_nat (slot_capacity s0))%N).
Proof. exact C47_exact_lemma. Qed.
Print Assumptions C47_exact.

Example C47_case : forall size_of, exists s s', slot_new size_of sized_sample = Some s /\ SizeOk size_of sized_sample /\
  slot_write true sized_sample s sized_value = (s', Ok tt) /\ slot_is_full s' = true.
Proof. intros size_of. eexists. eexists. split; [reflexivity|]. split; [cbn; tauto|]. split; vm_compute; reflexivity. Qed.

(* C48 *)
Theorem C48_copy_from_slice : forall s data,
  (length data <= slot_capacity s -> exists s', slot_copy_from_slice s data = (s', Ok tt) /\ slot_as_slice s' = data /\
     slot_length s' = length data /\ slot_capacity s' = slot_capacity s /\ skipn (length data) (s_buf s') = skipn (length data) (s_buf s)) /\
  (slot_capacity s < length data -> slot_copy_from_slice s data = (s, Panic PAssert)).
Proof. exact @C48_copy_lemma. Qed.
Print Assumptions C48_copy_from_slice.

Theorem C48_set_len : forall s len,
  (len <= slot_capacity s -> exists s', slot_set_len s len = (s', Ok tt) /\ slot_length s' = len /\ s_buf s' = s_buf s) /\
  (slot_capacity s < len -> slot_set_len s len = (s, Panic PAssert)).
Proof. exact @C48_set_len_lemma. Qed.
Print Assumptions C48_set_len.

(* where an Input over the data returns; where it panics on a short read, the slot may read on (C46) *)
Theorem C48_copied_bytes_decode_partial : forall t s data s' i' r, slot_copy_from_slice s data = (s', Ok tt) ->
  decode t (input_new data) = (i', r) -> (forall p, r <> Panic p) -> slot_read t s' = r.
Proof. exact @C48_read_lemma. Qed.
Print Assumptions C48_copied_bytes_decode_partial.

Theorem C48_copied_bytes_decode_refuted : exists t s data s' i' p v, slot_copy_from_slice s data = (s', Ok tt) /\
  decode t (input_new data) = (i', Panic p) /\ slot_read t s' = Ok v.
Proof. exact @C48_refutation. Qed.
Print Assumptions C48_copied_bytes_decode_refuted.

Example C48_case : slot_copy_from_slice (Slot [x07; x08; x09; x0a] 4) [x01; x02] = (Slot [x01; x02; x09; x0a] 2, Ok tt) /\
  slot_read (TInt U16) (Slot [x01; x02; x09; x0a] 2) = Ok (VInt 513).
Proof. vm_compute. split; reflexivity. Qed.

(* C70: reading an index is checked against the length, writing against the capacity; equality is that of the marked bytes. *)
Theorem C70_index : forall s k, slot_length s <= slot_capacity s ->
  (k < slot_length s -> exists b, nth_error (slot_as_slice s) k = Some b /\ slot_index s k = Ok b) /\
  (slot_length s <= k -> slot_index s k = Panic PIndex).
Proof. exact @C70_index_lemma. Qed.
Print Assumptions C70_index.

Theorem C70_index_set : forall s k b,
  (k < slot_capacity s -> exists s', slot_index_set s k b = (s', Ok tt) /\ slot_length s' = slot_length s /\ slot_capacity s' = slot_capacity s /\
     forall j, nth_error (s_buf s') j = if j =? k then Some b else nth_error (s_buf s) j) /\
  (slot_capacity s <= k -> slot_index_set s k b = (s, Panic PIndex)).
Proof. exact @C70_index_set_lemma. Qed.
Print Assumptions C70_index_set.

Theorem C70_equality : forall s bs, slot_eqb s bs = true <-> slot_as_slice s = bs.
Proof. exact @C70_eq_lemma. Qed.
Print Assumptions C70_equality.

Example C70_case : slot_index (Slot [x07; x08; x09] 2) 1 = Ok x08 /\ slot_index (Slot [x07; x08; x09] 2) 2 = Panic PIndex /\
  slot_index_set (Slot [x07; x08; x09] 2) 2 xff = (Slot [x07; x08; xff] 2, Ok tt) /\ slot_eqb (Slot [x07; x08; x09] 2) [x07; x08] = true.
Proof. vm_compute. repeat split; reflexivity. Qed.

(* C96: after any history of safe operations *)
Theorem C96_slot_lengths : forall checks t cap ops s rs, slot_run checks t (slot_with_capacity cap) ops = (s, rs) ->
  slot_length s = length (slot_as_slice s) /\
  (slot_is_empty s = true <-> slot_as_slice s = []) /\
  (slot_is_full s = true <-> length (slot_as_slice s) = cap).
Proof. exact @C96_slot_lemma. Qed.
Print Assumptions C96_slot_lengths.

Example C96_slot_case : let s := fst (slot_run true (TInt U16) (slot_with_capacity 2) [SWrite (VInt 258)]) in
  slot_as_slice s = [x02; x01] /\ slot_is_full s = true /\ slot_is_empty s = false.
Proof. vm_compute. repeat split. Qed.
