(* C109: the unsafe functions. *)
From Coq Require Import Lia.
From Verif Require Import Base Streams Utf8 Types Traits Encode Decode Mem SizedSlice SizedStr Slot Raw SpecContainers SpecRaw RawProofs Utf8Facts.
Set Implicit Arguments.

(* C109: a SizedSlice made by a program that keeps to the contracts can be looked at, and shows items that a safe program could have put there; *)
Theorem C109_slice : forall debug n A (s : sslice A), RawReachable debug n s ->
  exists items, ss_as_slice s = Done items /\ ss_length s = length items /\ ss_capacity s = n /\ length items <= n /\
  exists s0, Reachable n s0 /\ ss_as_slice s0 = Done items.
Proof. exact C109_slice_lemma. Qed.
Print Assumptions C109_slice.

(* what it does is the same as for the safe program. *)
Theorem C109_same : forall debug n A (s s0 : sslice A), RawReachable debug n s -> Reachable n s0 -> ss_as_slice s = ss_as_slice s0 ->
  (forall cl, ss_clone cl s = ss_clone cl s0) /\ ss_each_ref s = ss_each_ref s0 /\ (forall size granted, ss_into_boxed_slice size granted s = ss_into_boxed_slice size granted s0) /\
  (forall k, ss_index s k = ss_index s0 k) /\ (forall a b, ss_index_range s a b = ss_index_range s0 a b) /\ (forall hash, ss_hash hash s = ss_hash hash s0) /\
  (forall f, ss_encode f s = ss_encode f s0) /\ ss_length s = ss_length s0 /\ ss_capacity s = ss_capacity s0.
Proof. exact C109_same_lemma. Qed.
Print Assumptions C109_same.

(* Calls within the contracts never panic, whether built for debugging or not, and do what they say: raw parts that meet the contract are taken as they are; *)
Theorem C109_parts : forall debug A (buf : list (option A)) len, len <= length buf -> Initialised buf len ->
  exists s items, ss_from_raw_parts debug buf len = Done s /\ ss_into_raw_parts s = (buf, len) /\ ss_as_slice s = Done items /\ length items = len /\
  forall k x, k < len -> (nth_error items k = Some x <-> nth_error buf k = Some (Some x)).
Proof. exact C109_parts_lemma. Qed.
Print Assumptions C109_parts.

(* the parts that `into_raw_parts` gives meet it; the length can be set wherever there are items before it; writing changes what is written to. *)
Theorem C109_calls : forall debug n A (s : sslice A), RawReachable debug n s ->
  (let (buf, len) := ss_into_raw_parts s in length buf = n /\ len <= n /\ Initialised buf len /\ ss_from_raw_parts debug buf len = Done s) /\
  (forall len, len <= n -> Initialised (ss_buf s) len -> exists s' items', ss_set_len debug s len = Done s' /\ ss_as_slice s' = Done items' /\ length items' = len /\
     forall k x, k < len -> (nth_error items' k = Some x <-> ss_ptr_read s k = Done x)) /\
  (forall k x, k < n -> exists s', ss_ptr_write s k x = Done s' /\ ss_length s' = ss_length s /\
     forall j, ss_ptr_read s' j = if j =? k then Done x else ss_ptr_read s j).
Proof. exact C109_calls_lemma. Qed.
Print Assumptions C109_calls.

(* The contract is no stronger than needed: without it, looking at the items is undefined behaviour. *)
Theorem C109_needed : forall A (buf : list (option A)) len, (exists items, ss_as_slice (SSlice buf len) = Done items) <-> len <= length buf /\ Initialised buf len.
Proof. exact C109_needed_lemma. Qed.
Print Assumptions C109_needed.

(* The same of SizedStr. [RawStr] asks more than the documentation of `from_utf8_unchecked`: that the text is not longer than the capacity. *)
Theorem C109_str_partial : forall debug n w s, RawStr debug n w s ->
  exists x, st_as_str s = Done x /\ valid_utf8 x /\ st_length s = length x /\ st_capacity s = n /\ length x <= n /\
  exists s0, StrReachable n true s0 /\ st_as_str s0 = Done x.
Proof. exact C109_str_lemma. Qed.
Print Assumptions C109_str_partial.

Theorem C109_str_calls_partial : forall debug n,
  (forall buf len, length buf = n -> len <= n -> valid_utf8 (firstn len buf) ->
     exists s, st_from_raw_parts debug buf len = Done s /\ st_as_str s = Done (firstn len buf) /\ st_into_raw_parts s = Done (buf, len)) /\
  (forall bs, valid_utf8 bs -> length bs <= n -> exists s, st_from_utf8_unchecked debug n bs = Done s /\ st_as_str s = Done bs) /\
  (forall s, RawStr debug n true s -> exists buf len, st_into_raw_parts s = Done (buf, len) /\
     length buf = n /\ len <= n /\ valid_utf8 (firstn len buf) /\ st_from_raw_parts debug buf len = Done s).
Proof. exact C109_str_calls_lemma. Qed.
Print Assumptions C109_str_calls_partial.

(* A longer text meets the documented contract; a debug build panics, any other writes beyond its buffer. *)
Theorem C109_str_refuted : forall n bs, valid_utf8 bs -> n < length bs ->
  st_from_utf8_unchecked true n bs = Panics PAssert /\ st_from_utf8_unchecked false n bs = Undefined UOutOfBounds.
Proof. exact C109_refutation. Qed.
Print Assumptions C109_str_refuted.

(* And of Slot: the unchecked functions do what the checked ones do. *)
Theorem C109_slot : forall debug checks t s, RawSlot debug checks t s ->
  slot_view s = Done (slot_as_slice s) /\ length (slot_as_slice s) = slot_length s /\ slot_length s <= slot_capacity s /\
  (forall len, len <= slot_capacity s -> exists s', slot_set_len_unchecked debug s len = Done s' /\ slot_set_len s len = (s', Ok tt)) /\
  (forall k b, k < slot_capacity s -> exists s', slot_ptr_write s k b = Done s' /\ slot_index_set s k b = (s', Ok tt)).
Proof. exact C109_slot_lemma. Qed.
Print Assumptions C109_slot.

(* In a debug build, and in no other, a length that is too great is a panic; nothing else is. *)
Theorem C109_asserted : forall debug p,
  (forall A (buf : list (option A)) len, ss_from_raw_parts debug buf len = Panics p <-> debug = true /\ length buf < len /\ p = PAssert) /\
  (forall A (s : sslice A) len, ss_set_len debug s len = Panics p <-> debug = true /\ ss_capacity s < len /\ p = PAssert) /\
  (forall buf len, st_from_raw_parts debug buf len = Panics p <-> debug = true /\ length buf < len /\ p = PAssert) /\
  (forall n bs, st_from_utf8_unchecked debug n bs = Panics p <-> debug = true /\ n < length bs /\ p = PAssert) /\
  (forall s len, slot_set_len_unchecked debug s len = Panics p <-> debug = true /\ slot_capacity s < len /\ p = PAssert).
Proof. exact C109_asserted_lemma. Qed.
Print Assumptions C109_asserted.

(* two items are made of raw parts, a third is written behind them, and the length set; the text "é" in a buffer with other octets; a Slot *)
Example C109_case :
  (exists s, RawReachable true 4 s /\ ss_as_slice s = Done [7; 8; 9] /\ ss_buf s = [Some 7; Some 8; Some 9; None]) /\
  ~ Initialised [Some 7; None] 2 /\
  (exists s, RawStr true 4 true s /\ st_as_str s = Done [xc3; xa9] /\ st_into_raw_parts s = Done ([xc3; xa9; xff; x41], 2)) /\
  valid_utf8 [xc3; xa9] /\
  (exists s, RawSlot true true TBool s /\ slot_as_slice s = [x01; x07] /\ slot_capacity s = 3).
Proof.
  assert (V : valid_utf8 [xc3; xa9]) by (apply from_utf8_valid; vm_compute; reflexivity).
  split; [|split; [|split; [|split; [exact V|]]]].
  - exists (SSlice [Some 7; Some 8; Some 9; None] 3). split; [|split; reflexivity].
    apply RW_set_len with (s := SSlice [Some 7; Some 8; Some 9; None] 2) (len := 3); [|lia| |reflexivity].
    + apply RW_write with (s := SSlice [Some 7; Some 8; None; None] 2) (k := 2) (x := 9); [|lia|reflexivity].
      apply RW_parts with (buf := [Some 7; Some 8; None; None]) (len := 2); [reflexivity | lia | | reflexivity].
      intros [|[|k]] Hk; [exists 7 | exists 8 | lia]; reflexivity.
    + intros [|[|[|k]]] Hk; [exists 7 | exists 8 | exists 9 | lia]; reflexivity.
  - intros H. destruct (H 1) as [x Hx]; [lia | discriminate].
  - exists (SSlice [Some xc3; Some xa9; Some xff; Some x41] 2). split; [|split; vm_compute; reflexivity].
    apply RT_write with (s := SSlice [Some xc3; Some xa9; Some xff; Some x00] 2) (k := 3) (b := x41); [|cbn; lia|reflexivity].
    apply RT_parts with (buf := [xc3; xa9; xff; x00]) (len := 2); [reflexivity | lia | exact V | reflexivity].
  - exists (Slot [x01; x07; x00] 2). split; [|split; reflexivity].
    apply RS_set_len with (s := Slot [x01; x07; x00] 1) (len := 2); [|cbn; lia|reflexivity].
    apply RS_write with (s := Slot [x01; x00; x00] 1) (k := 1) (b := x07); [|cbn; lia|reflexivity].
    apply RS_op with (s := Slot [x00; x00; x00] 3) (op := SWrite (VBool true)) (r := Ok tt); [|vm_compute; reflexivity].
    apply (RS_parts true true TBool [x00; x00; x00] (len := 3)). cbn. lia.
Qed.
