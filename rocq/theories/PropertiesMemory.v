(* C72-C77: build profiles, decoded values on the way back and on other machines, and the memory that decoding uses. *)
From Coq Require Import Lia Permutation.
From Verif Require Import Base Streams Utf8 Types Traits Encode Decode Slot Mem SizedSlice SizedIter Owned Spec SpecCalls SpecDecode SpecPortable SpecWork
  Heap SpecHeap ProfileProofs PortableProofs WorkProofs HeapProofs ReserveProofs LeakProofs MoreRefutations ComputeFacts Samples SampleFacts.

(* C72: overflow checks (a debug build) make no difference, but for the lowest second of SystemTime and for SizedIter::nth. *)
Theorem C72_encode_partial : forall t v o, wt t v -> output_position o <= output_capacity o ->
  encode true t v o = encode false t v o \/
  (has_lowest_second v = true /\ exists o', encode true t v o = (o', Panic PArith)).
Proof. exact C72_encode_lemma. Qed.
Print Assumptions C72_encode_partial.

Theorem C72_slot_partial : forall t ops, (forall v, In (SWrite v) ops -> wt t v /\ has_lowest_second v = false) ->
  forall s, slot_run true t s ops = slot_run false t s ops.
Proof. exact C72_slot_lemma. Qed.
Print Assumptions C72_slot_partial.

Theorem C72_items_partial : forall A size ops, (forall n, ~ In (ONth n) ops) ->
  forall h : holder A, own_run true size ops h = own_run false size ops h.
Proof. exact @C72_items_lemma. Qed.
Print Assumptions C72_items_partial.

Theorem C72_encode_refuted : exists t v o, wt t v /\ output_position o <= output_capacity o /\
  (exists o', encode true t v o = (o', Panic PArith)) /\
  (exists o', encode false t v o = (o', Ok tt)).
Proof. exact C72_encode_refutation. Qed.
Print Assumptions C72_encode_refuted.

Example C72_case : wt sample_ty sample_val /\ has_lowest_second sample_val = false /\
  slot_run true sample_ty (Slot (repeat x00 60) 0) [SWrite sample_val; SSetLen 3; SWrite sample_bad] =
  slot_run false sample_ty (Slot (repeat x00 60) 0) [SWrite sample_val; SSetLen 3; SWrite sample_bad].
Proof. split; [exact sample_wt|]. split; vm_compute; reflexivity. Qed.

(* C73: what was decoded can be encoded, and decodes to itself but for the types that C13 excludes. *)
Theorem C73_encode_again_partial : forall checks t i i' v, EnumsOk t -> char_free t = true -> checks = false \/ has_lowest_second v = false ->
  in_bounds i -> decode t i = (i', Ok v) ->
  exists bs, Appends (encode checks t v) bs (Ok tt) /\ (RoundTrips t v -> Yields (decode t) bs v).
Proof. exact C73_lemma. Qed.
Print Assumptions C73_encode_again_partial.

Theorem C73_encode_again_refuted :
  (exists i i' v bs, in_bounds i /\ decode (TSizedSlice (TInt U8) 2) i = (i', Ok v) /\
     Appends (encode true (TSizedSlice (TInt U8) 2) v) bs (Ok tt) /\ forall v', ~ Yields (decode (TSizedSlice (TInt U8) 2)) bs v') /\
  (exists i i' v bs v', in_bounds i /\ decode (THashSet (TInt U8)) i = (i', Ok v) /\
     Appends (encode true (THashSet (TInt U8)) v) bs (Ok tt) /\ Yields (decode (THashSet (TInt U8))) bs v' /\
     v = VSet [VInt 1; VInt 0; VInt 5] /\ v' = VSet [VInt 5]) /\
  (exists i i' v bs v', in_bounds i /\ decode (THashMap (TInt U8) (TInt U8)) i = (i', Ok v) /\
     Appends (encode true (THashMap (TInt U8) (TInt U8)) v) bs (Ok tt) /\ Yields (decode (THashMap (TInt U8) (TInt U8))) bs v' /\
     v = VMap [(VInt 1, VInt 0); (VInt 5, VInt 6)] /\ v' = VMap [(VInt 5, VInt 6)]).
Proof. exact C73_refutation. Qed.
Print Assumptions C73_encode_again_refuted.

(* a boolean of 2 is written as 1 again *)
Example C73_case : EnumsOk (TTuple [TBool; TString]) /\ in_bounds (input_new [x02; x01; x00; x61]) /\
  decode (TTuple [TBool; TString]) (input_new [x02; x01; x00; x61]) = (Input [x02; x01; x00; x61] 4, Ok (VTuple [VBool true; VStr [x61]])) /\
  RoundTrips (TTuple [TBool; TString]) (VTuple [VBool true; VStr [x61]]) /\
  Appends (encode true (TTuple [TBool; TString]) (VTuple [VBool true; VStr [x61]])) [x01; x01; x00; x61] (Ok tt).
Proof.
  split; [cbn; tauto|]. split; [apply Nat.le_0_l|]. split; [vm_compute; reflexivity|]. split; [cbn; tauto|].
  apply (appends_by_run true 9); vm_compute; reflexivity.
Qed.

(* C74: machines with pointers of any width from 16 bits. What one of them can encode is a value on each of the others; what decodes is a value on each;
   and if the value survives encoding and decoding at all (C13), then from one machine to another it is the same value. *)
Theorem C74_encoded_value_fits : forall checks bits t v bs, (16 <= bits)%Z -> wt t v -> Appends (encode checks t v) bs (Ok tt) -> wt_on bits t v.
Proof. exact C74_write_lemma. Qed.
Print Assumptions C74_encoded_value_fits.

Theorem C74_decoded_value_fits : forall bits t i i' v, (16 <= bits)%Z -> EnumsOk t -> in_bounds i -> decode t i = (i', Ok v) -> IntsOn bits t v.
Proof. exact C74_read_lemma. Qed.
Print Assumptions C74_decoded_value_fits.

Theorem C74_transfer : forall checks b1 b2 t v bs, (16 <= b1)%Z -> (16 <= b2)%Z -> EnumsOk t -> char_free t = true ->
  wt_on b1 t v -> RoundTrips t v -> Appends (encode checks t v) bs (Ok tt) ->
  wt_on b2 t v /\ Yields (decode t) bs (norm v) /\ wt_on b2 t (norm v).
Proof. exact C74_lemma. Qed.
Print Assumptions C74_transfer.

(* the sample has an enum with a usize and an array of isize; 65536 is a usize on 64 bits and not on 16, and has no encoding *)
Example C74_case : EnumsOk sample_ty /\ char_free sample_ty = true /\ wt_on 64 sample_ty sample_val /\ RoundTrips sample_ty sample_val /\
  Appends (encode true sample_ty sample_val) sample_bytes (Ok tt) /\
  wt_on 64 (TInt Usize) (VInt 65536) /\ ~ wt_on 16 (TInt Usize) (VInt 65536).
Proof.
  split; [exact sample_enums_ok|]. split; [reflexivity|].
  split; [apply (C74_encoded_value_fits true 64 sample_ty sample_val sample_bytes); [lia | exact sample_wt | exact sample_appends]|].
  split; [exact sample_round_trips|]. split; [exact sample_appends|]. unfold wt_on. cbn. unfold in_ity. cbn. lia.
Qed.

(* C75: the items that decoding builds are at most as many as the octets it consumes, unless items can take none. *)
Theorem C75_items_bounded_partial : forall t i i' v, EnumsOk t -> contains empty_items t = false -> in_bounds i ->
  decode t i = (i', Ok v) -> items_in t v <= input_position i' - input_position i.
Proof. exact C75_lemma. Qed.
Print Assumptions C75_items_bounded_partial.

Theorem C75_items_bounded_refuted : exists i i' v, in_bounds i /\ decode (TVec TUnit) i = (i', Ok v) /\
  input_position i' - input_position i = 2 /\ Z.of_nat (items_in (TVec TUnit) v) = 65535%Z.
Proof. exact C75_refutation. Qed.
Print Assumptions C75_items_bounded_refuted.

Example C75_case : EnumsOk sample_ty /\ contains empty_items sample_ty = false /\ in_bounds (input_new sample_bytes) /\
  decode sample_ty (input_new sample_bytes) = (Input sample_bytes 29, Ok sample_val) /\ items_in sample_ty sample_val = 6.
Proof. split; [exact sample_enums_ok|]. split; [reflexivity|]. split; [apply Nat.le_0_l|]. split; vm_compute; reflexivity. Qed.

(* the types whose items can take no octets are these, and with each of them two octets of input build as many items as a length can say *)
Theorem C75_items_bounded_exact : forall t, EnumsOk t -> dec_ety t <> None -> (nonempty t = false <-> exists v, Yields (decode t) [] v) /\
  (forall v n lb, Yields (decode t) [] v -> WireLen n lb ->
   Yields (decode (TVec t)) lb (VSeq (repeat v n)) /\ Yields (decode (TLinked t)) lb (VSeq (repeat v n)) /\
   (forall m, n <= m -> Yields (decode (TSizedSlice t m)) lb (VSeq (repeat v n)))).
Proof. exact C75_certain_lemma. Qed.
Print Assumptions C75_items_bounded_exact.

Example C75_exact_case : EnumsOk (TArray TString 0) /\ dec_ety (TArray TString 0) <> None /\ nonempty (TArray TString 0) = false /\
  decode (TVec (TTuple [TUnit; TArray TString 0])) (input_new [x03; x00]) =
    (Input [x03; x00] 2, Ok (VSeq (repeat (VTuple [VUnit; VSeq []]) 3))).
Proof. split; [constructor; constructor|]. split; [discriminate|]. split; vm_compute; reflexivity. Qed.

(* C76: every value with heap memory that decoding completes is part of the result, or its destructor ran, or it was leaked: one of them, once. *)
Theorem C76_conservation : forall t i i' r es, hdecode t i = (i', r, es) ->
  Permutation (made es) (dropped es ++ leaked es ++ match r with Ok v => owners t v | _ => [] end).
Proof. exact C76_lemma. Qed.
Print Assumptions C76_conservation.

(* the decoder with the log is the decoder *)
Theorem C76_same_decoder : forall t i, fst (hdecode t i) = decode t i.
Proof. exact hdecode_same. Qed.
Print Assumptions C76_same_decoder.

(* nothing is leaked, whatever the outcome, if no Vec, array or SizedSlice has items with heap memory *)
Theorem C76_no_leak_partial : forall t i i' r es, contains leaky t = false -> hdecode t i = (i', r, es) -> leaked es = [].
Proof. exact C76_no_leak_lemma. Qed.
Print Assumptions C76_no_leak_partial.

Theorem C76_no_leak_refuted :
  (exists i i' e es, hdecode (TVec TString) i = (i', Err e, es) /\ leaked es = [VStr [x61]]) /\
  (exists i i' e es, hdecode (TArray TString 2) i = (i', Err e, es) /\ leaked es = [VStr [x61]]) /\
  (exists i i' e es, hdecode (TSizedSlice TString 2) i = (i', Err e, es) /\ leaked es = [VStr [x61]]) /\
  (exists i i' p es, hdecode (TVec TString) i = (i', Panic p, es) /\ leaked es = [VStr [x61]]) /\
  (exists i i' v es, hdecode (TSizedSlice TString 2) i = (i', Ok v, es) /\ v = VSeq [VStr [x61]] /\ leaked es = [VStr [x62]]) /\
  (exists i i' e es, hdecode (TTuple [TSizedSlice TString 1; TString]) i = (i', Err e, es) /\ leaked es = [VStr [x61]]).
Proof. exact C76_refutation. Qed.
Print Assumptions C76_no_leak_refuted.

(* what is leaked, for items of any type: if the decoding of an item fails or panics, all that the items before it own;
   and if a SizedSlice is decoded, all that the items behind its length own *)
Theorem C76_leaks : forall t n lb vs bss rest, WireLen n lb -> Forall2 (fun v b => Yields (decode t) b v) vs bss ->
  (length vs < n -> (forall v, snd (decode t (Input (lb ++ concat bss ++ rest) (length (lb ++ concat bss)))) <> Ok v) ->
   exists i' r es more, hdecode (TVec t) (input_new (lb ++ concat bss ++ rest)) = (i', r, es) /\ (forall v, r <> Ok v) /\
     Permutation (leaked es) (flat_map (owners t) vs ++ more)) /\
  (forall m, n <= m -> length vs < m -> (forall v, snd (decode t (Input (lb ++ concat bss ++ rest) (length (lb ++ concat bss)))) <> Ok v) ->
   exists i' r es more, hdecode (TSizedSlice t m) (input_new (lb ++ concat bss ++ rest)) = (i', r, es) /\ (forall v, r <> Ok v) /\
     Permutation (leaked es) (flat_map (owners t) vs ++ more)) /\
  (forall m, length vs < m -> (forall v, snd (decode t (Input (concat bss ++ rest) (length (concat bss)))) <> Ok v) ->
   exists i' r es more, hdecode (TArray t m) (input_new (concat bss ++ rest)) = (i', r, es) /\ (forall v, r <> Ok v) /\
     Permutation (leaked es) (flat_map (owners t) vs ++ more)) /\
  (n <= length vs -> exists i' es more,
     hdecode (TSizedSlice t (length vs)) (input_new (lb ++ concat bss ++ rest)) = (i', Ok (VSeq (firstn n vs)), es) /\
     Permutation (leaked es) (flat_map (owners t) (skipn n vs) ++ more)).
Proof. exact C76_leaks_lemma. Qed.
Print Assumptions C76_leaks.

(* so each of these collections leaks for some input, if an item takes an octet and one that owns memory can be decoded *)
Theorem C76_leak_certain : forall t b v, EnumsOk t -> nonempty t = true -> Yields (decode t) b v -> owners t v <> [] ->
  (exists i i' r es, hdecode (TVec t) i = (i', r, es) /\ leaked es <> []) /\
  (forall n, 2 <= n -> exists i i' r es, hdecode (TArray t n) i = (i', r, es) /\ leaked es <> []) /\
  (forall n, 1 <= n -> exists i i' r es, hdecode (TSizedSlice t n) i = (i', r, es) /\ leaked es <> []).
Proof. exact C76_certain_lemma. Qed.
Print Assumptions C76_leak_certain.

Example C76_leak_case : EnumsOk TString /\ nonempty TString = true /\ Yields (decode TString) [x01; x00; x61] (VStr [x61]) /\
  owners TString (VStr [x61]) <> [].
Proof. split; [constructor|]. split; [reflexivity|]. split; [apply yields_by_run; vm_compute; reflexivity | discriminate]. Qed.

(* a LinkedList of boxed texts whose second item is no text: the first is dropped, text and box *)
Example C76_case : contains leaky (TLinked (TWrap WBox TString)) = false /\
  hdecode (TLinked (TWrap WBox TString)) (input_new [x02; x00; x01; x00; x61; x01; x00; xff]) =
  (Input [x02; x00; x01; x00; x61; x01; x00; xff] 8, Err (DItem 1 (DBad (DUtf8 xff 0))),
   [Made (VStr [x61]); Made (VWrap (VStr [x61])); Dropped (VWrap (VStr [x61])); Dropped (VStr [x61])]).
Proof. split; vm_compute; reflexivity. Qed.

(* C77: each time decoding reserves room it is for at most 65535 items, and it has consumed two octets for it. *)
Theorem C77_room_partial : forall t i i' r es, in_bounds i -> hdecode t i = (i', r, es) ->
  2 * length (reserved es) <= input_position i' - input_position i /\ Forall (fun p => (Z.of_nat (snd p) <= 65535)%Z) (reserved es).
Proof. exact C77_lemma. Qed.
Print Assumptions C77_room_partial.

(* but the room is reserved before any item is read: two octets reserve 65535 items of any size *)
Theorem C77_room_refuted : exists i i' p es, hdecode (TVec (TArray (TInt U64) 1000)) i = (i', Panic p, es) /\ input_capacity i = 2 /\
  map (fun p => (fst p, Z.of_nat (snd p))) (reserved es) = [(TArray (TInt U64) 1000, 65535%Z)].
Proof. exact C77_refutation. Qed.
Print Assumptions C77_room_refuted.

(* and so with every item type and every length *)
Theorem C77_room_certain : forall n lb rest, WireLen n lb ->
  (forall t, exists i' r es, hdecode (TVec t) (input_new (lb ++ rest)) = (i', r, es) /\ In (t, n) (reserved es)) /\
  (forall k, exists i' r es, hdecode (THashSet k) (input_new (lb ++ rest)) = (i', r, es) /\ In (k, n) (reserved es)) /\
  (forall k v, exists i' r es, hdecode (THashMap k v) (input_new (lb ++ rest)) = (i', r, es) /\ In (TTuple [k; v], n) (reserved es)).
Proof. exact C77_certain_lemma. Qed.
Print Assumptions C77_room_certain.

(* two inner vectors inside of an outer one: three reservations *)
Example C77_case :
  map snd (reserved (snd (hdecode (TVec (TVec (TInt U8))) (input_new [x02; x00; x01; x00; x07; x00; x00])))) = [2; 1; 0].
Proof. vm_compute. reflexivity. Qed.
