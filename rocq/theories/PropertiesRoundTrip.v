(* C13, C14, C17, C32, C33: decoding what was encoded. *)
From Coq Require Import Lia.
From Verif Require Import Base Streams Utf8 Types Traits Encode Decode Spec SpecCalls SpecDecode SpecValues
  EncodeProofs ItemProofs CombinedProofs ValueProofs Refutations ComputeFacts Samples SampleFacts.

(* C13: where it holds. [RoundTrips] excludes HashMap, HashSet and SizedSlices that are not full; [lossless] excludes times between
   seconds and exhausted inclusive ranges; [erase] forgets what `==` does not see. *)
Theorem C13_round_trip_partial : forall checks t v o o' bs, wt t v -> RoundTrips t v -> lossless v = true ->
  output_position o <= output_capacity o -> encode checks t v o = (o', Ok tt) -> output_as_slice o' = output_as_slice o ++ bs ->
  exists v', Yields (decode t) bs v' /\ erase v' = erase v.
Proof. exact C13_equal_lemma. Qed.
Print Assumptions C13_round_trip_partial.

(* the value that comes back is known exactly, also when it is not equal *)
Theorem C13_round_trip_exact_partial : forall checks t v o o' bs, wt t v -> RoundTrips t v ->
  output_position o <= output_capacity o -> encode checks t v o = (o', Ok tt) -> output_as_slice o' = output_as_slice o ++ bs ->
  Yields (decode t) bs (norm v).
Proof. exact C13_lemma. Qed.
Print Assumptions C13_round_trip_exact_partial.

(* each exclusion is needed: [Lost] says the bytes do not decode to an equal value *)
Theorem C13_round_trip_refuted :
  Lost (THashSet (TInt U8)) (VSet [VInt 1; VInt 0; VInt 5]) /\
  Lost (THashMap (TInt U8) (TInt U8)) (VMap [(VInt 1, VInt 0); (VInt 5, VInt 6)]) /\
  Lost (TSizedSlice (TInt U8) 2) (VSeq [VInt 7]) /\
  Lost (TRangeInclusive (TInt U8)) (VRangeInclusive (VInt 3) (VInt 3) true) /\
  Lost TSystemTime (VTime 0 500000000).
Proof. exact C13_refutation. Qed.
Print Assumptions C13_round_trip_refuted.

Example C13_case : wt sample_ty sample_val /\ RoundTrips sample_ty sample_val /\ lossless sample_val = true /\
  Appends (encode true sample_ty sample_val) sample_bytes (Ok tt) /\ Yields (decode sample_ty) sample_bytes sample_val.
Proof. exact (conj sample_wt (conj sample_round_trips (conj eq_refl (conj sample_appends sample_yields)))). Qed.

(* C14: any values, one after another, with anything behind. *)
Theorem C14_chaining_partial : forall checks l o o' tail,
  Forall (fun p => wt (fst p) (snd p) /\ RoundTrips (fst p) (snd p) /\ lossless (snd p) = true) l ->
  output_position o <= output_capacity o -> encode_list checks l o = (o', Ok tt) ->
  exists vs, decode_list (map fst l) (Input (output_as_slice o' ++ tail) (output_position o)) =
    (Input (output_as_slice o' ++ tail) (output_position o'), Ok vs) /\ map erase vs = map (fun p => erase (snd p)) l.
Proof. exact C14_equal_lemma. Qed.
Print Assumptions C14_chaining_partial.

Theorem C14_chaining_exact_partial : forall checks l o o' tail,
  Forall (fun p => wt (fst p) (snd p) /\ RoundTrips (fst p) (snd p)) l ->
  output_position o <= output_capacity o -> encode_list checks l o = (o', Ok tt) ->
  decode_list (map fst l) (Input (output_as_slice o' ++ tail) (output_position o)) =
  (Input (output_as_slice o' ++ tail) (output_position o'), Ok (map (fun p => norm (snd p)) l)).
Proof. exact C14_lemma. Qed.
Print Assumptions C14_chaining_exact_partial.

Theorem C14_chaining_refuted : exists o',
  encode_list true [(THashSet (TInt U8), VSet [VInt 1; VInt 0; VInt 5]); (TInt U8, VInt 9)] (output_new (repeat x00 9)) = (o', Ok tt) /\
  decode_list [THashSet (TInt U8); TInt U8] (input_new (output_as_slice o')) = (Input (output_as_slice o') 4, Ok [VSet [VInt 5]; VInt 9]).
Proof. exact C14_refutation. Qed.
Print Assumptions C14_chaining_refuted.

Example C14_case :
  Forall (fun p => wt (fst p) (snd p) /\ RoundTrips (fst p) (snd p) /\ lossless (snd p) = true) [(sample_ty, sample_val); (TInt Usize, VInt 258); (sample_ty, sample_val)] /\
  snd (encode_list true [(sample_ty, sample_val); (TInt Usize, VInt 258); (sample_ty, sample_val)] (output_new (repeat x00 64))) = Ok tt.
Proof.
  split; [|vm_compute; reflexivity].
  assert (H := conj sample_wt (conj sample_round_trips (eq_refl : lossless sample_val = true))).
  constructor; [exact H|]. constructor; [|constructor; [exact H | constructor]]. cbn. unfold in_ity. cbn. repeat split; lia.
Qed.

(* C17: for types without HashMap and HashSet no encoding is a proper prefix of another, and equal encodings are of equal values. *)
Theorem C17_unambiguous_partial : forall checks t v1 v2 b1 s, wt t v1 -> wt t v2 -> contains is_hash t = false ->
  lossless v1 = true -> lossless v2 = true ->
  Appends (encode checks t v1) b1 (Ok tt) -> Appends (encode checks t v2) (b1 ++ s) (Ok tt) -> s = [] /\ erase v1 = erase v2.
Proof. exact C17_equal_lemma. Qed.
Print Assumptions C17_unambiguous_partial.

Theorem C17_prefix_free_partial : forall checks t v1 v2 b1 s, wt t v1 -> wt t v2 -> contains is_hash t = false ->
  Appends (encode checks t v1) b1 (Ok tt) -> Appends (encode checks t v2) (b1 ++ s) (Ok tt) -> s = [] /\ norm v1 = norm v2.
Proof. exact C17_hashless_lemma. Qed.
Print Assumptions C17_prefix_free_partial.

Theorem C17_unambiguous_refuted :
  (exists t v1 v2 b s, wt t v1 /\ wt t v2 /\ s <> [] /\
     Appends (encode true t v1) b (Ok tt) /\ Appends (encode true t v2) (b ++ s) (Ok tt)) /\
  (exists t v1 v2 b, wt t v1 /\ wt t v2 /\ erase v1 <> erase v2 /\
     Appends (encode true t v1) b (Ok tt) /\ Appends (encode true t v2) b (Ok tt)).
Proof. exact C17_refutation. Qed.
Print Assumptions C17_unambiguous_refuted.

Example C17_case : contains is_hash sample_ty = false /\ wt sample_ty sample_val /\ lossless sample_val = true /\
  Appends (encode true sample_ty sample_val) sample_bytes (Ok tt).
Proof. exact (conj eq_refl (conj sample_wt (conj eq_refl sample_appends))). Qed.

(* C32: inside any number of containers that add nothing ([Wrapped]), a value writes the same, and succeeds, errs or panics alike. *)
Theorem C32_encode_transparent : forall checks t v t' v', Wrapped t v t' v' -> forall o,
  fst (encode checks t' v' o) = fst (encode checks t v o) /\
  match snd (encode checks t v o) with
  | Ok _ => snd (encode checks t' v' o) = Ok tt
  | Err e => exists e', snd (encode checks t' v' o) = Err e'
  | Panic p => snd (encode checks t' v' o) = Panic p
  end.
Proof. exact wrapped_outcome. Qed.
Print Assumptions C32_encode_transparent.

Theorem C32_decode_transparent : forall t i i' r, decode t i = (i', r) ->
  (forall w, decode (TWrap w t) i = (i', rmap VWrap r)) /\
  decode (TRefCell t) i = (i', rmap (VRefCell false) r) /\
  (forall l, decode (TLock l t) i = (i', rmap (VLock false) r)) /\
  decode (TTuple [t]) i = (i', rmap (fun v => VTuple [v]) r).
Proof. exact C32_decode_lemma. Qed.
Print Assumptions C32_decode_transparent.

Theorem C32_decode_cow : forall t i i' r, decode (owned t) i = (i', r) -> decode (TCow t) i = (i', rmap (VCow true) r).
Proof. exact C32_cow_lemma. Qed.
Print Assumptions C32_decode_cow.

Example C32_case :
  Wrapped sample_ty sample_val (TWrap WArc (TLock Mutex (TRefCell (TTuple [sample_ty]))))
    (VWrap (VLock true (VRefCell false (VTuple [sample_val])))) /\
  Appends (encode true (TWrap WArc (TLock Mutex (TRefCell (TTuple [sample_ty])))) (VWrap (VLock true (VRefCell false (VTuple [sample_val])))))
    sample_bytes (Ok tt).
Proof. split; [repeat constructor | apply (appends_by_run true 40); vm_compute; reflexivity]. Qed.

(* C33: an encoding of the borrowed type decodes as the owned one, provided the capacity fits. *)
Theorem C33_decode_borrowed_partial : forall checks o b mk v bs, Borrows o b mk -> wt b v -> RoundTrips o (mk v) -> fills o (mk v) ->
  Appends (encode checks b v) bs (Ok tt) -> Yields (decode o) bs (norm (mk v)).
Proof. exact C33_lemma. Qed.
Print Assumptions C33_decode_borrowed_partial.

(* text that is too long is refused *)
Theorem C33_long_text : forall checks n s bs, wt TStr (VStr s) -> n < length s -> Appends (encode checks TStr (VStr s)) bs (Ok tt) ->
  Refuses (decode (TSizedStr n)) bs (DLen (DLength n (length s))).
Proof. exact C33_long_lemma. Qed.
Print Assumptions C33_long_text.

Theorem C33_decode_borrowed_refuted :
  (exists v bs, wt (TSlice (TInt U8)) v /\ Appends (encode true (TSlice (TInt U8)) v) bs (Ok tt) /\
     forall v', ~ Yields (decode (TSizedSlice (TInt U8) 2)) bs v') /\
  (exists v bs, wt TStr v /\ Appends (encode true TStr v) bs (Ok tt) /\ forall v', ~ Yields (decode (TSizedStr 1)) bs v').
Proof. exact C33_refutation. Qed.
Print Assumptions C33_decode_borrowed_refuted.

Example C33_case : Borrows (TVec sample_ty) (TSlice sample_ty) (fun v => v) /\ wt (TSlice sample_ty) (VSeq [sample_val; sample_val]) /\
  RoundTrips (TVec sample_ty) (VSeq [sample_val; sample_val]) /\
  Appends (encode true (TSlice sample_ty) (VSeq [sample_val; sample_val])) (x02 :: x00 :: sample_bytes ++ sample_bytes) (Ok tt).
Proof.
  split; [constructor|]. split; [exact (Forall_cons _ sample_wt (Forall_cons _ sample_wt (Forall_nil _)))|].
  split; [exact (Forall_cons _ sample_round_trips (Forall_cons _ sample_round_trips (Forall_nil _)))|]. apply (appends_by_run true 90); vm_compute; reflexivity.
Qed.
