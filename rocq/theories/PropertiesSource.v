(* C114: the source text itself. SourceEncode.v, SourceDecode.v, SourceSizes.v, SourceSizedSlice.v and SourceSizedStr.v hold the text of the crate's
   implementations as syntax trees; SourceMeaning.v and SourceRun.v say what such trees do. [n] and [m] bound how deep implementations call one
   another: the statements are about all bounds that suffice. *)
From Verif Require Import Base Streams Utf8 Types Traits Encode Decode Sized Spec SpecCalls SpecDecode SpecSource Samples SampleFacts SourceRun SourceDecodeAll SourceEncodeAll SourceSizeProofs SourceUse.

(* for every type of Rust and every value of it, what `encode` does by its text is what [encode] says *)
Theorem C114_encode : forall checks t, of_rust t ->
  exists d, forall n v o, d <= n -> wt t v -> run_encode checks n t v o = encode checks t v o.
Proof. exact C114_encode_lemma. Qed.
Print Assumptions C114_encode.

(* for every type of Rust that implements Decode, and every input, what `decode` does by its text is what [decode] says *)
Theorem C114_decode : forall checks size_of t, dec_ety t <> None -> of_rust t ->
  exists d, forall n m i, d <= n -> d <= m -> run_decode checks (run_size size_of m) n t i = decode t i.
Proof. exact C114_decode_lemma. Qed.
Print Assumptions C114_decode.

(* for every type of Rust that implements SizedEncode, what `MAX_ENCODED_SIZE` is by its text is what [max_size] says *)
Theorem C114_size : forall size_of, plain_sizes size_of -> forall t n, of_rust t -> sizes_fit size_of t -> max_size size_of t = Some n ->
  exists d, forall m, d <= m -> run_size size_of m t = Some n.
Proof. exact C114_size_lemma. Qed.
Print Assumptions C114_size.

(* so the text writes the octets that the independent relation [Wire] gives, and no others *)
Theorem C114_wire_format : forall checks t, of_rust t -> exists d, forall n v o bs, d <= n -> wt t v -> output_position o <= output_capacity o ->
  ((exists o', run_encode checks n t v o = (o', Ok tt) /\ output_as_slice o' = output_as_slice o ++ bs) <->
   (Wire checks t v bs /\ length bs <= output_remaining o)).
Proof. exact C114_wire_lemma. Qed.
Print Assumptions C114_wire_format.

(* and what the text writes the text reads back, where it can be read back at all (C13) *)
Theorem C114_round_trip : forall checks checks' size_of t, of_rust t -> dec_ety t <> None ->
  exists d, forall n m v o o' bs, d <= n -> d <= m -> wt t v -> RoundTrips t v -> output_position o <= output_capacity o ->
  run_encode checks n t v o = (o', Ok tt) -> output_as_slice o' = output_as_slice o ++ bs ->
  Yields (run_decode checks' (run_size size_of m) n t) bs (norm v).
Proof. exact C114_round_trip_lemma. Qed.
Print Assumptions C114_round_trip.

Definition source_sizes : size_of_fn := fun t => match t with TInt i => N.of_nat (iwidth i) | TF32 => 4%N | TF64 => 8%N | _ => 24%N end.
(* the text, run on the sample; and the sizes of some types, by the text *)
Example C114_case :
  of_rust sample_ty /\ dec_ety sample_ty <> None /\ wt sample_ty sample_val /\ RoundTrips sample_ty sample_val /\
  run_encode true 8 sample_ty sample_val (output_new (repeat x00 40)) = (Output (sample_bytes ++ repeat x00 11) 29, Ok tt) /\
  run_decode true (run_size source_sizes 8) 8 sample_ty (input_new sample_bytes) = (Input sample_bytes 29, Ok sample_val) /\
  plain_sizes source_sizes /\ sizes_fit source_sizes (TResult (TArray (TOption TChar) 3) (TInt U64)) /\
  run_size source_sizes 8 (TResult (TArray (TOption TChar) 3) (TInt U64)) = Some 25%N /\
  run_size source_sizes 8 (TTuple [TArray (TOption TChar) 3; TSockAddr; TSizedStr 5]) = Some 49%N /\
  run_encode true 8 (TVec (TInt Usize)) (VSeq [VInt 1; VInt 65536]) (output_new (repeat x00 6)) = (Output [x02; x00; x01; x00; x00; x00] 4, Err (EItem 1 (EUsize 65536))) /\
  run_decode true (run_size source_sizes 8) 8 (TVec (TNonZero U8)) (input_new [x02; x00; x01; x00]) = (Input [x02; x00; x01; x00] 4, Err (DItem 1 DNonZero)).
Proof.
  split; [reflexivity|]. split; [discriminate|]. split; [exact sample_wt|]. split; [exact sample_round_trips|].
  split; [vm_compute; reflexivity|]. split; [vm_compute; reflexivity|].
  split; [split; [intros i; reflexivity|split; reflexivity]|]. repeat (apply conj; [vm_compute; reflexivity|]). vm_compute. reflexivity.
Qed.
