(* C85-C89: errors. *)
From Coq Require Import Lia String.
From Verif Require Import Base Streams Utf8 Types Traits Encode Decode Spec SpecCalls SpecDecode SpecDerive SpecErrors SizedSlice SizedStr ErrorText SpecText
  ErrorProofs FailureProofs RejectProofs TextProofs ErrorLinked ErrorExamples ComputeFacts Samples SampleFacts.

(* C85. Proved for types without LinkedList; missing: types with it, for which it is false (and which they are: C85_encode_exact). *)
Theorem C85_encode_partial : forall checks t y v o o' e, contains is_linked t = false -> enc_ety t = Some y ->
  encode checks t v o = (o', Err e) -> ety_is_error y = true /\ exists r, of_eerr e = Some r.
Proof. exact C85_encode_lemma. Qed.
Print Assumptions C85_encode_partial.

Theorem C85_encode_refuted : exists t y v o o' e, enc_ety t = Some y /\ wt t v /\ encode true t v o = (o', Err e) /\
  ety_is_error y = false /\ of_eerr e = None.
Proof. exact C85_refuted_lemma. Qed.
Print Assumptions C85_encode_refuted.

(* Exactly: the error of encoding is an Error unless there is a LinkedList anywhere in the type. *)
Theorem C85_encode_exact : forall t y, enc_ety t = Some y -> (ety_is_error y = true <-> contains is_linked t = false).
Proof. exact C85_exact_lemma. Qed.
Print Assumptions C85_encode_exact.

Theorem C85_decode : forall t z i i' e, dec_ety t = Some z -> decode t i = (i', Err e) ->
  dety_is_error z = true /\ exists r, of_derr e = Some r.
Proof. exact C85_decode_lemma. Qed.
Print Assumptions C85_decode.

Example C85_exact_case : enc_ety sample_ty = Some YGeneric /\ enc_ety (TOption (TVec (TLinked (TInt U8)))) = Some (YColl YUsize (YItem (YColl YUsize (YTuple YInfallible)))) /\
  contains is_linked sample_ty = false /\ contains is_linked (TOption (TVec (TLinked (TInt U8)))) = true.
Proof. repeat split. Qed.
Example C85_case : contains is_linked sample_ty = false /\ enc_ety sample_ty = Some YGeneric /\
  encode true sample_ty sample_bad (output_new (repeat x00 40)) =
    (Output (firstn 11 sample_bytes ++ [x47] ++ repeat x00 28) 12, Err (EGUsize 65536)) /\
  (exists i', decode (TVec TChar) (Input [x02; x00; x41; x00; x00; x00; x00; xd8; x00; x00] 0) = (i', Err (DItem 1 (DChar 55296)))).
Proof. repeat split; try (vm_compute; reflexivity). eexists. vm_compute. reflexivity. Qed.

(* C86: following `source` ends at what is the matter with the value or with the octets. *)
Theorem C86_encode : forall checks t y v o o' e r, enc_ety t = Some y -> wt t v -> output_position o <= output_capacity o ->
  encode checks t v o = (o', Err e) -> of_eerr e = Some r -> exists c, LastSource r c /\ EncodeCause c.
Proof. exact C86_encode_lemma. Qed.
Print Assumptions C86_encode.

Theorem C86_decode : forall t z i i' e r, EnumsOk t -> dec_ety t = Some z -> in_bounds i ->
  decode t i = (i', Err e) -> of_derr e = Some r -> exists c, LastSource r c /\ DecodeCause c.
Proof. exact C86_decode_lemma. Qed.
Print Assumptions C86_decode.

(* and converting to the generic error does not lose it *)
Theorem C86_generic_encode : forall e r g c, of_eerr e = Some r -> of_eerr (into_generic_enc e) = Some g ->
  LastSource r c -> LastSource g c.
Proof. exact C86_generic_encode_lemma. Qed.
Print Assumptions C86_generic_encode.

Theorem C86_generic_decode : forall e r g c, of_derr e = Some r -> of_derr (into_generic_dec e) = Some g -> LastSource r c ->
  match c with
  | RUnassigned d => (0 <= d < 2 ^ 128)%Z -> LastSource g (RGenUnassigned d)
  | _ => LastSource g c
  end.
Proof. exact C86_generic_decode_lemma. Qed.
Print Assumptions C86_generic_decode.

(* the same for the errors of SizedStr's constructors *)
Theorem C86_string : forall e, LastSource (of_string_error e) match e with BadUtf8 b i => RUtf8 b i | SmallBuffer (LengthError c l) => RLength c l end.
Proof. exact C86_string_lemma. Qed.
Print Assumptions C86_string.

Example C86_case : of_eerr (EItem 3 (EField (EGUsize 65536))) = Some (RBadItem true (RItem true 3 (RBadField true (RGeneric (RUsize 65536))))) /\
  LastSource (RBadItem true (RItem true 3 (RBadField true (RGeneric (RUsize 65536))))) (RUsize 65536) /\ EncodeCause (RUsize 65536) /\
  into_generic_dec (DItem 1 (DField (DUnassigned U8 7))) = DGUnassigned 7 /\ into_generic_dec (DItem 1 (DBad (DUtf8 xff 2))) = DGUtf8 xff 2.
Proof.
  split; [reflexivity|]. split; [repeat (eapply LS_next; [reflexivity|]); apply LS_here; reflexivity|].
  split; [constructor; lia | split; reflexivity].
Qed.

(* C87: a message ends with that of the source, *)
Theorem C87_source : forall e e', source e = Some e' -> exists p, display e = p ++ display e'.
Proof. exact C87_source_lemma. Qed.
Print Assumptions C87_source.

(* and tells apart any two failures of the same kind of call. *)
Theorem C87_encode : forall checks t y v v' o o' p p' e e' r r', enc_ety t = Some y -> wt t v -> wt t v' ->
  output_position o <= output_capacity o -> output_position p <= output_capacity p ->
  encode checks t v o = (o', Err e) -> encode checks t v' p = (p', Err e') -> of_eerr e = Some r -> of_eerr e' = Some r' ->
  display r = display r' -> e = e'.
Proof. exact C87_encode_lemma. Qed.
Print Assumptions C87_encode.

Theorem C87_decode : forall t z i j i' j' e e' r r', EnumsOk t -> dec_ety t = Some z -> in_bounds i -> in_bounds j ->
  decode t i = (i', Err e) -> decode t j = (j', Err e') -> of_derr e = Some r -> of_derr e' = Some r' ->
  display r = display r' -> e = e'.
Proof. exact C87_decode_lemma. Qed.
Print Assumptions C87_decode.

Theorem C87_string : forall e e', display (of_string_error e) = display (of_string_error e') -> e = e'.
Proof. exact C87_string_lemma. Qed.
Print Assumptions C87_string.

Theorem C87_stream : forall e e', display (RInput e) = display (RInput e') \/ display (ROutput e) = display (ROutput e') -> e = e'.
Proof. exact C87_stream_lemma. Qed.
Print Assumptions C87_stream.

Example C87_case :
  display (RBadItem true (RItem true 3 (RUsize 65536))) =
    txt "unable to encode collection item: could not encode item at `3`: unsigned size value (65536) cannot be serialised: must be at most (65535)" /\
  display (RChar 55296) = txt "code point U+D800 is not defined" /\ display (RChar 1114112) = txt "code point U+110000 is not defined" /\
  display (RIsize (-32769)) = txt "signed size value (-32769) cannot be serialised: must be in the range (-32768) to (32767)" /\
  display (RUtf8 x0a 4) = txt "found invalid utf-8 octet 0xA at offset (4)".
Proof. repeat split; vm_compute; reflexivity. Qed.

(* C88: exactly which values fail to encode, with what error, and after writing what. *)
Theorem C88_failures : forall checks t y v bs e, enc_ety t = Some y -> wt t v ->
  (Appends (encode checks t v) bs (Err e) <-> Fails checks t v bs e).
Proof. exact C88_lemma. Qed.
Print Assumptions C88_failures.

Theorem C88_run : forall checks t y v o bs e, enc_ety t = Some y -> wt t v -> output_position o <= output_capacity o ->
  ((exists o', encode checks t v o = (o', Err e) /\ output_as_slice o' = output_as_slice o ++ bs) <->
   (Fails checks t v bs e /\ length bs <= output_remaining o)).
Proof. exact C88_run_lemma. Qed.
Print Assumptions C88_run.

Example C88_case : Fails true sample_ty sample_bad (firstn 11 sample_bytes ++ [x47]) (EGUsize 65536) /\
  Fails true (TTuple [TRefCell (TVec (TInt Usize)); TRefCell (TVec (TInt Usize))])
    (VTuple [VRefCell false (VSeq [VInt 5]); VRefCell false (VSeq [VInt 6; VInt 70000])]) [x01; x00; x05; x00; x02; x00; x06; x00]
    (EBadValue (EItem 1 (EUsize 70000))).
Proof. exact C88_case_lemma. Qed.

(* C89: exactly which octets are refused, with what error, and how far they are read. *)
Theorem C89_refusals : forall t z bs e, EnumsOk t -> dec_ety t = Some z -> (Refuses (decode t) bs e <-> Rejects t bs e).
Proof. exact C89_lemma. Qed.
Print Assumptions C89_refusals.

Theorem C89_run : forall t z i i' e, EnumsOk t -> dec_ety t = Some z -> in_bounds i -> decode t i = (i', Err e) ->
  exists bs post, unread i = bs ++ post /\ i' = Input (i_buf i) (i_pos i + length bs) /\ Rejects t bs e.
Proof. exact C89_run_lemma. Qed.
Print Assumptions C89_run.

(* and so which inputs make decoding panic: those that begin neither with an encoding nor with a refused one *)
Theorem C89_panics : forall t z i, EnumsOk t -> dec_ety t = Some z -> in_bounds i ->
  ((exists i' p, decode t i = (i', Panic p)) <->
   (forall bs post, unread i = bs ++ post -> (forall v, ~ Accepts t bs v) /\ (forall e, ~ Rejects t bs e))).
Proof. exact C89_panics_lemma. Qed.
Print Assumptions C89_panics.

Example C89_case : Rejects sample_ty (firstn 11 sample_bytes ++ [x00]) (DGUnassigned 0) /\
  Rejects (TVec (TResult TString TString)) [x02; x00; x00; x01; x00; x41; x01; x02; x00; xc3; x41] (DItem 1 (DField (DBad (DUtf8 xc3 0)))) /\
  EnumsOk sample_ty /\ (exists i' p, decode sample_ty (Input (firstn 4 sample_bytes) 0) = (i', Panic p)).
Proof. exact C89_case_lemma. Qed.
