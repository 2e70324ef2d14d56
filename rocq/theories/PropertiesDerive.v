(* C37-C39, C41, C42, C65, C67, C68: derived implementations and errors. *)
From Coq Require Import Lia.
From Verif Require Import Base Streams Utf8 Types Traits Encode Decode Spec SpecCalls SpecDecode SpecDerive
  DeriveProofs DeriveMore ErrorProofs ErrorExact Refutations ComputeFacts Samples SampleFacts.

(* C37: a struct is its fields, in order, with nothing in between. *)
Theorem C37_struct_encode : forall checks ts vs bs,
  Appends (encode checks (TStruct ts) (VTuple vs)) bs (Ok tt) <-> exists bss, FieldBytes checks ts vs bss /\ bs = concat bss.
Proof. exact C37_encode_lemma. Qed.
Print Assumptions C37_struct_encode.

Theorem C37_struct_encode_error : forall checks ts vs bs e, Appends (encode checks (TStruct ts) (VTuple vs)) bs (Err e) ->
  exists k e', FieldFailure checks ts vs k e' bs /\ e = into_generic_enc e'.
Proof. exact C37_error_lemma. Qed.
Print Assumptions C37_struct_encode_error.

Theorem C37_struct_decode : forall ts i,
  decode (TStruct ts) i = match decode_list ts i with
                          | (i', Ok vs) => (i', Ok (VTuple vs))
                          | (i', Err e) => (i', Err (into_generic_dec e))
                          | (i', Panic p) => (i', Panic p)
                          end.
Proof. exact C37_decode_lemma. Qed.
Print Assumptions C37_struct_decode.

Example C37_case : Appends (encode true sample_ty sample_val) sample_bytes (Ok tt) /\
  Appends (encode true sample_ty sample_bad) (firstn 12 (firstn 11 sample_bytes ++ [x47])) (Err (EGUsize 65536)).
Proof. split; [exact sample_appends | apply (appends_by_run true 40); vm_compute; reflexivity]. Qed.

(* C38: the macro's numbers are those of the rules of the language ([Assigned], Spec.v); it gives up only beyond u128. *)
Theorem C38_discriminants : forall vs, Forall (fun d => match d with Some z => (0 <= z < 2 ^ 128)%Z | None => True end) vs ->
  match discriminants vs with
  | Some ds => length ds = length vs /\ forall i d, nth_error ds i = Some d <-> Assigned vs i d
  | None => exists i d, Assigned vs i d /\ (2 ^ 128 <= d)%Z
  end.
Proof. exact C38_lemma. Qed.
Print Assumptions C38_discriminants.

(* and they are what is written *)
Theorem C38_written : forall checks r vs k fs bs, enum_ok r vs -> Appends (encode checks (TEnum r vs) (VEnum k fs)) bs (Ok tt) ->
  exists d db rest, Assigned (map fst vs) k d /\ WireInt r d db /\ bs = db ++ rest.
Proof. exact C38_written_lemma. Qed.
Print Assumptions C38_written.

Example C38_case : discriminants [None; Some 69%Z; None; Some 3%Z; None] = Some [0; 69; 70; 3; 4]%Z /\
  discriminants [Some (2 ^ 128 - 1)%Z; None] = None.
Proof. vm_compute. split; reflexivity. Qed.

(* C39 *)
Theorem C39_enum_encode : forall checks r vs k fs bs, enum_ok r vs ->
  (Appends (encode checks (TEnum r vs) (VEnum k fs)) bs (Ok tt) <->
   exists e ts d db bss, nth_error vs k = Some (e, ts) /\ Assigned (map fst vs) k d /\ WireInt r d db /\
                         FieldBytes checks ts fs bss /\ bs = db ++ concat bss).
Proof. exact C39_encode_lemma. Qed.
Print Assumptions C39_enum_encode.

Theorem C39_enum_encode_error : forall checks r vs k fs bs x, enum_ok r vs -> wt (TEnum r vs) (VEnum k fs) ->
  Appends (encode checks (TEnum r vs) (VEnum k fs)) bs (Err x) ->
  exists e ts d, nth_error vs k = Some (e, ts) /\ Assigned (map fst vs) k d /\
   ((~ int_fits r d /\ bs = [] /\ ((r = Usize /\ x = EDisc (EUsize d)) \/ (r = Isize /\ x = EDisc (EIsize d)))) \/
    (exists db j e' fbs, WireInt r d db /\ FieldFailure checks ts fs j e' fbs /\ bs = db ++ fbs /\ x = EField (into_generic_enc e'))).
Proof. exact C39_error_lemma. Qed.
Print Assumptions C39_enum_encode_error.

(* any octets of the width of the representation are some number [d]; it is assigned and then the fields of its variant are read, or it is
   not and then the octets are refused *)
Theorem C39_enum_decode : forall r vs db, enum_ok r vs -> length db = wire_width r ->
  exists d, in_ity r d /\ WireInt r d db /\
  ((exists k e ts, nth_error vs k = Some (e, ts) /\ Assigned (map fst vs) k d /\
      forall pre post, decode (TEnum r vs) (Input (pre ++ db ++ post) (length pre)) =
        match decode_list ts (Input (pre ++ db ++ post) (length pre + length db)) with
        | (i', Ok fs) => (i', Ok (VEnum k fs))
        | (i', Err e) => (i', Err (DField (into_generic_dec e)))
        | (i', Panic p) => (i', Panic p)
        end) \/
   ((forall k, ~ Assigned (map fst vs) k d) /\ Refuses (decode (TEnum r vs)) db (DUnassigned r d))).
Proof. exact C39_decode_lemma. Qed.
Print Assumptions C39_enum_decode.

Example C39_case : EnumsOk sample_enum /\
  Appends (encode true sample_enum (VEnum 2 [VInt 258])) [x47; x02; x01] (Ok tt) /\
  Yields (decode sample_enum) [x47; x02; x01] (VEnum 2 [VInt 258]) /\
  Refuses (decode sample_enum) [x48] (DUnassigned U8 72) /\
  Appends (encode true (TEnum Isize [(Some 40000%Z, [])]) (VEnum 0 [])) [] (Err (EDisc (EIsize 40000))).
Proof.
  split; [exact sample_enum_ok|]. split; [apply (appends_by_run true 40); vm_compute; reflexivity|].
  split; [apply yields_by_run; vm_compute; reflexivity|]. split; [apply refuses_by_run; vm_compute; reflexivity|].
  apply (appends_by_run true 40); vm_compute; reflexivity.
Qed.

(* C41: an error [e] with the cause [c] deep inside becomes the generic error [g] for that cause. *)
Theorem C41_encode_root_cause : forall c e g, EWithin c e -> ERoot c g -> into_generic_enc e = g.
Proof. exact C41_encode_lemma. Qed.
Print Assumptions C41_encode_root_cause.

Theorem C41_decode_root_cause : forall c e g, DWithin c e -> DRoot c g -> into_generic_dec e = g.
Proof. exact C41_decode_lemma. Qed.
Print Assumptions C41_decode_root_cause.

(* every error value of a type that converts has a cause *)
Theorem C41_encode_has_cause : forall y e, EOf y e -> into_generic_ety y = true -> exists c g, EWithin c e /\ ERoot c g.
Proof. exact eroot_exists. Qed.
Print Assumptions C41_encode_has_cause.

Theorem C41_decode_has_cause : forall z e, DOf z e -> into_generic_dety z = true ->
  exists c, DWithin c e /\ ((exists g, DRoot c g) \/ exists r d, c = DUnassigned r d).
Proof. exact droot_exists. Qed.
Print Assumptions C41_decode_has_cause.

Example C41_case :
  EWithin (EUsize 70000) (EItem 3 (EField (EItem 0 (ELen (EUsize 70000))))) /\ ERoot (EUsize 70000) (EGUsize 70000) /\
  DWithin (DUtf8 xff 2) (DItem 1 (DField (DBad (DUtf8 xff 2)))) /\ DRoot (DUtf8 xff 2) (DGUtf8 xff 2) /\
  decode (TStruct [TVec TString]) (input_new [x01; x00; x03; x00; x61; x62; xff]) =
    (Input [x01; x00; x03; x00; x61; x62; xff] 7, Err (DGUtf8 xff 2)).
Proof. repeat split; repeat constructor. Qed.

(* C42: for numbers that are not negative *)
Theorem C42_zero_extends_partial : forall r d, in_ity r d -> (0 <= d)%Z ->
  into_generic_dec (DUnassigned r d) = DGUnassigned (zero_extended r d).
Proof. exact C42_lemma. Qed.
Print Assumptions C42_zero_extends_partial.

(* negative ones are sign-extended *)
Theorem C42_zero_extends_refuted : exists t i i' d r, in_ity r d /\
  decode (TStruct [t]) i = (i', Err (into_generic_dec (DUnassigned r d))) /\
  into_generic_dec (DUnassigned r d) <> DGUnassigned (zero_extended r d).
Proof. exact C42_refutation. Qed.
Print Assumptions C42_zero_extends_refuted.

Example C42_case : in_ity I8 100 /\ into_generic_dec (DUnassigned I8 100) = DGUnassigned 100 /\
  into_generic_dec (DUnassigned I8 (-1)) = DGUnassigned (2 ^ 128 - 1).
Proof. split; [unfold in_ity; cbn; lia|]. vm_compute. split; reflexivity. Qed.

(* C65: [enc_ety] and [dec_ety] are the associated error types, `None` where the trait is not implemented. *)
Theorem C65_derive_encode_partial :
  (forall ts, Forall (fun t => enc_ety t <> None /\ contains enc_opaque t = false) ts -> enc_ety (TStruct ts) <> None) /\
  (forall r vs, Forall (fun x => Forall (fun t => enc_ety t <> None /\ contains enc_opaque t = false) (snd x)) vs -> enc_ety (TEnum r vs) <> None).
Proof. exact C65_encode_lemma. Qed.
Print Assumptions C65_derive_encode_partial.

Theorem C65_derive_decode_partial :
  (forall ts, Forall (fun t => dec_ety t <> None /\ contains dec_opaque t = false) ts -> dec_ety (TStruct ts) <> None) /\
  (forall r vs, Forall (fun x => Forall (fun t => dec_ety t <> None /\ contains dec_opaque t = false) (snd x)) vs -> dec_ety (TEnum r vs) <> None).
Proof. exact C65_decode_lemma. Qed.
Print Assumptions C65_derive_decode_partial.

(* RefCell and LinkedList fields cannot be encoded, char and Result fields cannot be decoded *)
Theorem C65_derive_refuted :
  (exists t, enc_ety t <> None /\ enc_ety (TStruct [t]) = None) /\
  (exists t, dec_ety t <> None /\ dec_ety (TStruct [t]) = None) /\
  enc_ety (TRefCell (TInt U8)) <> None /\ enc_ety (TStruct [TRefCell (TInt U8)]) = None /\
  enc_ety (TLinked (TInt U8)) <> None /\ enc_ety (TStruct [TLinked (TInt U8)]) = None /\
  dec_ety TChar <> None /\ dec_ety (TStruct [TChar]) = None /\
  dec_ety (TResult TUnit TUnit) <> None /\ dec_ety (TStruct [TResult TUnit TUnit]) = None.
Proof. exact C65_refutation. Qed.
Print Assumptions C65_derive_refuted.

(* These are exactly the types that are refused: a struct or enum of types that can be encoded can be derived if and only if none of them
   contains one of the two, and so for decoding. *)
Theorem C65_encode_exact :
  (forall ts, Forall (fun t => enc_ety t <> None) ts ->
     (enc_ety (TStruct ts) <> None <-> Forall (fun t => contains enc_opaque t = false) ts)) /\
  (forall r vs, Forall (fun x => Forall (fun t => enc_ety t <> None) (snd x)) vs ->
     (enc_ety (TEnum r vs) <> None <-> Forall (fun x => Forall (fun t => contains enc_opaque t = false) (snd x)) vs)).
Proof. exact C65_encode_exact_lemma. Qed.
Print Assumptions C65_encode_exact.

Theorem C65_decode_exact :
  (forall ts, Forall (fun t => dec_ety t <> None) ts ->
     (dec_ety (TStruct ts) <> None <-> Forall (fun t => contains dec_opaque t = false) ts)) /\
  (forall r vs, Forall (fun x => Forall (fun t => dec_ety t <> None) (snd x)) vs ->
     (dec_ety (TEnum r vs) <> None <-> Forall (fun x => Forall (fun t => contains dec_opaque t = false) (snd x)) vs)).
Proof. exact C65_decode_exact_lemma. Qed.
Print Assumptions C65_decode_exact.

Example C65_case : Forall (fun t => dec_ety t <> None /\ contains dec_opaque t = false) [sample_ty; TInt Usize].
Proof. repeat constructor; discriminate. Qed.

(* C67: an error type that converts into Infallible (by a conversion that would panic) has no values that encoding returns. *)
Theorem C67_infallible_encode_partial : forall checks t y v o o' e, enc_ety t = Some y -> into_infallible_ety y = true ->
  encode checks t v o <> (o', Err e).
Proof. exact C67_lemma. Qed.
Print Assumptions C67_infallible_encode_partial.

(* decoding does return such errors *)
Theorem C67_infallible_decode_refuted : exists t z i i' e, dec_ety t = Some z /\ into_infallible_dety z = true /\ decode t i = (i', Err e).
Proof. exact C67_refutation. Qed.
Print Assumptions C67_infallible_decode_refuted.

Example C67_case : exists y, enc_ety (TArray (TOption (TInt U32)) 4) = Some y /\ into_infallible_ety y = true.
Proof. eexists. split; reflexivity. Qed.

(* C68: every error is a value of the declared error type; for Infallible, which has none, there is no error. *)
Theorem C68_encode_error_type : forall checks t v y o o' e, enc_ety t = Some y -> encode checks t v o = (o', Err e) -> EOf y e.
Proof. exact C68_encode_lemma. Qed.
Print Assumptions C68_encode_error_type.

Theorem C68_decode_error_type : forall t z i i' e, dec_ety t = Some z -> decode t i = (i', Err e) -> DOf z e.
Proof. exact C68_decode_lemma. Qed.
Print Assumptions C68_decode_error_type.

Example C68_case : exists y, enc_ety (TVec (TInt Usize)) = Some y /\
  snd (encode true (TVec (TInt Usize)) (VSeq [VInt 1; VInt 65536]) (output_new (repeat x00 9))) = Err (EItem 1 (EUsize 65536)).
Proof. eexists. split; [reflexivity | vm_compute; reflexivity]. Qed.
