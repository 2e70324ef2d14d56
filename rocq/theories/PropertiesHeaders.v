(* C116 The headers of the implementations say which types can be encoded and decoded, and how errors convert.
   C117 Types with parts of limited size are of limited size. *)
From Verif Require Import Base Utf8 Types Traits ErrorText Sized SizedTypes SourceNames SourceSyntax SourceText SourceHeaders SpecSource SpecDecode SpecHeaders HeaderProofs HeaderTypes SizeHeaders SizedTypesProofs.

(* ---- C116 *)

Theorem C116_encode : forall t, of_rust t -> Decided (fun n => error_of n id_Encode t) (option_map rust_ety (enc_ety t)).
Proof. exact encode_headers. Qed.
Print Assumptions C116_encode.

Theorem C116_decode : forall t, of_rust t -> Decided (fun n => error_of n id_Decode t) (option_map rust_dety (dec_ety t)).
Proof. exact decode_headers. Qed.
Print Assumptions C116_decode.

Theorem C116_sized : forall t, of_rust t -> Decided (fun n => sized_of n t) (sized t).
Proof. exact sized_headers. Qed.
Print Assumptions C116_sized.

(* the types of errors are not confused with one another *)
Theorem C116_errors_apart : (forall x y, rust_ety x = rust_ety y -> x = y) /\ (forall x y, rust_dety x = rust_dety y -> x = y).
Proof. exact (conj rust_ety_inj rust_dety_inj). Qed.
Print Assumptions C116_errors_apart.

(* `X: Into<Y>` *)
Theorem C116_convert_encode : forall x y, Decided (fun n => holds n (rust_ety x) id_Into [rust_ety y]) (into_ety x y).
Proof. exact into_enc_headers. Qed.
Print Assumptions C116_convert_encode.

Theorem C116_convert_decode : forall x,
  Decided (fun n => holds n (rust_dety x) id_Into [plain id_GenericDecodeError]) (into_generic_dety x) /\
  Decided (fun n => holds n (rust_dety x) id_Into [plain id_Infallible]) (into_infallible_dety x).
Proof. exact (fun x => conj (into_generic_dec_headers x) (into_infallible_dec_headers x)). Qed.
Print Assumptions C116_convert_decode.

(* `X: Display` and `X: Error` *)
Theorem C116_errors : forall x y,
  (Decided (fun n => holds n (rust_ety x) id_Display []) (ety_is_error x) /\ Decided (fun n => holds n (rust_ety x) id_Error []) (ety_is_error x)) /\
  (Decided (fun n => holds n (rust_dety y) id_Display []) (dety_is_error y) /\ Decided (fun n => holds n (rust_dety y) id_Error []) (dety_is_error y)).
Proof. exact (fun x y => conj (conj (display_enc_headers x) (error_enc_headers x)) (conj (display_dec_headers y) (error_dec_headers y))). Qed.
Print Assumptions C116_errors.

Example C116_case :
  let s := TStruct [TInt Usize; TVec TString] in
  of_rust (TResult s (TTuple [TInt U8; TBool])) /\
  error_of 9 id_Encode (TResult s (TTuple [TInt U8; TBool])) = Some (plain id_GenericEncodeError) /\
  error_of 9 id_Encode (TResult (TTuple [TInt U8; TBool]) s) = None /\
  error_of 9 id_Encode (TLinked (TInt Isize)) = Some (applied id_CollectionEncodeError [plain id_UsizeEncodeError; YTup [plain id_usize; plain id_IsizeEncodeError]]) /\
  error_of 9 id_Encode (TStruct [TLinked (TInt Isize)]) = None /\
  error_of 9 id_Decode (TStruct [TLinked (TInt Isize)]) = Some (plain id_GenericDecodeError) /\
  error_of 9 id_Decode (TStruct [TChar]) = None /\
  error_of 9 id_Decode (TCow (TSlice TChar)) =
    Some (applied id_CollectionDecodeError [plain id_Infallible; applied id_ItemDecodeError [plain id_usize; plain id_CharDecodeError]]) /\
  sized_of 9 (TArray (TEnum U8 [(None, [TOption TChar])]) 4) = true /\ sized_of 9 (TResult (TStruct [TBool]) TBool) = false.
Proof. repeat (apply conj; [vm_compute; reflexivity|]). vm_compute. reflexivity. Qed.

(* ---- C117 *)

(* a type that is SizedEncode is Encode, and has its constant *)
Theorem C117_constant : forall size_of t, sized t = true -> enc_ety t <> None /\ max_size size_of t <> None.
Proof. exact (fun size_of t S => conj (sized_encode t S) (sized_constant size_of t S)). Qed.
Print Assumptions C117_constant.

(* an encodable type built of such types is one but for Results with parts that have different errors *)
Theorem C117_sized_partial : forall size_of t, enc_ety t <> None -> max_size size_of t <> None -> (sized t = true <-> contains mixed_result t = false).
Proof. exact C117_exact. Qed.
Print Assumptions C117_sized_partial.

(* Result<S, u8> with S derived can be encoded, S and u8 are SizedEncode, but it is not; nor is PhantomPinned, of which no encoding has any octets *)
Theorem C117_sized_refuted :
  let s := TStruct [TInt U16] in
  (sized s = true /\ sized (TInt U8) = true /\ enc_ety (TResult s (TInt U8)) <> None /\ sized (TResult s (TInt U8)) = false) /\
  (enc_ety TPhantomPinned <> None /\ sized TPhantomPinned = false).
Proof. cbn. repeat split; discriminate. Qed.
Print Assumptions C117_sized_refuted.

Example C117_case :
  let t := TResult (TTuple [TInt U8; TOption TChar]) (TArray (TInt U32) 3) in
  let u := TStruct [TResult (TStruct [TBool]) (TStruct []); TSizedStr 8] in
  (enc_ety t <> None /\ max_size (fun _ => 0%N) t <> None /\ contains mixed_result t = true /\ sized t = false) /\
  (enc_ety u <> None /\ max_size (fun _ => 0%N) u <> None /\ contains mixed_result u = false /\ sized u = true).
Proof. vm_compute. repeat split; discriminate. Qed.
