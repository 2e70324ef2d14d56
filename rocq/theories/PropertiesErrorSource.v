(* C115: the source text of the error types. SourceErrors.v and SourceDiscriminant.v hold the text of oct/src/error and of the discriminants as syntax
   trees; SourceText.v says what such trees do. [IsValue r x] says which value of Rust [x] the error [r] of the model is. [n] bounds how deep
   implementations call one another: the statements are about all bounds that suffice. *)
From Coq Require Import String.
From Verif Require Import Base Streams Utf8 Types Traits Encode Decode Spec SpecDecode SpecCalls SpecErrors SourceNames ErrorText SourceText SpecErrorSource ErrorSourceProofs.

(* every message is, by its text, the one of the model *)
Theorem C115_display : forall r x, IsValue r x -> exists d, forall n, d <= n -> message n x = Some (display r).
Proof. exact C115_display_lemma. Qed.
Print Assumptions C115_display.

(* `Error::source` gives, by its text, the error that the model says, or none *)
Theorem C115_source : forall r x, IsValue r x ->
  match source r with
  | Some r' => exists y, source_of x = Some (XSome y) /\ IsValue r' y
  | None => source_of x = Some XNone
  end.
Proof. exact source_ok. Qed.
Print Assumptions C115_source.

(* the conversions to GenericEncodeError and GenericDecodeError that derived implementations make: by their text they give the error that the model
   says, and where the model says that there is no conversion the text has none *)
Theorem C115_generic_encode : forall e r x, of_eerr e = Some r -> IsValue r x -> exists d, forall n, d <= n ->
  match of_eerr (into_generic_enc e) with
  | Some r' => exists y, convert n id_GenericEncodeError x = Some y /\ IsValue r' y
  | None => convert n id_GenericEncodeError x = None
  end.
Proof. exact generic_enc_ok. Qed.
Print Assumptions C115_generic_encode.

(* the conversion that a program needs for a RefCell of its own *)
Theorem C115_generic_borrow : forall x, IsValue RBorrow x -> exists d, forall n, d <= n ->
  exists y, convert n id_GenericEncodeError x = Some y /\ IsValue (RGeneric RBorrow) y.
Proof. exact generic_borrow_ok. Qed.
Print Assumptions C115_generic_borrow.

Theorem C115_generic_decode : forall e r x, of_derr e = Some r -> IsValue r x -> exists d, forall n, d <= n ->
  match of_derr (into_generic_dec e) with
  | Some r' => exists y, convert n id_GenericDecodeError x = Some y /\ IsValue r' y
  | None => convert n id_GenericDecodeError x = None
  end.
Proof. exact generic_dec_ok. Qed.
Print Assumptions C115_generic_decode.

(* an error of encoding or decoding is such a value *)
Theorem C115_encode_errors : forall checks t v o o' e r, encode checks t v o = (o', Err e) -> of_eerr e = Some r -> exists x, IsValue r x.
Proof. exact C115_encode_lemma. Qed.
Print Assumptions C115_encode_errors.

Theorem C115_decode_errors : forall t z i i' e r, EnumsOk t -> dec_ety t = Some z -> in_bounds i ->
  decode t i = (i', Err e) -> of_derr e = Some r -> exists x, IsValue r x.
Proof. exact C115_decode_lemma. Qed.
Print Assumptions C115_decode_errors.

(* a vector of numbers of which the fourth is too large; a discriminant of -1 converts to a number of 128 bits *)
Definition too_large : xval :=
  wraps id_CollectionEncodeError id_BadItem (record id_ItemEncodeError [(id_index, usize 3); (id_error, XData id_UsizeEncodeError id_UsizeEncodeError [XInt Usize 65536] [])]).
Definition minus_one : xval := XData id_EnumDecodeError id_UnassignedDiscriminant [] [(id_value, XInt I8 (-1))].
Example C115_case :
  IsValue (RBadItem true (RItem true 3 (RUsize 65536))) too_large /\
  message 3 too_large = Some (txt "unable to encode collection item: could not encode item at `3`: unsigned size value (65536) cannot be serialised: must be at most (65535)") /\
  (exists y, source_of too_large = Some (XSome y)) /\
  convert 3 id_GenericEncodeError too_large = Some (wraps id_GenericEncodeError id_LargeUsize (XData id_UsizeEncodeError id_UsizeEncodeError [XInt Usize 65536] [])) /\
  IsValue (RUnassigned (-1)) minus_one /\
  message 1 minus_one = Some (txt "`-1` is not an assigned discriminant for the given enumeration") /\
  convert 2 id_GenericDecodeError minus_one = Some (XData id_GenericDecodeError id_UnassignedDiscriminant [] [(id_value, XInt U128 340282366920938463463374607431768211455)]) /\
  message 1 (XData id_GenericDecodeError id_UnassignedDiscriminant [] [(id_value, XInt U128 255)]) = Some (txt "discriminant value `0xFF has not been assigned") /\
  message 1 (record id_CharDecodeError [(id_code_point, XInt U32 55296)]) = Some (txt "code point U+D800 is not defined") /\
  message 1 (record id_Utf8Error [(id_value, XInt U8 195); (id_index, usize 2)]) = Some (txt "found invalid utf-8 octet 0xC3 at offset (2)").
Proof.
  apply conj; [repeat constructor|]. apply conj; [vm_compute; reflexivity|]. apply conj; [eexists; vm_compute; reflexivity|].
  apply conj; [vm_compute; reflexivity|]. apply conj; [constructor|]. repeat (apply conj; [vm_compute; reflexivity|]). vm_compute. reflexivity.
Qed.
