(* Which value of the source an error of the model is: the fields and variants of the types in oct/src/error. *)
From Verif Require Import Base Streams Utf8 Types SourceNames SourceText ErrorText.
Local Open Scope Z_scope.

(* a struct, and a variant with one part *)
Definition record (t : name) (fields : list (name * xval)) : xval := XData t t [] fields.
Definition wraps (t v : name) (x : xval) : xval := XData t v [x] [].
Definition usize (n : nat) : xval := XInt Usize (Z.of_nat n).

Inductive IsValue : rerr -> xval -> Prop :=
| VUsizeError z : IsValue (RUsize z) (XData id_UsizeEncodeError id_UsizeEncodeError [XInt Usize z] [])                 (* usize_encode_error.rs:30 *)
| VIsizeError z : IsValue (RIsize z) (XData id_IsizeEncodeError id_IsizeEncodeError [XInt Isize z] [])                 (* isize_encode_error.rs:30 *)
| VBorrowError : IsValue RBorrow (XData id_BorrowError id_BorrowError [] [])                                           (* core::cell *)
| VCharError cp : 0 <= cp < 2 ^ 32 -> IsValue (RChar cp) (record id_CharDecodeError [(id_code_point, XInt U32 cp)])    (* char_decode_error.rs:34 *)
| VNonZeroError : IsValue RNonZero (XData id_NonZeroDecodeError id_NonZeroDecodeError [] [])                           (* non_zero_decode_error.rs:29 *)
| VCStringError i : IsValue (RCString i) (record id_CStringDecodeError [(id_index, usize i)])                          (* c_string_decode_error.rs:34 *)
| VUtf8Error b i : IsValue (RUtf8 b i) (record id_Utf8Error [(id_value, XInt U8 (b2z b)); (id_index, usize i)])         (* utf8_error.rs:28 *)
| VUtf16Error h i : (h < 2 ^ 16)%N -> IsValue (RUtf16 h i) (record id_Utf16Error [(id_value, XInt U16 (Z.of_N h)); (id_index, usize i)])   (* utf16_error.rs:28 *)
| VLengthError c l : IsValue (RLength c l) (record id_LengthError [(id_capacity, usize c); (id_len, usize l)])         (* length_error.rs:35 *)
| VTimeError t : IsValue (RTime t) (record id_SystemTimeDecodeError [(id_timestamp, XInt I64 t)])                      (* system_time_decode_error.rs:32 *)
| VEncodeLength e x : IsValue e x -> IsValue (RBadLength true e) (wraps id_CollectionEncodeError id_BadLength x)       (* collection_encode_error.rs:32 *)
| VEncodeItem e x : IsValue e x -> IsValue (RBadItem true e) (wraps id_CollectionEncodeError id_BadItem x)
| VDecodeLength e x : IsValue e x -> IsValue (RBadLength false e) (wraps id_CollectionDecodeError id_BadLength x)      (* collection_decode_error.rs:36 *)
| VDecodeItem e x : IsValue e x -> IsValue (RBadItem false e) (wraps id_CollectionDecodeError id_BadItem x)
| VEncodeItemAt i e x : IsValue e x -> IsValue (RItem true i e) (record id_ItemEncodeError [(id_index, usize i); (id_error, x)])    (* item_encode_error.rs:31 *)
| VDecodeItemAt i e x : IsValue e x -> IsValue (RItem false i e) (record id_ItemDecodeError [(id_index, usize i); (id_error, x)])   (* item_decode_error.rs:31 *)
| VEncodeDisc e x : IsValue e x -> IsValue (RBadDisc true e) (wraps id_EnumEncodeError id_BadDiscriminant x)           (* enum_encode_error.rs:31 *)
| VEncodeField e x : IsValue e x -> IsValue (RBadField true e) (wraps id_EnumEncodeError id_BadField x)
| VDecodeDisc e x : IsValue e x -> IsValue (RBadDisc false e) (wraps id_EnumDecodeError id_InvalidDiscriminant x)      (* enum_decode_error.rs:31 *)
| VUnassigned i d : IsValue (RUnassigned d) (XData id_EnumDecodeError id_UnassignedDiscriminant [] [(id_value, XInt i d)])
| VDecodeField e x : IsValue e x -> IsValue (RBadField false e) (wraps id_EnumDecodeError id_BadField x)
| VRefBorrow x : IsValue RBorrow x -> IsValue (RRefBorrow RBorrow) (wraps id_RefCellEncodeError id_BadBorrow x)        (* ref_cell_encode_error.rs:33 *)
| VRefValue e x : IsValue e x -> IsValue (RRefValue e) (wraps id_RefCellEncodeError id_BadValue x)
| VGenericBorrow x : IsValue RBorrow x -> IsValue (RGeneric RBorrow) (wraps id_GenericEncodeError id_BadBorrow x)      (* generic_encode_error.rs:44 *)
| VGenericIsize z x : IsValue (RIsize z) x -> IsValue (RGeneric (RIsize z)) (wraps id_GenericEncodeError id_LargeIsize x)
| VGenericUsize z x : IsValue (RUsize z) x -> IsValue (RGeneric (RUsize z)) (wraps id_GenericEncodeError id_LargeUsize x)
| VGenericUtf8 b i x : IsValue (RUtf8 b i) x -> IsValue (RGeneric (RUtf8 b i)) (wraps id_GenericDecodeError id_BadString x)    (* generic_decode_error.rs:49 *)
| VGenericNull i x : IsValue (RCString i) x -> IsValue (RGeneric (RCString i)) (wraps id_GenericDecodeError id_NullString x)
| VGenericNonZero x : IsValue RNonZero x -> IsValue (RGeneric RNonZero) (wraps id_GenericDecodeError id_NullInteger x)
| VGenericLength c l x : IsValue (RLength c l) x -> IsValue (RGeneric (RLength c l)) (wraps id_GenericDecodeError id_SmallBuffer x)
| VGenericTime t x : IsValue (RTime t) x -> IsValue (RGeneric (RTime t)) (wraps id_GenericDecodeError id_NarrowSystemTime x)
| VGenericUnassigned d : 0 <= d < 2 ^ 128 ->
    IsValue (RGenUnassigned d) (XData id_GenericDecodeError id_UnassignedDiscriminant [] [(id_value, XInt U128 d)])
| VStringUtf16 e x : IsValue e x -> IsValue (RStrUtf16 e) (wraps id_StringError id_BadUtf16 x)                         (* string_error.rs:31 *)
| VStringUtf8 e x : IsValue e x -> IsValue (RStrUtf8 e) (wraps id_StringError id_BadUtf8 x)
| VStringSmall e x : IsValue e x -> IsValue (RStrSmall e) (wraps id_StringError id_SmallBuffer x)
| VInputError e : IsValue (RInput e)                                                                                   (* input_error.rs:30 *)
    (record id_InputError [(id_capacity, usize (se_capacity e)); (id_position, usize (se_position e)); (id_count, usize (se_count e))])
| VOutputError e : IsValue (ROutput e)                                                                                 (* output_error.rs:30 *)
    (record id_OutputError [(id_capacity, usize (se_capacity e)); (id_position, usize (se_position e)); (id_count, usize (se_count e))]).
