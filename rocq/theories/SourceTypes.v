(* Generated by tools/rust2v.py from oct/src. Do not edit. *)
From Verif Require Import Base SourceNames SourceSyntax.
Local Open Scope list_scope.

(* oct/src/encode/output/mod.rs:30 *)
Definition def_Output : tydef :=
  TyDef id_Output [] [] []
    [(id_Output, [(YRef true (YSlice (YPath [(id_u8, [])]))); (YPath [(id_usize, [])])])].

(* oct/src/decode/input/mod.rs:28 *)
Definition def_Input : tydef :=
  TyDef id_Input [] [] []
    [(id_Input, [(YRef false (YSlice (YPath [(id_u8, [])]))); (YPath [(id_usize, [])])])].

(* oct/src/slot/mod.rs:69 *)
Definition def_Slot : tydef :=
  TyDef id_Slot [id_T] [] []
    [(id_Slot, [(YPath [(id_Box, [(YSlice (YPath [(id_u8, [])]))])]); (YPath [(id_usize, [])]); (YPath [(id_PhantomData, [YFn])])])].

(* oct/src/sized_slice/mod.rs:73 *)
Definition def_SizedSlice : tydef :=
  TyDef id_SizedSlice [id_T] [id_N] []
    [(id_SizedSlice, [(YArr (YPath [(id_MaybeUninit, [(YPath [(id_T, [])])])]) (YPath [(id_N, [])])); (YPath [(id_usize, [])])])].

(* oct/src/sized_iter/mod.rs:31 *)
Definition def_SizedIter : tydef :=
  TyDef id_SizedIter [id_T] [id_N] []
    [(id_SizedIter, [(YArr (YPath [(id_MaybeUninit, [(YPath [(id_T, [])])])]) (YPath [(id_N, [])])); (YPath [(id_usize, [])]); (YPath [(id_usize, [])])])].

(* oct/src/sized_str/mod.rs:75 *)
Definition def_SizedStr : tydef :=
  TyDef id_SizedStr [] [id_N] []
    [(id_SizedStr, [(YPath [(id_SizedSlice, [(YPath [(id_u8, [])]); (YPath [(id_N, [])])])])])].

(* oct/src/error/c_string_decode_error.rs:34 *)
Definition def_CStringDecodeError : tydef :=
  TyDef id_CStringDecodeError [] [] []
    [(id_CStringDecodeError, [(YPath [(id_usize, [])])])].

(* oct/src/error/char_decode_error.rs:34 *)
Definition def_CharDecodeError : tydef :=
  TyDef id_CharDecodeError [] [] []
    [(id_CharDecodeError, [(YPath [(id_u32, [])])])].

(* oct/src/error/collection_decode_error.rs:36 *)
Definition def_CollectionDecodeError : tydef :=
  TyDef id_CollectionDecodeError [id_L; id_I] [] []
    [(id_BadLength, [(YPath [(id_L, [])])]); (id_BadItem, [(YPath [(id_I, [])])])].

(* oct/src/error/collection_encode_error.rs:32 *)
Definition def_CollectionEncodeError : tydef :=
  TyDef id_CollectionEncodeError [id_L; id_I] [] []
    [(id_BadLength, [(YPath [(id_L, [])])]); (id_BadItem, [(YPath [(id_I, [])])])].

(* oct/src/error/enum_decode_error.rs:31 *)
Definition def_EnumDecodeError : tydef :=
  TyDef id_EnumDecodeError [id_D; id_F] [] [((YPath [(id_D, [])]), [(id_Decode, [])])]
    [(id_InvalidDiscriminant, [(YPath [(id_D, []); (id_Error, [])])]); (id_UnassignedDiscriminant, [(YPath [(id_D, [])])]); (id_BadField, [(YPath [(id_F, [])])])].

(* oct/src/error/enum_encode_error.rs:31 *)
Definition def_EnumEncodeError : tydef :=
  TyDef id_EnumEncodeError [id_D; id_F] [] [((YPath [(id_D, [])]), [(id_Encode, [])])]
    [(id_BadDiscriminant, [(YPath [(id_D, []); (id_Error, [])])]); (id_BadField, [(YPath [(id_F, [])])])].

(* oct/src/error/generic_decode_error.rs:49 *)
Definition def_GenericDecodeError : tydef :=
  TyDef id_GenericDecodeError [] [] []
    [(id_BadString, [(YPath [(id_Utf8Error, [])])]); (id_NullString, [(YPath [(id_CStringDecodeError, [])])]); (id_NullInteger, [(YPath [(id_NonZeroDecodeError, [])])]); (id_SmallBuffer, [(YPath [(id_LengthError, [])])]); (id_UnassignedDiscriminant, [(YPath [(id_u128, [])])]); (id_NarrowSystemTime, [(YPath [(id_SystemTimeDecodeError, [])])])].

(* oct/src/error/generic_encode_error.rs:44 *)
Definition def_GenericEncodeError : tydef :=
  TyDef id_GenericEncodeError [] [] []
    [(id_BadBorrow, [(YPath [(id_BorrowError, [])])]); (id_LargeIsize, [(YPath [(id_IsizeEncodeError, [])])]); (id_LargeUsize, [(YPath [(id_UsizeEncodeError, [])])])].

(* oct/src/error/input_error.rs:30 *)
Definition def_InputError : tydef :=
  TyDef id_InputError [] [] []
    [(id_InputError, [(YPath [(id_usize, [])]); (YPath [(id_usize, [])]); (YPath [(id_usize, [])])])].

(* oct/src/error/isize_encode_error.rs:30 *)
Definition def_IsizeEncodeError : tydef :=
  TyDef id_IsizeEncodeError [] [] []
    [(id_IsizeEncodeError, [(YPath [(id_isize, [])])])].

(* oct/src/error/item_decode_error.rs:31 *)
Definition def_ItemDecodeError : tydef :=
  TyDef id_ItemDecodeError [id_I; id_E] [] []
    [(id_ItemDecodeError, [(YPath [(id_I, [])]); (YPath [(id_E, [])])])].

(* oct/src/error/item_encode_error.rs:31 *)
Definition def_ItemEncodeError : tydef :=
  TyDef id_ItemEncodeError [id_I; id_E] [] []
    [(id_ItemEncodeError, [(YPath [(id_I, [])]); (YPath [(id_E, [])])])].

(* oct/src/error/length_error.rs:35 *)
Definition def_LengthError : tydef :=
  TyDef id_LengthError [] [] []
    [(id_LengthError, [(YPath [(id_usize, [])]); (YPath [(id_usize, [])])])].

(* oct/src/error/non_zero_decode_error.rs:29 *)
Definition def_NonZeroDecodeError : tydef :=
  TyDef id_NonZeroDecodeError [] [] []
    [(id_NonZeroDecodeError, [])].

(* oct/src/error/output_error.rs:30 *)
Definition def_OutputError : tydef :=
  TyDef id_OutputError [] [] []
    [(id_OutputError, [(YPath [(id_usize, [])]); (YPath [(id_usize, [])]); (YPath [(id_usize, [])])])].

(* oct/src/error/ref_cell_encode_error.rs:33 *)
Definition def_RefCellEncodeError : tydef :=
  TyDef id_RefCellEncodeError [id_E] [] []
    [(id_BadBorrow, [(YPath [(id_BorrowError, [])])]); (id_BadValue, [(YPath [(id_E, [])])])].

(* oct/src/error/string_error.rs:31 *)
Definition def_StringError : tydef :=
  TyDef id_StringError [] [] []
    [(id_BadUtf16, [(YPath [(id_Utf16Error, [])])]); (id_BadUtf8, [(YPath [(id_Utf8Error, [])])]); (id_SmallBuffer, [(YPath [(id_LengthError, [])])])].

(* oct/src/error/system_time_decode_error.rs:32 *)
Definition def_SystemTimeDecodeError : tydef :=
  TyDef id_SystemTimeDecodeError [] [] []
    [(id_SystemTimeDecodeError, [(YPath [(id_i64, [])])])].

(* oct/src/error/usize_encode_error.rs:30 *)
Definition def_UsizeEncodeError : tydef :=
  TyDef id_UsizeEncodeError [] [] []
    [(id_UsizeEncodeError, [(YPath [(id_usize, [])])])].

(* oct/src/error/utf16_error.rs:28 *)
Definition def_Utf16Error : tydef :=
  TyDef id_Utf16Error [] [] []
    [(id_Utf16Error, [(YPath [(id_u16, [])]); (YPath [(id_usize, [])])])].

(* oct/src/error/utf8_error.rs:28 *)
Definition def_Utf8Error : tydef :=
  TyDef id_Utf8Error [] [] []
    [(id_Utf8Error, [(YPath [(id_u8, [])]); (YPath [(id_usize, [])])])].

(* all of them *)
Definition src_types : list tydef := [def_Output; def_Input; def_Slot; def_SizedSlice; def_SizedIter; def_SizedStr; def_CStringDecodeError; def_CharDecodeError; def_CollectionDecodeError; def_CollectionEncodeError; def_EnumDecodeError; def_EnumEncodeError; def_GenericDecodeError; def_GenericEncodeError; def_InputError; def_IsizeEncodeError; def_ItemDecodeError; def_ItemEncodeError; def_LengthError; def_NonZeroDecodeError; def_OutputError; def_RefCellEncodeError; def_StringError; def_SystemTimeDecodeError; def_UsizeEncodeError; def_Utf16Error; def_Utf8Error].
