(* Generated by tools/rust2v.py from oct/src/error/*.rs. Do not edit. *)
From Coq Require Import String.
From Verif Require Import Base SourceNames SourceSyntax.
Local Open Scope list_scope.

(* oct/src/error/c_string_decode_error.rs:41 *)
Definition src_Display_CStringDecodeError_fmt : fn := Fn id_fmt [] [((PVar id_self), (YPath [(id_Self, [])])); ((PVar id_f), (YRef true (YPath [(id_Formatter, [])])))] (YPath [(id_fmt, []); (id_Result, [])])
    (EMacro id_write [(EPath [(id_f, [])]); (EStr (txt "expected c string but found null value within bounds at '{}`")); (EField (EPath [(id_self, [])]) id_index)]).

(* oct/src/error/c_string_decode_error.rs:39 *)
Definition src_Display_CStringDecodeError : impl :=
  Impl [] [] [] (Some [(id_Display, [])]) (YPath [(id_CStringDecodeError, [])])
    [] [] [src_Display_CStringDecodeError_fmt].

(* oct/src/error/c_string_decode_error.rs:46 *)
Definition src_Error_CStringDecodeError : impl :=
  Impl [] [] [] (Some [(id_Error, [])]) (YPath [(id_CStringDecodeError, [])])
    [] [] [].

(* oct/src/error/char_decode_error.rs:41 *)
Definition src_Display_CharDecodeError_fmt : fn := Fn id_fmt [] [((PVar id_self), (YPath [(id_Self, [])])); ((PVar id_f), (YRef true (YPath [(id_Formatter, [])])))] (YPath [(id_fmt, []); (id_Result, [])])
    (EMacro id_write [(EPath [(id_f, [])]); (EStr (txt "code point U+{:04X} is not defined")); (EField (EPath [(id_self, [])]) id_code_point)]).

(* oct/src/error/char_decode_error.rs:39 *)
Definition src_Display_CharDecodeError : impl :=
  Impl [] [] [] (Some [(id_Display, [])]) (YPath [(id_CharDecodeError, [])])
    [] [] [src_Display_CharDecodeError_fmt].

(* oct/src/error/char_decode_error.rs:46 *)
Definition src_Error_CharDecodeError : impl :=
  Impl [] [] [] (Some [(id_Error, [])]) (YPath [(id_CharDecodeError, [])])
    [] [] [].

(* oct/src/error/collection_decode_error.rs:57 *)
Definition src_Display_CollectionDecodeError_L_I_fmt : fn := Fn id_fmt [] [((PVar id_self), (YPath [(id_Self, [])])); ((PVar id_f), (YRef true (YPath [(id_Formatter, [])])))] (YPath [(id_fmt, []); (id_Result, [])])
    (EMatch (EDeref (EPath [(id_self, [])])) [((PCon [(id_Self, []); (id_BadLength, [])] [(PVar id_e)]), (EMacro id_write [(EPath [(id_f, [])]); (EStr (txt "unable to decode collection length: {e}"))])); ((PCon [(id_Self, []); (id_BadItem, [])] [(PVar id_e)]), (EMacro id_write [(EPath [(id_f, [])]); (EStr (txt "unable to decode collection item: {e}"))]))]).

(* oct/src/error/collection_decode_error.rs:51 *)
Definition src_Display_CollectionDecodeError_L_I : impl :=
  Impl [id_L; id_I] [] [((YPath [(id_L, [])]), [(id_Display, [])]); ((YPath [(id_I, [])]), [(id_Display, [])])] (Some [(id_Display, [])]) (YPath [(id_CollectionDecodeError, [(YPath [(id_L, [])]); (YPath [(id_I, [])])])])
    [] [] [src_Display_CollectionDecodeError_L_I_fmt].

(* oct/src/error/collection_decode_error.rs:74 *)
Definition src_Error_CollectionDecodeError_L_I_source : fn := Fn id_source [] [((PVar id_self), (YPath [(id_Self, [])]))] (YPath [(id_Option, [(YRef false YDyn)])])
    (EMatch (EDeref (EPath [(id_self, [])])) [((PCon [(id_Self, []); (id_BadLength, [])] [(PVar id_e)]), (ECall (EPath [(id_Some, [])]) [(EPath [(id_e, [])])])); ((PCon [(id_Self, []); (id_BadItem, [])] [(PVar id_e)]), (ECall (EPath [(id_Some, [])]) [(EPath [(id_e, [])])]))]).

(* oct/src/error/collection_decode_error.rs:68 *)
Definition src_Error_CollectionDecodeError_L_I : impl :=
  Impl [id_L; id_I] [] [((YPath [(id_L, [])]), [(id_Error, [])]); ((YPath [(id_I, [])]), [(id_Error, [])])] (Some [(id_Error, [])]) (YPath [(id_CollectionDecodeError, [(YPath [(id_L, [])]); (YPath [(id_I, [])])])])
    [] [] [src_Error_CollectionDecodeError_L_I_source].

(* oct/src/error/collection_decode_error.rs:89 *)
Definition src_From_CollectionDecodeError_L_I_Infallible_from : fn := Fn id_from [] [((PVar id__value), (YPath [(id_CollectionDecodeError, [(YPath [(id_L, [])]); (YPath [(id_I, [])])])]))] (YPath [(id_Self, [])])
    (EMacro id_unreachable []).

(* oct/src/error/collection_decode_error.rs:83 *)
Definition src_From_CollectionDecodeError_L_I_Infallible : impl :=
  Impl [id_L; id_I] [] [((YPath [(id_L, [])]), [(id_Into, [(YPath [(id_Self, [])])])]); ((YPath [(id_I, [])]), [(id_Into, [(YPath [(id_Self, [])])])])] (Some [(id_From, [(YPath [(id_CollectionDecodeError, [(YPath [(id_L, [])]); (YPath [(id_I, [])])])])])]) (YPath [(id_Infallible, [])])
    [] [] [src_From_CollectionDecodeError_L_I_Infallible_from].

(* oct/src/error/collection_encode_error.rs:46 *)
Definition src_Display_CollectionEncodeError_L_I_fmt : fn := Fn id_fmt [] [((PVar id_self), (YPath [(id_Self, [])])); ((PVar id_f), (YRef true (YPath [(id_Formatter, [])])))] (YPath [(id_fmt, []); (id_Result, [])])
    (EMatch (EDeref (EPath [(id_self, [])])) [((PCon [(id_Self, []); (id_BadLength, [])] [(PVar id_e)]), (EMacro id_write [(EPath [(id_f, [])]); (EStr (txt "unable to encode collection length: {e}"))])); ((PCon [(id_Self, []); (id_BadItem, [])] [(PVar id_e)]), (EMacro id_write [(EPath [(id_f, [])]); (EStr (txt "unable to encode collection item: {e}"))]))]).

(* oct/src/error/collection_encode_error.rs:40 *)
Definition src_Display_CollectionEncodeError_L_I : impl :=
  Impl [id_L; id_I] [] [((YPath [(id_L, [])]), [(id_Display, [])]); ((YPath [(id_I, [])]), [(id_Display, [])])] (Some [(id_Display, [])]) (YPath [(id_CollectionEncodeError, [(YPath [(id_L, [])]); (YPath [(id_I, [])])])])
    [] [] [src_Display_CollectionEncodeError_L_I_fmt].

(* oct/src/error/collection_encode_error.rs:63 *)
Definition src_Error_CollectionEncodeError_L_I_source : fn := Fn id_source [] [((PVar id_self), (YPath [(id_Self, [])]))] (YPath [(id_Option, [(YRef false YDyn)])])
    (EMatch (EDeref (EPath [(id_self, [])])) [((PCon [(id_Self, []); (id_BadLength, [])] [(PVar id_e)]), (ECall (EPath [(id_Some, [])]) [(EPath [(id_e, [])])])); ((PCon [(id_Self, []); (id_BadItem, [])] [(PVar id_e)]), (ECall (EPath [(id_Some, [])]) [(EPath [(id_e, [])])]))]).

(* oct/src/error/collection_encode_error.rs:57 *)
Definition src_Error_CollectionEncodeError_L_I : impl :=
  Impl [id_L; id_I] [] [((YPath [(id_L, [])]), [(id_Error, [])]); ((YPath [(id_I, [])]), [(id_Error, [])])] (Some [(id_Error, [])]) (YPath [(id_CollectionEncodeError, [(YPath [(id_L, [])]); (YPath [(id_I, [])])])])
    [] [] [src_Error_CollectionEncodeError_L_I_source].

(* oct/src/error/collection_encode_error.rs:78 *)
Definition src_From_CollectionEncodeError_L_I_Infallible_from : fn := Fn id_from [] [((PVar id__value), (YPath [(id_CollectionEncodeError, [(YPath [(id_L, [])]); (YPath [(id_I, [])])])]))] (YPath [(id_Self, [])])
    (EMacro id_unreachable []).

(* oct/src/error/collection_encode_error.rs:72 *)
Definition src_From_CollectionEncodeError_L_I_Infallible : impl :=
  Impl [id_L; id_I] [] [((YPath [(id_L, [])]), [(id_Into, [(YPath [(id_Self, [])])])]); ((YPath [(id_I, [])]), [(id_Into, [(YPath [(id_Self, [])])])])] (Some [(id_From, [(YPath [(id_CollectionEncodeError, [(YPath [(id_L, [])]); (YPath [(id_I, [])])])])])]) (YPath [(id_Infallible, [])])
    [] [] [src_From_CollectionEncodeError_L_I_Infallible_from].

(* oct/src/error/enum_decode_error.rs:54 *)
Definition src_Display_EnumDecodeError_D_F_fmt : fn := Fn id_fmt [] [((PVar id_self), (YPath [(id_Self, [])])); ((PVar id_f), (YRef true (YPath [(id_Formatter, [])])))] (YPath [(id_fmt, []); (id_Result, [])])
    (EMatch (EDeref (EPath [(id_self, [])])) [((PCon [(id_Self, []); (id_InvalidDiscriminant, [])] [(PVar id_e)]), (EMacro id_write [(EPath [(id_f, [])]); (EStr (txt "discriminant could not be decoded: {e}"))])); ((PRec [(id_Self, []); (id_UnassignedDiscriminant, [])] [(id_value, (PVar id_value))]), (EMacro id_write [(EPath [(id_f, [])]); (EStr (txt "`{value}` is not an assigned discriminant for the given enumeration"))])); ((PCon [(id_Self, []); (id_BadField, [])] [(PVar id_e)]), (EMacro id_write [(EPath [(id_f, [])]); (EStr (txt "variant could not be decoded: {e}"))]))]).

(* oct/src/error/enum_decode_error.rs:48 *)
Definition src_Display_EnumDecodeError_D_F : impl :=
  Impl [id_D; id_F] [] [((YPath [(id_D, [])]), [(id_Decode, [])]); ((YPath [(id_D, [])]), [(id_Display, [])]); ((YPath [(id_D, []); (id_Error, [])]), [(id_Display, [])]); ((YPath [(id_F, [])]), [(id_Display, [])])] (Some [(id_Display, [])]) (YPath [(id_EnumDecodeError, [(YPath [(id_D, [])]); (YPath [(id_F, [])])])])
    [] [] [src_Display_EnumDecodeError_D_F_fmt].

(* oct/src/error/enum_decode_error.rs:74 *)
Definition src_Error_EnumDecodeError_D_F_source : fn := Fn id_source [] [((PVar id_self), (YPath [(id_Self, [])]))] (YPath [(id_Option, [(YRef false YDyn)])])
    (EMatch (EDeref (EPath [(id_self, [])])) [((PCon [(id_Self, []); (id_InvalidDiscriminant, [])] [(PVar id_e)]), (ECall (EPath [(id_Some, [])]) [(EPath [(id_e, [])])])); ((PCon [(id_Self, []); (id_BadField, [])] [(PVar id_e)]), (ECall (EPath [(id_Some, [])]) [(EPath [(id_e, [])])])); (PAny, (EPath [(id_None, [])]))]).

(* oct/src/error/enum_decode_error.rs:68 *)
Definition src_Error_EnumDecodeError_D_F : impl :=
  Impl [id_D; id_F] [] [((YPath [(id_D, [])]), [(id_Debug, [])]); ((YPath [(id_D, [])]), [(id_Decode, [])]); ((YPath [(id_D, [])]), [(id_Display, [])]); ((YPath [(id_D, []); (id_Error, [])]), [(id_Error, [])]); ((YPath [(id_F, [])]), [(id_Error, [])])] (Some [(id_Error, [])]) (YPath [(id_EnumDecodeError, [(YPath [(id_D, [])]); (YPath [(id_F, [])])])])
    [] [] [src_Error_EnumDecodeError_D_F_source].

(* oct/src/error/enum_decode_error.rs:91 *)
Definition src_From_EnumDecodeError_D_F_Infallible_from : fn := Fn id_from [] [((PVar id__value), (YPath [(id_EnumDecodeError, [(YPath [(id_D, [])]); (YPath [(id_F, [])])])]))] (YPath [(id_Self, [])])
    (EMacro id_unreachable []).

(* oct/src/error/enum_decode_error.rs:85 *)
Definition src_From_EnumDecodeError_D_F_Infallible : impl :=
  Impl [id_D; id_F] [] [((YPath [(id_D, [])]), [(id_Decode, [])]); ((YPath [(id_D, []); (id_Error, [])]), [(id_Into, [(YPath [(id_Self, [])])])]); ((YPath [(id_F, [])]), [(id_Into, [(YPath [(id_Self, [])])])])] (Some [(id_From, [(YPath [(id_EnumDecodeError, [(YPath [(id_D, [])]); (YPath [(id_F, [])])])])])]) (YPath [(id_Infallible, [])])
    [] [] [src_From_EnumDecodeError_D_F_Infallible_from].

(* oct/src/error/enum_encode_error.rs:45 *)
Definition src_Display_EnumEncodeError_D_F_fmt : fn := Fn id_fmt [] [((PVar id_self), (YPath [(id_Self, [])])); ((PVar id_f), (YRef true (YPath [(id_Formatter, [])])))] (YPath [(id_fmt, []); (id_Result, [])])
    (EMatch (EDeref (EPath [(id_self, [])])) [((PCon [(id_Self, []); (id_BadDiscriminant, [])] [(PVar id_e)]), (EMacro id_write [(EPath [(id_f, [])]); (EStr (txt "discriminant could not be encoded: {e}"))])); ((PCon [(id_Self, []); (id_BadField, [])] [(PVar id_e)]), (EMacro id_write [(EPath [(id_f, [])]); (EStr (txt "field could not be encoded: {e}"))]))]).

(* oct/src/error/enum_encode_error.rs:39 *)
Definition src_Display_EnumEncodeError_D_F : impl :=
  Impl [id_D; id_F] [] [((YPath [(id_D, [])]), [(id_Display, [])]); ((YPath [(id_D, [])]), [(id_Encode, [])]); ((YPath [(id_D, []); (id_Error, [])]), [(id_Display, [])]); ((YPath [(id_F, [])]), [(id_Display, [])])] (Some [(id_Display, [])]) (YPath [(id_EnumEncodeError, [(YPath [(id_D, [])]); (YPath [(id_F, [])])])])
    [] [] [src_Display_EnumEncodeError_D_F_fmt].

(* oct/src/error/enum_encode_error.rs:62 *)
Definition src_Error_EnumEncodeError_D_F_source : fn := Fn id_source [] [((PVar id_self), (YPath [(id_Self, [])]))] (YPath [(id_Option, [(YRef false YDyn)])])
    (EMatch (EDeref (EPath [(id_self, [])])) [((PCon [(id_Self, []); (id_BadDiscriminant, [])] [(PVar id_e)]), (ECall (EPath [(id_Some, [])]) [(EPath [(id_e, [])])])); ((PCon [(id_Self, []); (id_BadField, [])] [(PVar id_e)]), (ECall (EPath [(id_Some, [])]) [(EPath [(id_e, [])])]))]).

(* oct/src/error/enum_encode_error.rs:56 *)
Definition src_Error_EnumEncodeError_D_F : impl :=
  Impl [id_D; id_F] [] [((YPath [(id_D, [])]), [(id_Debug, [])]); ((YPath [(id_D, [])]), [(id_Display, [])]); ((YPath [(id_D, [])]), [(id_Encode, [])]); ((YPath [(id_D, []); (id_Error, [])]), [(id_Error, [])]); ((YPath [(id_F, [])]), [(id_Error, [])])] (Some [(id_Error, [])]) (YPath [(id_EnumEncodeError, [(YPath [(id_D, [])]); (YPath [(id_F, [])])])])
    [] [] [src_Error_EnumEncodeError_D_F_source].

(* oct/src/error/enum_encode_error.rs:77 *)
Definition src_From_EnumEncodeError_D_F_Infallible_from : fn := Fn id_from [] [((PVar id__value), (YPath [(id_EnumEncodeError, [(YPath [(id_D, [])]); (YPath [(id_F, [])])])]))] (YPath [(id_Self, [])])
    (EMacro id_unreachable []).

(* oct/src/error/enum_encode_error.rs:71 *)
Definition src_From_EnumEncodeError_D_F_Infallible : impl :=
  Impl [id_D; id_F] [] [((YPath [(id_D, [])]), [(id_Encode, [])]); ((YPath [(id_D, []); (id_Error, [])]), [(id_Into, [(YPath [(id_Self, [])])])]); ((YPath [(id_F, [])]), [(id_Into, [(YPath [(id_Self, [])])])])] (Some [(id_From, [(YPath [(id_EnumEncodeError, [(YPath [(id_D, [])]); (YPath [(id_F, [])])])])])]) (YPath [(id_Infallible, [])])
    [] [] [src_From_EnumEncodeError_D_F_Infallible_from].

(* oct/src/error/generic_decode_error.rs:80 *)
Definition src_Display_GenericDecodeError_fmt : fn := Fn id_fmt [] [((PVar id_self), (YPath [(id_Self, [])])); ((PVar id_f), (YRef true (YPath [(id_Formatter, [])])))] (YPath [(id_fmt, []); (id_Result, [])])
    (EMatch (EDeref (EPath [(id_self, [])])) [((PCon [(id_Self, []); (id_BadString, [])] [(PVar id_e)]), (EMacro id_write [(EPath [(id_f, [])]); (EStr (txt "{e}"))])); ((PCon [(id_Self, []); (id_NullString, [])] [(PVar id_e)]), (EMacro id_write [(EPath [(id_f, [])]); (EStr (txt "{e}"))])); ((PCon [(id_Self, []); (id_NullInteger, [])] [(PVar id_e)]), (EMacro id_write [(EPath [(id_f, [])]); (EStr (txt "{e}"))])); ((PCon [(id_Self, []); (id_SmallBuffer, [])] [(PVar id_e)]), (EMacro id_write [(EPath [(id_f, [])]); (EStr (txt "{e}"))])); ((PRec [(id_Self, []); (id_UnassignedDiscriminant, [])] [(id_value, (PVar id_value))]), (EMacro id_write [(EPath [(id_f, [])]); (EStr (txt "discriminant value `{value:#X} has not been assigned"))])); ((PCon [(id_Self, []); (id_NarrowSystemTime, [])] [(PVar id_e)]), (EMacro id_write [(EPath [(id_f, [])]); (EStr (txt "{e}"))]))]).

(* oct/src/error/generic_decode_error.rs:78 *)
Definition src_Display_GenericDecodeError : impl :=
  Impl [] [] [] (Some [(id_Display, [])]) (YPath [(id_GenericDecodeError, [])])
    [] [] [src_Display_GenericDecodeError_fmt].

(* oct/src/error/generic_decode_error.rs:106 *)
Definition src_Error_GenericDecodeError_source : fn := Fn id_source [] [((PVar id_self), (YPath [(id_Self, [])]))] (YPath [(id_Option, [(YRef false YDyn)])])
    (EMatch (EDeref (EPath [(id_self, [])])) [((PCon [(id_Self, []); (id_BadString, [])] [(PVar id_e)]), (ECall (EPath [(id_Some, [])]) [(EPath [(id_e, [])])])); ((PCon [(id_Self, []); (id_NullString, [])] [(PVar id_e)]), (ECall (EPath [(id_Some, [])]) [(EPath [(id_e, [])])])); ((PCon [(id_Self, []); (id_NullInteger, [])] [(PVar id_e)]), (ECall (EPath [(id_Some, [])]) [(EPath [(id_e, [])])])); ((PCon [(id_Self, []); (id_SmallBuffer, [])] [(PVar id_e)]), (ECall (EPath [(id_Some, [])]) [(EPath [(id_e, [])])])); ((PCon [(id_Self, []); (id_NarrowSystemTime, [])] [(PVar id_e)]), (ECall (EPath [(id_Some, [])]) [(EPath [(id_e, [])])])); (PAny, (EPath [(id_None, [])]))]).

(* oct/src/error/generic_decode_error.rs:104 *)
Definition src_Error_GenericDecodeError : impl :=
  Impl [] [] [] (Some [(id_Error, [])]) (YPath [(id_GenericDecodeError, [])])
    [] [] [src_Error_GenericDecodeError_source].

(* oct/src/error/generic_decode_error.rs:131 *)
Definition src_From_CollectionDecodeError_L_I_GenericDecodeError_from : fn := Fn id_from [] [((PVar id_value), (YPath [(id_CollectionDecodeError, [(YPath [(id_L, [])]); (YPath [(id_I, [])])])]))] (YPath [(id_Self, [])])
    (EUse id_Error [(id_CollectionDecodeError, [])] (EMatch (EPath [(id_value, [])]) [((PCon [(id_Error, []); (id_BadLength, [])] [(PVar id_e)]), (EMethod (EPath [(id_e, [])]) id_into [] [])); ((PCon [(id_Error, []); (id_BadItem, [])] [(PVar id_e)]), (EMethod (EPath [(id_e, [])]) id_into [] []))])).

(* oct/src/error/generic_decode_error.rs:125 *)
Definition src_From_CollectionDecodeError_L_I_GenericDecodeError : impl :=
  Impl [id_L; id_I] [] [((YPath [(id_L, [])]), [(id_Into, [(YPath [(id_Self, [])])])]); ((YPath [(id_I, [])]), [(id_Into, [(YPath [(id_Self, [])])])])] (Some [(id_From, [(YPath [(id_CollectionDecodeError, [(YPath [(id_L, [])]); (YPath [(id_I, [])])])])])]) (YPath [(id_GenericDecodeError, [])])
    [] [] [src_From_CollectionDecodeError_L_I_GenericDecodeError_from].

(* oct/src/error/generic_decode_error.rs:146 *)
Definition src_From_CStringDecodeError_GenericDecodeError_from : fn := Fn id_from [] [((PVar id_value), (YPath [(id_CStringDecodeError, [])]))] (YPath [(id_Self, [])])
    (ECall (EPath [(id_Self, []); (id_NullString, [])]) [(EPath [(id_value, [])])]).

(* oct/src/error/generic_decode_error.rs:144 *)
Definition src_From_CStringDecodeError_GenericDecodeError : impl :=
  Impl [] [] [] (Some [(id_From, [(YPath [(id_CStringDecodeError, [])])])]) (YPath [(id_GenericDecodeError, [])])
    [] [] [src_From_CStringDecodeError_GenericDecodeError_from].

(* oct/src/error/generic_decode_error.rs:157 *)
Definition src_From_EnumDecodeError_D_F_GenericDecodeError_from : fn := Fn id_from [] [((PVar id_value), (YPath [(id_EnumDecodeError, [(YPath [(id_D, [])]); (YPath [(id_F, [])])])]))] (YPath [(id_Self, [])])
    (EUse id_Error [(id_EnumDecodeError, [])] (EMatch (EPath [(id_value, [])]) [((PCon [(id_Error, []); (id_InvalidDiscriminant, [])] [(PVar id_e)]), (EMethod (EPath [(id_e, [])]) id_into [] [])); ((PRec [(id_Error, []); (id_UnassignedDiscriminant, [])] [(id_value, (PVar id_value))]), (ERec [(id_Self, []); (id_UnassignedDiscriminant, [])] [(id_value, (EMethod (EPath [(id_value, [])]) id_to_u128 [] []))])); ((PCon [(id_Error, []); (id_BadField, [])] [(PVar id_e)]), (EMethod (EPath [(id_e, [])]) id_into [] []))])).

(* oct/src/error/generic_decode_error.rs:151 *)
Definition src_From_EnumDecodeError_D_F_GenericDecodeError : impl :=
  Impl [id_D; id_F] [] [((YPath [(id_D, [])]), [(id_Decode, [])]); ((YPath [(id_D, [])]), [(id_PrimitiveDiscriminant, [])]); ((YPath [(id_D, []); (id_Error, [])]), [(id_Into, [(YPath [(id_Self, [])])])]); ((YPath [(id_F, [])]), [(id_Into, [(YPath [(id_Self, [])])])])] (Some [(id_From, [(YPath [(id_EnumDecodeError, [(YPath [(id_D, [])]); (YPath [(id_F, [])])])])])]) (YPath [(id_GenericDecodeError, [])])
    [] [] [src_From_EnumDecodeError_D_F_GenericDecodeError_from].

(* oct/src/error/generic_decode_error.rs:172 *)
Definition src_From_Infallible_GenericDecodeError_from : fn := Fn id_from [] [((PVar id__value), (YPath [(id_Infallible, [])]))] (YPath [(id_Self, [])])
    (ECall (EPath [(id_unreachable_unchecked, [])]) []).

(* oct/src/error/generic_decode_error.rs:170 *)
Definition src_From_Infallible_GenericDecodeError : impl :=
  Impl [] [] [] (Some [(id_From, [(YPath [(id_Infallible, [])])])]) (YPath [(id_GenericDecodeError, [])])
    [] [] [src_From_Infallible_GenericDecodeError_from].

(* oct/src/error/generic_decode_error.rs:181 *)
Definition src_From_ItemDecodeError_I_E_GenericDecodeError_from : fn := Fn id_from [] [((PVar id_value), (YPath [(id_ItemDecodeError, [(YPath [(id_I, [])]); (YPath [(id_E, [])])])]))] (YPath [(id_Self, [])])
    (EMethod (EField (EPath [(id_value, [])]) id_error) id_into [] []).

(* oct/src/error/generic_decode_error.rs:179 *)
Definition src_From_ItemDecodeError_I_E_GenericDecodeError : impl :=
  Impl [id_I; id_E] [] [((YPath [(id_E, [])]), [(id_Into, [(YPath [(id_Self, [])])])])] (Some [(id_From, [(YPath [(id_ItemDecodeError, [(YPath [(id_I, [])]); (YPath [(id_E, [])])])])])]) (YPath [(id_GenericDecodeError, [])])
    [] [] [src_From_ItemDecodeError_I_E_GenericDecodeError_from].

(* oct/src/error/generic_decode_error.rs:188 *)
Definition src_From_NonZeroDecodeError_GenericDecodeError_from : fn := Fn id_from [] [((PVar id_value), (YPath [(id_NonZeroDecodeError, [])]))] (YPath [(id_Self, [])])
    (ECall (EPath [(id_Self, []); (id_NullInteger, [])]) [(EPath [(id_value, [])])]).

(* oct/src/error/generic_decode_error.rs:186 *)
Definition src_From_NonZeroDecodeError_GenericDecodeError : impl :=
  Impl [] [] [] (Some [(id_From, [(YPath [(id_NonZeroDecodeError, [])])])]) (YPath [(id_GenericDecodeError, [])])
    [] [] [src_From_NonZeroDecodeError_GenericDecodeError_from].

(* oct/src/error/generic_decode_error.rs:195 *)
Definition src_From_LengthError_GenericDecodeError_from : fn := Fn id_from [] [((PVar id_value), (YPath [(id_LengthError, [])]))] (YPath [(id_Self, [])])
    (ECall (EPath [(id_Self, []); (id_SmallBuffer, [])]) [(EPath [(id_value, [])])]).

(* oct/src/error/generic_decode_error.rs:193 *)
Definition src_From_LengthError_GenericDecodeError : impl :=
  Impl [] [] [] (Some [(id_From, [(YPath [(id_LengthError, [])])])]) (YPath [(id_GenericDecodeError, [])])
    [] [] [src_From_LengthError_GenericDecodeError_from].

(* oct/src/error/generic_decode_error.rs:204 *)
Definition src_From_SystemTimeDecodeError_GenericDecodeError_from : fn := Fn id_from [] [((PVar id_value), (YPath [(id_SystemTimeDecodeError, [])]))] (YPath [(id_Self, [])])
    (ECall (EPath [(id_Self, []); (id_NarrowSystemTime, [])]) [(EPath [(id_value, [])])]).

(* oct/src/error/generic_decode_error.rs:202 *)
Definition src_From_SystemTimeDecodeError_GenericDecodeError : impl :=
  Impl [] [] [] (Some [(id_From, [(YPath [(id_SystemTimeDecodeError, [])])])]) (YPath [(id_GenericDecodeError, [])])
    [] [] [src_From_SystemTimeDecodeError_GenericDecodeError_from].

(* oct/src/error/generic_decode_error.rs:211 *)
Definition src_From_Utf8Error_GenericDecodeError_from : fn := Fn id_from [] [((PVar id_value), (YPath [(id_Utf8Error, [])]))] (YPath [(id_Self, [])])
    (ECall (EPath [(id_Self, []); (id_BadString, [])]) [(EPath [(id_value, [])])]).

(* oct/src/error/generic_decode_error.rs:209 *)
Definition src_From_Utf8Error_GenericDecodeError : impl :=
  Impl [] [] [] (Some [(id_From, [(YPath [(id_Utf8Error, [])])])]) (YPath [(id_GenericDecodeError, [])])
    [] [] [src_From_Utf8Error_GenericDecodeError_from].

(* oct/src/error/generic_encode_error.rs:57 *)
Definition src_Display_GenericEncodeError_fmt : fn := Fn id_fmt [] [((PVar id_self), (YPath [(id_Self, [])])); ((PVar id_f), (YRef true (YPath [(id_Formatter, [])])))] (YPath [(id_fmt, []); (id_Result, [])])
    (EMatch (EDeref (EPath [(id_self, [])])) [((PCon [(id_Self, []); (id_BadBorrow, [])] [(PVar id_e)]), (EMacro id_write [(EPath [(id_f, [])]); (EStr (txt "{e}"))])); ((PCon [(id_Self, []); (id_LargeIsize, [])] [(PVar id_e)]), (EMacro id_write [(EPath [(id_f, [])]); (EStr (txt "{e}"))])); ((PCon [(id_Self, []); (id_LargeUsize, [])] [(PVar id_e)]), (EMacro id_write [(EPath [(id_f, [])]); (EStr (txt "{e}"))]))]).

(* oct/src/error/generic_encode_error.rs:55 *)
Definition src_Display_GenericEncodeError : impl :=
  Impl [] [] [] (Some [(id_Display, [])]) (YPath [(id_GenericEncodeError, [])])
    [] [] [src_Display_GenericEncodeError_fmt].

(* oct/src/error/generic_encode_error.rs:74 *)
Definition src_Error_GenericEncodeError_source : fn := Fn id_source [] [((PVar id_self), (YPath [(id_Self, [])]))] (YPath [(id_Option, [(YRef false YDyn)])])
    (EMatch (EDeref (EPath [(id_self, [])])) [((PCon [(id_Self, []); (id_BadBorrow, [])] [(PVar id_e)]), (ECall (EPath [(id_Some, [])]) [(EPath [(id_e, [])])])); ((PCon [(id_Self, []); (id_LargeIsize, [])] [(PVar id_e)]), (ECall (EPath [(id_Some, [])]) [(EPath [(id_e, [])])])); ((PCon [(id_Self, []); (id_LargeUsize, [])] [(PVar id_e)]), (ECall (EPath [(id_Some, [])]) [(EPath [(id_e, [])])]))]).

(* oct/src/error/generic_encode_error.rs:72 *)
Definition src_Error_GenericEncodeError : impl :=
  Impl [] [] [] (Some [(id_Error, [])]) (YPath [(id_GenericEncodeError, [])])
    [] [] [src_Error_GenericEncodeError_source].

(* oct/src/error/generic_encode_error.rs:87 *)
Definition src_From_BorrowError_GenericEncodeError_from : fn := Fn id_from [] [((PVar id_value), (YPath [(id_BorrowError, [])]))] (YPath [(id_Self, [])])
    (ECall (EPath [(id_Self, []); (id_BadBorrow, [])]) [(EPath [(id_value, [])])]).

(* oct/src/error/generic_encode_error.rs:85 *)
Definition src_From_BorrowError_GenericEncodeError : impl :=
  Impl [] [] [] (Some [(id_From, [(YPath [(id_BorrowError, [])])])]) (YPath [(id_GenericEncodeError, [])])
    [] [] [src_From_BorrowError_GenericEncodeError_from].

(* oct/src/error/generic_encode_error.rs:98 *)
Definition src_From_CollectionEncodeError_L_I_GenericEncodeError_from : fn := Fn id_from [] [((PVar id_value), (YPath [(id_CollectionEncodeError, [(YPath [(id_L, [])]); (YPath [(id_I, [])])])]))] (YPath [(id_Self, [])])
    (EUse id_Error [(id_CollectionEncodeError, [])] (EMatch (EPath [(id_value, [])]) [((PCon [(id_Error, []); (id_BadLength, [])] [(PVar id_e)]), (EMethod (EPath [(id_e, [])]) id_into [] [])); ((PCon [(id_Error, []); (id_BadItem, [])] [(PVar id_e)]), (EMethod (EPath [(id_e, [])]) id_into [] []))])).

(* oct/src/error/generic_encode_error.rs:92 *)
Definition src_From_CollectionEncodeError_L_I_GenericEncodeError : impl :=
  Impl [id_L; id_I] [] [((YPath [(id_L, [])]), [(id_Into, [(YPath [(id_Self, [])])])]); ((YPath [(id_I, [])]), [(id_Into, [(YPath [(id_Self, [])])])])] (Some [(id_From, [(YPath [(id_CollectionEncodeError, [(YPath [(id_L, [])]); (YPath [(id_I, [])])])])])]) (YPath [(id_GenericEncodeError, [])])
    [] [] [src_From_CollectionEncodeError_L_I_GenericEncodeError_from].

(* oct/src/error/generic_encode_error.rs:115 *)
Definition src_From_EnumEncodeError_D_F_GenericEncodeError_from : fn := Fn id_from [] [((PVar id_value), (YPath [(id_EnumEncodeError, [(YPath [(id_D, [])]); (YPath [(id_F, [])])])]))] (YPath [(id_Self, [])])
    (EUse id_Error [(id_EnumEncodeError, [])] (EMatch (EPath [(id_value, [])]) [((PCon [(id_Error, []); (id_BadDiscriminant, [])] [(PVar id_e)]), (EMethod (EPath [(id_e, [])]) id_into [] [])); ((PCon [(id_Error, []); (id_BadField, [])] [(PVar id_e)]), (EMethod (EPath [(id_e, [])]) id_into [] []))])).

(* oct/src/error/generic_encode_error.rs:109 *)
Definition src_From_EnumEncodeError_D_F_GenericEncodeError : impl :=
  Impl [id_D; id_F] [] [((YPath [(id_D, [])]), [(id_Encode, [])]); ((YPath [(id_D, []); (id_Error, [])]), [(id_Into, [(YPath [(id_Self, [])])])]); ((YPath [(id_F, [])]), [(id_Into, [(YPath [(id_Self, [])])])])] (Some [(id_From, [(YPath [(id_EnumEncodeError, [(YPath [(id_D, [])]); (YPath [(id_F, [])])])])])]) (YPath [(id_GenericEncodeError, [])])
    [] [] [src_From_EnumEncodeError_D_F_GenericEncodeError_from].

(* oct/src/error/generic_encode_error.rs:128 *)
Definition src_From_Infallible_GenericEncodeError_from : fn := Fn id_from [] [((PVar id__value), (YPath [(id_Infallible, [])]))] (YPath [(id_Self, [])])
    (ECall (EPath [(id_unreachable_unchecked, [])]) []).

(* oct/src/error/generic_encode_error.rs:126 *)
Definition src_From_Infallible_GenericEncodeError : impl :=
  Impl [] [] [] (Some [(id_From, [(YPath [(id_Infallible, [])])])]) (YPath [(id_GenericEncodeError, [])])
    [] [] [src_From_Infallible_GenericEncodeError_from].

(* oct/src/error/generic_encode_error.rs:137 *)
Definition src_From_IsizeEncodeError_GenericEncodeError_from : fn := Fn id_from [] [((PVar id_value), (YPath [(id_IsizeEncodeError, [])]))] (YPath [(id_Self, [])])
    (ECall (EPath [(id_Self, []); (id_LargeIsize, [])]) [(EPath [(id_value, [])])]).

(* oct/src/error/generic_encode_error.rs:135 *)
Definition src_From_IsizeEncodeError_GenericEncodeError : impl :=
  Impl [] [] [] (Some [(id_From, [(YPath [(id_IsizeEncodeError, [])])])]) (YPath [(id_GenericEncodeError, [])])
    [] [] [src_From_IsizeEncodeError_GenericEncodeError_from].

(* oct/src/error/generic_encode_error.rs:144 *)
Definition src_From_ItemEncodeError_I_E_GenericEncodeError_from : fn := Fn id_from [] [((PVar id_value), (YPath [(id_ItemEncodeError, [(YPath [(id_I, [])]); (YPath [(id_E, [])])])]))] (YPath [(id_Self, [])])
    (EMethod (EField (EPath [(id_value, [])]) id_error) id_into [] []).

(* oct/src/error/generic_encode_error.rs:142 *)
Definition src_From_ItemEncodeError_I_E_GenericEncodeError : impl :=
  Impl [id_I; id_E] [] [((YPath [(id_E, [])]), [(id_Into, [(YPath [(id_Self, [])])])])] (Some [(id_From, [(YPath [(id_ItemEncodeError, [(YPath [(id_I, [])]); (YPath [(id_E, [])])])])])]) (YPath [(id_GenericEncodeError, [])])
    [] [] [src_From_ItemEncodeError_I_E_GenericEncodeError_from].

(* oct/src/error/generic_encode_error.rs:151 *)
Definition src_From_UsizeEncodeError_GenericEncodeError_from : fn := Fn id_from [] [((PVar id_value), (YPath [(id_UsizeEncodeError, [])]))] (YPath [(id_Self, [])])
    (ECall (EPath [(id_Self, []); (id_LargeUsize, [])]) [(EPath [(id_value, [])])]).

(* oct/src/error/generic_encode_error.rs:149 *)
Definition src_From_UsizeEncodeError_GenericEncodeError : impl :=
  Impl [] [] [] (Some [(id_From, [(YPath [(id_UsizeEncodeError, [])])])]) (YPath [(id_GenericEncodeError, [])])
    [] [] [src_From_UsizeEncodeError_GenericEncodeError_from].

(* oct/src/error/input_error.rs:43 *)
Definition src_Display_InputError_fmt : fn := Fn id_fmt [] [((PVar id_self), (YPath [(id_Self, [])])); ((PVar id_f), (YRef true (YPath [(id_Formatter, [])])))] (YPath [(id_fmt, []); (id_Result, [])])
    (EMacro id_write [(EPath [(id_f, [])]); (EStr (txt "cannot read ({}) bytes at ({}) from input stream with capacity of ({})")); (EField (EPath [(id_self, [])]) id_count); (EField (EPath [(id_self, [])]) id_position); (EField (EPath [(id_self, [])]) id_capacity)]).

(* oct/src/error/input_error.rs:41 *)
Definition src_Display_InputError : impl :=
  Impl [] [] [] (Some [(id_Display, [])]) (YPath [(id_InputError, [])])
    [] [] [src_Display_InputError_fmt].

(* oct/src/error/input_error.rs:54 *)
Definition src_Error_InputError : impl :=
  Impl [] [] [] (Some [(id_Error, [])]) (YPath [(id_InputError, [])])
    [] [] [].

(* oct/src/error/isize_encode_error.rs:37 *)
Definition src_Display_IsizeEncodeError_fmt : fn := Fn id_fmt [] [((PVar id_self), (YPath [(id_Self, [])])); ((PVar id_f), (YRef true (YPath [(id_Formatter, [])])))] (YPath [(id_fmt, []); (id_Result, [])])
    (EMacro id_write [(EPath [(id_f, [])]); (EStr (txt "signed size value ({}) cannot be serialised: must be in the range ({}) to ({})")); (EIdx (EPath [(id_self, [])]) 0); (EPath [(id_i16, []); (id_MIN, [])]); (EPath [(id_i16, []); (id_MAX, [])])]).

(* oct/src/error/isize_encode_error.rs:35 *)
Definition src_Display_IsizeEncodeError : impl :=
  Impl [] [] [] (Some [(id_Display, [])]) (YPath [(id_IsizeEncodeError, [])])
    [] [] [src_Display_IsizeEncodeError_fmt].

(* oct/src/error/isize_encode_error.rs:48 *)
Definition src_Error_IsizeEncodeError : impl :=
  Impl [] [] [] (Some [(id_Error, [])]) (YPath [(id_IsizeEncodeError, [])])
    [] [] [].

(* oct/src/error/item_decode_error.rs:45 *)
Definition src_Display_ItemDecodeError_I_E_fmt : fn := Fn id_fmt [] [((PVar id_self), (YPath [(id_Self, [])])); ((PVar id_f), (YRef true (YPath [(id_Formatter, [])])))] (YPath [(id_fmt, []); (id_Result, [])])
    (EMacro id_write [(EPath [(id_f, [])]); (EStr (txt "could not decode item at `{}`: {}")); (EField (EPath [(id_self, [])]) id_index); (EField (EPath [(id_self, [])]) id_error)]).

(* oct/src/error/item_decode_error.rs:39 *)
Definition src_Display_ItemDecodeError_I_E : impl :=
  Impl [id_I; id_E] [] [((YPath [(id_I, [])]), [(id_Display, [])]); ((YPath [(id_E, [])]), [(id_Display, [])])] (Some [(id_Display, [])]) (YPath [(id_ItemDecodeError, [(YPath [(id_I, [])]); (YPath [(id_E, [])])])])
    [] [] [src_Display_ItemDecodeError_I_E_fmt].

(* oct/src/error/item_decode_error.rs:56 *)
Definition src_Error_ItemDecodeError_I_E_source : fn := Fn id_source [] [((PVar id_self), (YPath [(id_Self, [])]))] (YPath [(id_Option, [(YRef false YDyn)])])
    (ECall (EPath [(id_Some, [])]) [(ERef (EField (EPath [(id_self, [])]) id_error))]).

(* oct/src/error/item_decode_error.rs:50 *)
Definition src_Error_ItemDecodeError_I_E : impl :=
  Impl [id_I; id_E] [] [((YPath [(id_Self, [])]), [(id_Debug, [])]); ((YPath [(id_Self, [])]), [(id_Display, [])]); ((YPath [(id_E, [])]), [(id_Error, [])])] (Some [(id_Error, [])]) (YPath [(id_ItemDecodeError, [(YPath [(id_I, [])]); (YPath [(id_E, [])])])])
    [] [] [src_Error_ItemDecodeError_I_E_source].

(* oct/src/error/item_decode_error.rs:63 *)
Definition src_From_ItemDecodeError_I_E_Infallible_from : fn := Fn id_from [] [((PVar id__value), (YPath [(id_ItemDecodeError, [(YPath [(id_I, [])]); (YPath [(id_E, [])])])]))] (YPath [(id_Self, [])])
    (EMacro id_unreachable []).

(* oct/src/error/item_decode_error.rs:61 *)
Definition src_From_ItemDecodeError_I_E_Infallible : impl :=
  Impl [id_I; id_E] [] [] (Some [(id_From, [(YPath [(id_ItemDecodeError, [(YPath [(id_I, [])]); (YPath [(id_E, [])])])])])]) (YPath [(id_Infallible, [])])
    [] [] [src_From_ItemDecodeError_I_E_Infallible_from].

(* oct/src/error/item_encode_error.rs:45 *)
Definition src_Display_ItemEncodeError_I_E_fmt : fn := Fn id_fmt [] [((PVar id_self), (YPath [(id_Self, [])])); ((PVar id_f), (YRef true (YPath [(id_Formatter, [])])))] (YPath [(id_fmt, []); (id_Result, [])])
    (EMacro id_write [(EPath [(id_f, [])]); (EStr (txt "could not encode item at `{}`: {}")); (EField (EPath [(id_self, [])]) id_index); (EField (EPath [(id_self, [])]) id_error)]).

(* oct/src/error/item_encode_error.rs:39 *)
Definition src_Display_ItemEncodeError_I_E : impl :=
  Impl [id_I; id_E] [] [((YPath [(id_I, [])]), [(id_Display, [])]); ((YPath [(id_E, [])]), [(id_Display, [])])] (Some [(id_Display, [])]) (YPath [(id_ItemEncodeError, [(YPath [(id_I, [])]); (YPath [(id_E, [])])])])
    [] [] [src_Display_ItemEncodeError_I_E_fmt].

(* oct/src/error/item_encode_error.rs:56 *)
Definition src_Error_ItemEncodeError_I_E_source : fn := Fn id_source [] [((PVar id_self), (YPath [(id_Self, [])]))] (YPath [(id_Option, [(YRef false YDyn)])])
    (ECall (EPath [(id_Some, [])]) [(ERef (EField (EPath [(id_self, [])]) id_error))]).

(* oct/src/error/item_encode_error.rs:50 *)
Definition src_Error_ItemEncodeError_I_E : impl :=
  Impl [id_I; id_E] [] [((YPath [(id_Self, [])]), [(id_Debug, [])]); ((YPath [(id_Self, [])]), [(id_Display, [])]); ((YPath [(id_E, [])]), [(id_Error, [])])] (Some [(id_Error, [])]) (YPath [(id_ItemEncodeError, [(YPath [(id_I, [])]); (YPath [(id_E, [])])])])
    [] [] [src_Error_ItemEncodeError_I_E_source].

(* oct/src/error/item_encode_error.rs:63 *)
Definition src_From_ItemEncodeError_I_E_Infallible_from : fn := Fn id_from [] [((PVar id__value), (YPath [(id_ItemEncodeError, [(YPath [(id_I, [])]); (YPath [(id_E, [])])])]))] (YPath [(id_Self, [])])
    (EMacro id_unreachable []).

(* oct/src/error/item_encode_error.rs:61 *)
Definition src_From_ItemEncodeError_I_E_Infallible : impl :=
  Impl [id_I; id_E] [] [((YPath [(id_E, [])]), [(id_Into, [(YPath [(id_Self, [])])])])] (Some [(id_From, [(YPath [(id_ItemEncodeError, [(YPath [(id_I, [])]); (YPath [(id_E, [])])])])])]) (YPath [(id_Infallible, [])])
    [] [] [src_From_ItemEncodeError_I_E_Infallible_from].

(* oct/src/error/length_error.rs:45 *)
Definition src_Display_LengthError_fmt : fn := Fn id_fmt [] [((PVar id_self), (YPath [(id_Self, [])])); ((PVar id_f), (YRef true (YPath [(id_Formatter, [])])))] (YPath [(id_fmt, []); (id_Result, [])])
    (EMacro id_write [(EPath [(id_f, [])]); (EStr (txt "collection of size ({}) cannot hold ({}) elements")); (EField (EPath [(id_self, [])]) id_capacity); (EField (EPath [(id_self, [])]) id_len)]).

(* oct/src/error/length_error.rs:43 *)
Definition src_Display_LengthError : impl :=
  Impl [] [] [] (Some [(id_Display, [])]) (YPath [(id_LengthError, [])])
    [] [] [src_Display_LengthError_fmt].

(* oct/src/error/length_error.rs:50 *)
Definition src_Error_LengthError : impl :=
  Impl [] [] [] (Some [(id_Error, [])]) (YPath [(id_LengthError, [])])
    [] [] [].

(* oct/src/error/non_zero_decode_error.rs:33 *)
Definition src_Display_NonZeroDecodeError_fmt : fn := Fn id_fmt [] [((PVar id_self), (YPath [(id_Self, [])])); ((PVar id_f), (YRef true (YPath [(id_Formatter, [])])))] (YPath [(id_fmt, []); (id_Result, [])])
    (EMacro id_write [(EPath [(id_f, [])]); (EStr (txt "expected non-zero integer but found `0`"))]).

(* oct/src/error/non_zero_decode_error.rs:31 *)
Definition src_Display_NonZeroDecodeError : impl :=
  Impl [] [] [] (Some [(id_Display, [])]) (YPath [(id_NonZeroDecodeError, [])])
    [] [] [src_Display_NonZeroDecodeError_fmt].

(* oct/src/error/non_zero_decode_error.rs:38 *)
Definition src_Error_NonZeroDecodeError : impl :=
  Impl [] [] [] (Some [(id_Error, [])]) (YPath [(id_NonZeroDecodeError, [])])
    [] [] [].

(* oct/src/error/output_error.rs:43 *)
Definition src_Display_OutputError_fmt : fn := Fn id_fmt [] [((PVar id_self), (YPath [(id_Self, [])])); ((PVar id_f), (YRef true (YPath [(id_Formatter, [])])))] (YPath [(id_fmt, []); (id_Result, [])])
    (EMacro id_write [(EPath [(id_f, [])]); (EStr (txt "cannot write ({}) bytes at ({}) to output stream with capacity of ({})")); (EField (EPath [(id_self, [])]) id_count); (EField (EPath [(id_self, [])]) id_position); (EField (EPath [(id_self, [])]) id_capacity)]).

(* oct/src/error/output_error.rs:41 *)
Definition src_Display_OutputError : impl :=
  Impl [] [] [] (Some [(id_Display, [])]) (YPath [(id_OutputError, [])])
    [] [] [src_Display_OutputError_fmt].

(* oct/src/error/output_error.rs:54 *)
Definition src_Error_OutputError : impl :=
  Impl [] [] [] (Some [(id_Error, [])]) (YPath [(id_OutputError, [])])
    [] [] [].

(* oct/src/error/ref_cell_encode_error.rs:43 *)
Definition src_Display_RefCellEncodeError_E_fmt : fn := Fn id_fmt [] [((PVar id_self), (YPath [(id_Self, [])])); ((PVar id_f), (YRef true (YPath [(id_Formatter, [])])))] (YPath [(id_fmt, []); (id_Result, [])])
    (ELet (PVar id_e) (Some (YRef false YDyn)) (Some (EMatch (EDeref (EPath [(id_self, [])])) [((PCon [(id_Self, []); (id_BadBorrow, [])] [(PVar id_e)]), (EPath [(id_e, [])])); ((PCon [(id_Self, []); (id_BadValue, [])] [(PVar id_e)]), (EPath [(id_e, [])]))])) None
      (EMacro id_write [(EPath [(id_f, [])]); (EStr (txt "unable to encode reference cell: {e}"))])).

(* oct/src/error/ref_cell_encode_error.rs:41 *)
Definition src_Display_RefCellEncodeError_E : impl :=
  Impl [id_E] [] [((YPath [(id_E, [])]), [(id_Display, [])])] (Some [(id_Display, [])]) (YPath [(id_RefCellEncodeError, [(YPath [(id_E, [])])])])
    [] [] [src_Display_RefCellEncodeError_E_fmt].

(* oct/src/error/ref_cell_encode_error.rs:56 *)
Definition src_Error_RefCellEncodeError_E_source : fn := Fn id_source [] [((PVar id_self), (YPath [(id_Self, [])]))] (YPath [(id_Option, [(YRef false YDyn)])])
    (EMatch (EDeref (EPath [(id_self, [])])) [((PCon [(id_Self, []); (id_BadBorrow, [])] [(PVar id_e)]), (ECall (EPath [(id_Some, [])]) [(EPath [(id_e, [])])])); ((PCon [(id_Self, []); (id_BadValue, [])] [(PVar id_e)]), (ECall (EPath [(id_Some, [])]) [(EPath [(id_e, [])])]))]).

(* oct/src/error/ref_cell_encode_error.rs:54 *)
Definition src_Error_RefCellEncodeError_E : impl :=
  Impl [id_E] [] [((YPath [(id_E, [])]), [(id_Error, [])])] (Some [(id_Error, [])]) (YPath [(id_RefCellEncodeError, [(YPath [(id_E, [])])])])
    [] [] [src_Error_RefCellEncodeError_E_source].

(* oct/src/error/string_error.rs:44 *)
Definition src_Display_StringError_fmt : fn := Fn id_fmt [] [((PVar id_self), (YPath [(id_Self, [])])); ((PVar id_f), (YRef true (YPath [(id_Formatter, [])])))] (YPath [(id_fmt, []); (id_Result, [])])
    (EMatch (EDeref (EPath [(id_self, [])])) [((PCon [(id_Self, []); (id_BadUtf16, [])] [(PVar id_e)]), (EMacro id_write [(EPath [(id_f, [])]); (EStr (txt "bad utf-16: {e}"))])); ((PCon [(id_Self, []); (id_BadUtf8, [])] [(PVar id_e)]), (EMacro id_write [(EPath [(id_f, [])]); (EStr (txt "bad utf-8: {e}"))])); ((PCon [(id_Self, []); (id_SmallBuffer, [])] [(PVar id_e)]), (EMacro id_write [(EPath [(id_f, [])]); (EStr (txt "buffer too small: {e}"))]))]).

(* oct/src/error/string_error.rs:42 *)
Definition src_Display_StringError : impl :=
  Impl [] [] [] (Some [(id_Display, [])]) (YPath [(id_StringError, [])])
    [] [] [src_Display_StringError_fmt].

(* oct/src/error/string_error.rs:60 *)
Definition src_Error_StringError_source : fn := Fn id_source [] [((PVar id_self), (YPath [(id_Self, [])]))] (YPath [(id_Option, [(YRef false YDyn)])])
    (EMatch (EDeref (EPath [(id_self, [])])) [((PCon [(id_Self, []); (id_BadUtf16, [])] [(PVar id_e)]), (ECall (EPath [(id_Some, [])]) [(EPath [(id_e, [])])])); ((PCon [(id_Self, []); (id_BadUtf8, [])] [(PVar id_e)]), (ECall (EPath [(id_Some, [])]) [(EPath [(id_e, [])])])); ((PCon [(id_Self, []); (id_SmallBuffer, [])] [(PVar id_e)]), (ECall (EPath [(id_Some, [])]) [(EPath [(id_e, [])])]))]).

(* oct/src/error/string_error.rs:58 *)
Definition src_Error_StringError : impl :=
  Impl [] [] [] (Some [(id_Error, [])]) (YPath [(id_StringError, [])])
    [] [] [src_Error_StringError_source].

(* oct/src/error/system_time_decode_error.rs:40 *)
Definition src_Display_SystemTimeDecodeError_fmt : fn := Fn id_fmt [] [((PVar id_self), (YPath [(id_Self, [])])); ((PVar id_f), (YRef true (YPath [(id_Formatter, [])])))] (YPath [(id_fmt, []); (id_Result, [])])
    (EMacro id_write [(EPath [(id_f, [])]); (EStr (txt "could not represent `{}` as a system timestamp")); (EField (EPath [(id_self, [])]) id_timestamp)]).

(* oct/src/error/system_time_decode_error.rs:38 *)
Definition src_Display_SystemTimeDecodeError : impl :=
  Impl [] [] [] (Some [(id_Display, [])]) (YPath [(id_SystemTimeDecodeError, [])])
    [] [] [src_Display_SystemTimeDecodeError_fmt].

(* oct/src/error/system_time_decode_error.rs:46 *)
Definition src_Error_SystemTimeDecodeError : impl :=
  Impl [] [] [] (Some [(id_Error, [])]) (YPath [(id_SystemTimeDecodeError, [])])
    [] [] [].

(* oct/src/error/usize_encode_error.rs:37 *)
Definition src_Display_UsizeEncodeError_fmt : fn := Fn id_fmt [] [((PVar id_self), (YPath [(id_Self, [])])); ((PVar id_f), (YRef true (YPath [(id_Formatter, [])])))] (YPath [(id_fmt, []); (id_Result, [])])
    (EMacro id_write [(EPath [(id_f, [])]); (EStr (txt "unsigned size value ({}) cannot be serialised: must be at most ({})")); (EIdx (EPath [(id_self, [])]) 0); (EPath [(id_u16, []); (id_MAX, [])])]).

(* oct/src/error/usize_encode_error.rs:35 *)
Definition src_Display_UsizeEncodeError : impl :=
  Impl [] [] [] (Some [(id_Display, [])]) (YPath [(id_UsizeEncodeError, [])])
    [] [] [src_Display_UsizeEncodeError_fmt].

(* oct/src/error/usize_encode_error.rs:47 *)
Definition src_Error_UsizeEncodeError : impl :=
  Impl [] [] [] (Some [(id_Error, [])]) (YPath [(id_UsizeEncodeError, [])])
    [] [] [].

(* oct/src/error/utf16_error.rs:38 *)
Definition src_Display_Utf16Error_fmt : fn := Fn id_fmt [] [((PVar id_self), (YPath [(id_Self, [])])); ((PVar id_f), (YRef true (YPath [(id_Formatter, [])])))] (YPath [(id_fmt, []); (id_Result, [])])
    (EMacro id_write [(EPath [(id_f, [])]); (EStr (txt "found invalid utf-16 hextet {:#04X} at offset ({})")); (EField (EPath [(id_self, [])]) id_value); (EField (EPath [(id_self, [])]) id_index)]).

(* oct/src/error/utf16_error.rs:36 *)
Definition src_Display_Utf16Error : impl :=
  Impl [] [] [] (Some [(id_Display, [])]) (YPath [(id_Utf16Error, [])])
    [] [] [src_Display_Utf16Error_fmt].

(* oct/src/error/utf16_error.rs:43 *)
Definition src_Error_Utf16Error : impl :=
  Impl [] [] [] (Some [(id_Error, [])]) (YPath [(id_Utf16Error, [])])
    [] [] [].

(* oct/src/error/utf8_error.rs:38 *)
Definition src_Display_Utf8Error_fmt : fn := Fn id_fmt [] [((PVar id_self), (YPath [(id_Self, [])])); ((PVar id_f), (YRef true (YPath [(id_Formatter, [])])))] (YPath [(id_fmt, []); (id_Result, [])])
    (EMacro id_write [(EPath [(id_f, [])]); (EStr (txt "found invalid utf-8 octet {:#02X} at offset ({})")); (EField (EPath [(id_self, [])]) id_value); (EField (EPath [(id_self, [])]) id_index)]).

(* oct/src/error/utf8_error.rs:36 *)
Definition src_Display_Utf8Error : impl :=
  Impl [] [] [] (Some [(id_Display, [])]) (YPath [(id_Utf8Error, [])])
    [] [] [src_Display_Utf8Error_fmt].

(* oct/src/error/utf8_error.rs:43 *)
Definition src_Error_Utf8Error : impl :=
  Impl [] [] [] (Some [(id_Error, [])]) (YPath [(id_Utf8Error, [])])
    [] [] [].

(* all of them, in the order of the files *)
Definition src_errors_impls : list impl := [src_Display_CStringDecodeError; src_Error_CStringDecodeError; src_Display_CharDecodeError; src_Error_CharDecodeError; src_Display_CollectionDecodeError_L_I; src_Error_CollectionDecodeError_L_I; src_From_CollectionDecodeError_L_I_Infallible; src_Display_CollectionEncodeError_L_I; src_Error_CollectionEncodeError_L_I; src_From_CollectionEncodeError_L_I_Infallible; src_Display_EnumDecodeError_D_F; src_Error_EnumDecodeError_D_F; src_From_EnumDecodeError_D_F_Infallible; src_Display_EnumEncodeError_D_F; src_Error_EnumEncodeError_D_F; src_From_EnumEncodeError_D_F_Infallible; src_Display_GenericDecodeError; src_Error_GenericDecodeError; src_From_CollectionDecodeError_L_I_GenericDecodeError; src_From_CStringDecodeError_GenericDecodeError; src_From_EnumDecodeError_D_F_GenericDecodeError; src_From_Infallible_GenericDecodeError; src_From_ItemDecodeError_I_E_GenericDecodeError; src_From_NonZeroDecodeError_GenericDecodeError; src_From_LengthError_GenericDecodeError; src_From_SystemTimeDecodeError_GenericDecodeError; src_From_Utf8Error_GenericDecodeError; src_Display_GenericEncodeError; src_Error_GenericEncodeError; src_From_BorrowError_GenericEncodeError; src_From_CollectionEncodeError_L_I_GenericEncodeError; src_From_EnumEncodeError_D_F_GenericEncodeError; src_From_Infallible_GenericEncodeError; src_From_IsizeEncodeError_GenericEncodeError; src_From_ItemEncodeError_I_E_GenericEncodeError; src_From_UsizeEncodeError_GenericEncodeError; src_Display_InputError; src_Error_InputError; src_Display_IsizeEncodeError; src_Error_IsizeEncodeError; src_Display_ItemDecodeError_I_E; src_Error_ItemDecodeError_I_E; src_From_ItemDecodeError_I_E_Infallible; src_Display_ItemEncodeError_I_E; src_Error_ItemEncodeError_I_E; src_From_ItemEncodeError_I_E_Infallible; src_Display_LengthError; src_Error_LengthError; src_Display_NonZeroDecodeError; src_Error_NonZeroDecodeError; src_Display_OutputError; src_Error_OutputError; src_Display_RefCellEncodeError_E; src_Error_RefCellEncodeError_E; src_Display_StringError; src_Error_StringError; src_Display_SystemTimeDecodeError; src_Error_SystemTimeDecodeError; src_Display_UsizeEncodeError; src_Error_UsizeEncodeError; src_Display_Utf16Error; src_Error_Utf16Error; src_Display_Utf8Error; src_Error_Utf8Error].
