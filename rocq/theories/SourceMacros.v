(* Generated by tools/rust2v.py from oct-macros/src. Do not edit. *)
From Coq Require Import String.
From Verif Require Import Base SourceNames SourceSyntax MacroSyntax.
Local Open Scope list_scope.

(* oct-macros/src/lib.rs:54 *)
Definition src_quote_0 : list tmpl :=
  [(QTok (TPunct (txt "::"))); (QTok (TId (txt "oct"))); (QTok (TPunct (txt "::"))); (QTok (TId (txt "decode"))); (QTok (TPunct (txt "::"))); (QTok (TId (txt "Decode")))].

(* oct-macros/src/lib.rs:71 *)
Definition src_quote_1 : list tmpl :=
  [(QTok (TPunct (txt "::"))); (QTok (TId (txt "oct"))); (QTok (TPunct (txt "::"))); (QTok (TId (txt "encode"))); (QTok (TPunct (txt "::"))); (QTok (TId (txt "Encode")))].

(* oct-macros/src/lib.rs:88 *)
Definition src_quote_2 : list tmpl :=
  [(QTok (TPunct (txt "::"))); (QTok (TId (txt "oct"))); (QTok (TPunct (txt "::"))); (QTok (TId (txt "encode"))); (QTok (TPunct (txt "::"))); (QTok (TId (txt "SizedEncode")))].

(* oct-macros/src/lib.rs:49 *)
Definition src_fn_derive_decode : fn := Fn id_derive_decode [] [((PVar id_input), (YPath [(id_TokenStream, [])]))] (YPath [(id_TokenStream, [])])
    (ELet (PVar id_input) None (Some (EMacro id_parse_macro_input [(ECast (EPath [(id_input, [])]) (YPath [(id_DeriveInput, [])]))])) None
      (ELet (PVar id_output) None (Some (ECall (EPath [(id_impl_derive_macro, [])]) [(EPath [(id_input, [])]); (EMethod (ECall (EPath [(id_parse2, [])]) [(EMacro id_quote [(EInt (0)%Z None)])]) id_unwrap [] []); (EPath [(id_None, [])]); (EPath [(id_impls, []); (id_decode_struct, [])]); (EPath [(id_impls, []); (id_decode_enum, [])])])) None
      (EMethod (EPath [(id_output, [])]) id_into [] []))).

(* oct-macros/src/lib.rs:66 *)
Definition src_fn_derive_encode : fn := Fn id_derive_encode [] [((PVar id_input), (YPath [(id_TokenStream, [])]))] (YPath [(id_TokenStream, [])])
    (ELet (PVar id_input) None (Some (EMacro id_parse_macro_input [(ECast (EPath [(id_input, [])]) (YPath [(id_DeriveInput, [])]))])) None
      (ELet (PVar id_output) None (Some (ECall (EPath [(id_impl_derive_macro, [])]) [(EPath [(id_input, [])]); (EMethod (ECall (EPath [(id_parse2, [])]) [(EMacro id_quote [(EInt (1)%Z None)])]) id_unwrap [] []); (EPath [(id_None, [])]); (EPath [(id_impls, []); (id_encode_struct, [])]); (EPath [(id_impls, []); (id_encode_enum, [])])])) None
      (EMethod (EPath [(id_output, [])]) id_into [] []))).

(* oct-macros/src/lib.rs:83 *)
Definition src_fn_derive_sized_encode : fn := Fn id_derive_sized_encode [] [((PVar id_input), (YPath [(id_TokenStream, [])]))] (YPath [(id_TokenStream, [])])
    (ELet (PVar id_input) None (Some (EMacro id_parse_macro_input [(ECast (EPath [(id_input, [])]) (YPath [(id_DeriveInput, [])]))])) None
      (ELet (PVar id_output) None (Some (ECall (EPath [(id_impl_derive_macro, [])]) [(EPath [(id_input, [])]); (EMethod (ECall (EPath [(id_parse2, [])]) [(EMacro id_quote [(EInt (2)%Z None)])]) id_unwrap [] []); (EPath [(id_None, [])]); (EPath [(id_impls, []); (id_sized_encode_struct, [])]); (EPath [(id_impls, []); (id_sized_encode_enum, [])])])) None
      (EMethod (EPath [(id_output, [])]) id_into [] []))).

(* oct-macros/src/impl_derive_macro.rs:71 *)
Definition src_quote_3 : list tmpl :=
  [(QHole id_unsafe_token); (QTok (TId (txt "impl"))); (QTok (TPunct (txt "<"))); (QHole id_generic_params); (QTok (TPunct (txt ">"))); (QHole id_trait_path); (QTok (TId (txt "for"))); (QHole id_self_name); (QTok (TPunct (txt "<"))); (QHole id_generic_names); (QTok (TPunct (txt ">"))); (QHole id_generic_where); (QGroup DBrace [(QHole id_body)])].

(* oct-macros/src/impl_derive_macro.rs:35 *)
Definition src_fn_impl_derive_macro : fn := Fn id_impl_derive_macro [id_S; id_E] [((PVar id_input), (YPath [(id_DeriveInput, [])])); ((PVar id_trait_path), (YPath [(id_Path, [])])); ((PVar id_unsafe_token), (YPath [(id_Option, [(YPath [(id_Token, [])])])])); ((PVar id_struct_body), (YPath [(id_S, [])])); ((PVar id_enum_body), (YPath [(id_E, [])]))] (YPath [(id_TokenStream, [])])
    (ELet (PVar id_trait_name) None (Some (ERef (EField (EMethod (EMethod (EField (EPath [(id_trait_path, [])]) id_segments) id_last [] []) id_expect [] [(EStr (txt "expected non-empty path for derived trait"))]) id_ident))) None
      (ELet (PVar id_self_name) None (Some (ERef (EField (EPath [(id_input, [])]) id_ident))) None
      (ELet (PVar id_body) None (Some (EMatch (EField (EPath [(id_input, [])]) id_data) [((PCon [(id_Data, []); (id_Struct, [])] [(PVar id_data)]), (ECall (EPath [(id_struct_body, [])]) [(EPath [(id_data, [])])])); ((PCon [(id_Data, []); (id_Enum, [])] [(PVar id_data)]), (ELet (PVar id_repr) None (Some (EMethod (ECall (EPath [(id_Repr, []); (id_get, [])]) [(ERef (EField (EPath [(id_input, [])]) id_attrs))]) id_unwrap_or_default [] [])) None
      (ECall (EPath [(id_enum_body, [])]) [(EPath [(id_data, [])]); (EPath [(id_repr, [])])]))); ((PCon [(id_Data, []); (id_Union, [])] [PRest]), (EMacro id_panic [(EStr (txt "unions cannot derive `{trait_name:?}`"))]))])) None
      (ELet (PVar id_generic_params) None (Some (ERef (EField (EField (EPath [(id_input, [])]) id_generics) id_params))) None
      (ELet (PVar id_generic_where) None (Some (ERef (EField (EField (EPath [(id_input, [])]) id_generics) id_where_clause))) None
      (ELet (PVar id_generic_names) None (Some (ECall (EPath [(id_GenericName, []); (id_extract_from, [])]) [(ERef (EField (EPath [(id_input, [])]) id_generics))])) None
      (ELet (PVar id_output) None (Some (EMacro id_quote [(EInt (3)%Z None)])) None
      (EPath [(id_output, [])])))))))).

(* oct-macros/src/repr/mod.rs:58, a loop in it *)
Definition src_impl_Repr_get_loop0 : expr :=
    (EIf (EMethod (EMethod (EPath [(id_attr, [])]) id_path [] []) id_is_ident [] [(EStr (txt "repr"))]) (ESeq (EMethod (EMethod (EPath [(id_attr, [])]) id_parse_nested_meta [] [(EClosure [(PVar id_meta)] (ELet (PVar id_ident) None (Some (ETry (EMethod (EField (EPath [(id_meta, [])]) id_path) id_require_ident [] []))) None
      (ESeq (EIf (EBin OEq (EPath [(id_ident, [])]) (EStr (txt "u8"))) (EAssign None (EPath [(id_this, [])]) (ECall (EPath [(id_Some, [])]) [(EPath [(id_Self, []); (id_U8, [])])])) (EIf (EBin OEq (EPath [(id_ident, [])]) (EStr (txt "i8"))) (EAssign None (EPath [(id_this, [])]) (ECall (EPath [(id_Some, [])]) [(EPath [(id_Self, []); (id_I8, [])])])) (EIf (EBin OEq (EPath [(id_ident, [])]) (EStr (txt "u16"))) (EAssign None (EPath [(id_this, [])]) (ECall (EPath [(id_Some, [])]) [(EPath [(id_Self, []); (id_U16, [])])])) (EIf (EBin OEq (EPath [(id_ident, [])]) (EStr (txt "i16"))) (EAssign None (EPath [(id_this, [])]) (ECall (EPath [(id_Some, [])]) [(EPath [(id_Self, []); (id_I16, [])])])) (EIf (EBin OEq (EPath [(id_ident, [])]) (EStr (txt "u32"))) (EAssign None (EPath [(id_this, [])]) (ECall (EPath [(id_Some, [])]) [(EPath [(id_Self, []); (id_U32, [])])])) (EIf (EBin OEq (EPath [(id_ident, [])]) (EStr (txt "i32"))) (EAssign None (EPath [(id_this, [])]) (ECall (EPath [(id_Some, [])]) [(EPath [(id_Self, []); (id_I32, [])])])) (EIf (EBin OEq (EPath [(id_ident, [])]) (EStr (txt "u64"))) (EAssign None (EPath [(id_this, [])]) (ECall (EPath [(id_Some, [])]) [(EPath [(id_Self, []); (id_U64, [])])])) (EIf (EBin OEq (EPath [(id_ident, [])]) (EStr (txt "i64"))) (EAssign None (EPath [(id_this, [])]) (ECall (EPath [(id_Some, [])]) [(EPath [(id_Self, []); (id_I64, [])])])) (EIf (EBin OEq (EPath [(id_ident, [])]) (EStr (txt "u128"))) (EAssign None (EPath [(id_this, [])]) (ECall (EPath [(id_Some, [])]) [(EPath [(id_Self, []); (id_U128, [])])])) (EIf (EBin OEq (EPath [(id_ident, [])]) (EStr (txt "i128"))) (EAssign None (EPath [(id_this, [])]) (ECall (EPath [(id_Some, [])]) [(EPath [(id_Self, []); (id_I128, [])])])) (EIf (EBin OEq (EPath [(id_ident, [])]) (EStr (txt "usize"))) (EAssign None (EPath [(id_this, [])]) (ECall (EPath [(id_Some, [])]) [(EPath [(id_Self, []); (id_Usize, [])])])) (EIf (EBin OEq (EPath [(id_ident, [])]) (EStr (txt "isize"))) (EAssign None (EPath [(id_this, [])]) (ECall (EPath [(id_Some, [])]) [(EPath [(id_Self, []); (id_Isize, [])])])) (EMacro id_panic [(EStr (txt "`{ident}` is not a derivable enumeration representation"))]))))))))))))) (ECall (EPath [(id_Ok, [])]) [(ETuple [])]))))]) id_unwrap [] []) EUnit) EUnit).

(* oct-macros/src/repr/mod.rs:58 *)
Definition src_impl_Repr_get : fn := Fn id_get [] [((PVar id_attrs), (YRef false (YSlice (YPath [(id_Attribute, [])]))))] (YPath [(id_Option, [(YPath [(id_Self, [])])])])
    (ELet (PVar id_this) None (Some (EPath [(id_None, [])])) None
      (ESeq (EFor (PVar id_attr) (EPath [(id_attrs, [])]) src_impl_Repr_get_loop0) (EPath [(id_this, [])]))).

(* oct-macros/src/repr/mod.rs:92 *)
Definition src_impl_Repr_to_str : fn := Fn id_to_str [] [((PVar id_self), (YPath [(id_Self, [])]))] (YRef false (YPath [(id_str, [])]))
    (EMatch (EPath [(id_self, [])]) [((PCon [(id_Self, []); (id_U8, [])] []), (EStr (txt "u8"))); ((PCon [(id_Self, []); (id_I8, [])] []), (EStr (txt "i8"))); ((PCon [(id_Self, []); (id_U16, [])] []), (EStr (txt "u16"))); ((PCon [(id_Self, []); (id_I16, [])] []), (EStr (txt "i16"))); ((PCon [(id_Self, []); (id_U32, [])] []), (EStr (txt "u32"))); ((PCon [(id_Self, []); (id_I32, [])] []), (EStr (txt "i32"))); ((PCon [(id_Self, []); (id_U64, [])] []), (EStr (txt "u64"))); ((PCon [(id_Self, []); (id_I64, [])] []), (EStr (txt "i64"))); ((PCon [(id_Self, []); (id_U128, [])] []), (EStr (txt "u128"))); ((PCon [(id_Self, []); (id_I128, [])] []), (EStr (txt "i128"))); ((PCon [(id_Self, []); (id_Usize, [])] []), (EStr (txt "usize"))); ((PCon [(id_Self, []); (id_Isize, [])] []), (EStr (txt "isize")))]).

(* oct-macros/src/repr/mod.rs:111 *)
Definition src_impl_Repr_to_ident : fn := Fn id_to_ident [] [((PVar id_self), (YPath [(id_Self, [])])); ((PVar id_span), (YPath [(id_Span, [])]))] (YPath [(id_Ident, [])])
    (ELet (PVar id_ident) None (Some (EMethod (EPath [(id_self, [])]) id_to_str [] [])) None
      (ECall (EPath [(id_Ident, []); (id_new, [])]) [(EPath [(id_ident, [])]); (EPath [(id_span, [])])])).

(* oct-macros/src/repr/mod.rs:119 *)
Definition src_impl_Repr_to_path : fn := Fn id_to_path [] [((PVar id_self), (YPath [(id_Self, [])])); ((PVar id_span), (YPath [(id_Span, [])]))] (YPath [(id_Path, [])])
    (ELet (PVar id_ident) None (Some (EMethod (EPath [(id_self, [])]) id_to_ident [] [(EPath [(id_span, [])])])) None
      (ERec [(id_Path, [])] [(id_leading_colon, (EPath [(id_None, [])])); (id_segments, (EMethod (ECall (EPath [(id_iter, []); (id_once, [])]) [(ERec [(id_PathSegment, [])] [(id_ident, (EPath [(id_ident, [])])); (id_arguments, (ECall (EPath [(id_Default, []); (id_default, [])]) []))])]) id_collect [] []))])).

(* oct-macros/src/repr/mod.rs:133 *)
Definition src_impl_Repr_to_type : fn := Fn id_to_type [] [((PVar id_self), (YPath [(id_Self, [])])); ((PVar id_span), (YPath [(id_Span, [])]))] (YPath [(id_Type, [])])
    (ECall (EPath [(id_Type, []); (id_Path, [])]) [(ERec [(id_TypePath, [])] [(id_qself, (EPath [(id_None, [])])); (id_path, (EMethod (EPath [(id_self, [])]) id_to_path [] [(EPath [(id_span, [])])]))])]).

(* oct-macros/src/repr/mod.rs:55 *)
Definition src_impl_Repr : impl :=
  Impl [] [] [] None (YPath [(id_Repr, [])])
    [] [] [src_impl_Repr_get; src_impl_Repr_to_str; src_impl_Repr_to_ident; src_impl_Repr_to_path; src_impl_Repr_to_type].

(* oct-macros/src/repr/mod.rs:143 *)
Definition src_Default_Repr_default : fn := Fn id_default [] [] (YPath [(id_Self, [])])
    (EPath [(id_Self, []); (id_Isize, [])]).

(* oct-macros/src/repr/mod.rs:141 *)
Definition src_Default_Repr : impl :=
  Impl [] [] [] (Some [(id_Default, [])]) (YPath [(id_Repr, [])])
    [] [] [src_Default_Repr_default].

(* oct-macros/src/repr/mod.rs:150 *)
Definition src_ToTokens_Repr_to_tokens : fn := Fn id_to_tokens [] [((PVar id_self), (YPath [(id_Self, [])])); ((PVar id_tokens), (YRef true (YPath [(id_TokenStream, [])])))] (YTup [])
    (ESeq (EMethod (EMethod (EPath [(id_self, [])]) id_to_ident [] [(ECall (EPath [(id_Span, []); (id_call_site, [])]) [])]) id_to_tokens [] [(EPath [(id_tokens, [])])]) EUnit).

(* oct-macros/src/repr/mod.rs:148 *)
Definition src_ToTokens_Repr : impl :=
  Impl [] [] [] (Some [(id_ToTokens, [])]) (YPath [(id_Repr, [])])
    [] [] [src_ToTokens_Repr_to_tokens].

(* oct-macros/src/discriminants/mod.rs:34 *)
Definition src_impl_Discriminants_I_new : fn := Fn id_new [] [((PVar id_variants), (YPath [(id_I, [])]))] (YPath [(id_Self, [])])
    (ERec [(id_Self, [])] [(id_variants, (EMethod (EPath [(id_variants, [])]) id_into_iter [] [])); (id_prev, (EPath [(id_None, [])]))]).

(* oct-macros/src/discriminants/mod.rs:31 *)
Definition src_impl_Discriminants_I : impl :=
  Impl [id_I] [] [((YPath [(id_I, [])]), [(id_IntoIterator, [])]); ((YPath [(id_I, []); (id_Item, [])]), [(id_Borrow, [(YPath [(id_Variant, [])])])])] None (YPath [(id_Discriminants, [(YPath [(id_I, [])])])])
    [] [] [src_impl_Discriminants_I_new].

(* oct-macros/src/discriminants/mod.rs:46 *)
Definition src_Iterator_Discriminants_I_next : fn := Fn id_next [] [((PVar id_self), (YPath [(id_Self, [])]))] (YPath [(id_Option, [(YPath [(id_Self, []); (id_Item, [])])])])
    (ELet (PVar id_variant) None (Some (ETry (EMethod (EField (EPath [(id_self, [])]) id_variants) id_next [] []))) None
      (ELet (PVar id_discriminant) None (Some (EIfLet (PCon [(id_Some, [])] [(PTup [PAny; (PVar id_expr)])]) (EField (EMethod (EPath [(id_variant, [])]) id_borrow [] []) id_discriminant) (ELet (PCon [(id_Expr, []); (id_Lit, [])] [(PVar id_expr)]) None (Some (EDeref (EPath [(id_expr, [])]))) (Some (ESeq (EMacro id_panic [(EStr (txt "expected literal expression for discriminant value"))]) EUnit))
      (ELet (PCon [(id_Lit, []); (id_Int, [])] [(PVar id_expr)]) None (Some (EField (EPath [(id_expr, [])]) id_lit)) (Some (ESeq (EMacro id_panic [(EStr (txt "expected (potentially signed) integer literal for discriminant value`"))]) EUnit))
      (ELet (PVar id_expr) None (Some (EMethod (EPath [(id_expr, [])]) id_base10_digits [] [])) None
      (ELet (PVar id_value) (Some (YPath [(id_u128, [])])) (Some (EMethod (EMethod (EMethod (EPath [(id_expr, [])]) id_parse [] []) id_or_else [] [(EClosure [PAny] (EMethod (EMethod (EPath [(id_expr, [])]) id_parse [(YPath [(id_i128, [])])] []) id_map [] [(EClosure [(PVar id_v)] (ECast (EPath [(id_v, [])]) (YPath [(id_u128, [])])))]))]) id_unwrap [] [])) None
      (EPath [(id_value, [])]))))) (EIfLet (PCon [(id_Some, [])] [(PVar id_prev)]) (EField (EPath [(id_self, [])]) id_prev) (EMethod (EMethod (EPath [(id_prev, [])]) id_checked_add [] [(EInt (1)%Z None)]) id_unwrap_or_else [] [(EClosure [] (EMacro id_panic [(EStr (txt "overflow following discriminant `{prev:?}`"))]))]) (ECall (EPath [(id_Default, []); (id_default, [])]) [])))) None
      (ESeq (EAssign None (EField (EPath [(id_self, [])]) id_prev) (ECall (EPath [(id_Some, [])]) [(EPath [(id_discriminant, [])])])) (ELet (PVar id_discriminant) None (Some (ECall (EPath [(id_LitInt, []); (id_new, [])]) [(ERef (EMethod (EPath [(id_discriminant, [])]) id_to_string [] [])); (ECall (EPath [(id_Span, []); (id_call_site, [])]) [])])) None
      (ECall (EPath [(id_Some, [])]) [(EPath [(id_discriminant, [])])]))))).

(* oct-macros/src/discriminants/mod.rs:82 *)
Definition src_Iterator_Discriminants_I_size_hint : fn := Fn id_size_hint [] [((PVar id_self), (YPath [(id_Self, [])]))] (YTup [(YPath [(id_usize, [])]); (YPath [(id_Option, [(YPath [(id_usize, [])])])])])
    (EMethod (EField (EPath [(id_self, [])]) id_variants) id_size_hint [] []).

(* oct-macros/src/discriminants/mod.rs:42 *)
Definition src_Iterator_Discriminants_I : impl :=
  Impl [id_I] [] [((YPath [(id_I, [])]), [(id_IntoIterator, [])]); ((YPath [(id_I, []); (id_Item, [])]), [(id_Borrow, [(YPath [(id_Variant, [])])])])] (Some [(id_Iterator, [])]) (YPath [(id_Discriminants, [(YPath [(id_I, [])])])])
    [] [(id_Item, (YPath [(id_LitInt, [])]))] [src_Iterator_Discriminants_I_next; src_Iterator_Discriminants_I_size_hint].

(* oct-macros/src/generic_name/mod.rs:51, a loop in it *)
Definition src_impl_GenericName_extract_from_loop0 : expr :=
    (ELet (PVar id_name) None (Some (EMatch (EDeref (EPath [(id_generic, [])])) [((PCon [(id_GenericParam, []); (id_Const, [])] [(PVar id_param)]), (ECall (EPath [(id_Self, []); (id_Const, [])]) [(EMethod (EField (EPath [(id_param, [])]) id_ident) id_clone [] [])])); ((PCon [(id_GenericParam, []); (id_Lifetime, [])] [(PVar id_param)]), (ECall (EPath [(id_Self, []); (id_Lifetime, [])]) [(EMethod (EField (EPath [(id_param, [])]) id_lifetime) id_clone [] [])])); ((PCon [(id_GenericParam, []); (id_Type, [])] [(PVar id_param)]), (ECall (EPath [(id_Self, []); (id_Ty, [])]) [(EMethod (EField (EPath [(id_param, [])]) id_ident) id_clone [] [])]))])) None
      (ESeq (EMethod (EPath [(id_names, [])]) id_push [] [(EPath [(id_name, [])])]) EUnit)).

(* oct-macros/src/generic_name/mod.rs:51 *)
Definition src_impl_GenericName_extract_from : fn := Fn id_extract_from [] [((PVar id_generics), (YRef false (YPath [(id_Generics, [])])))] (YPath [(id_Punctuated, [(YPath [(id_Self, [])]); (YPath [(id_Token, [])])])])
    (ELet (PVar id_names) None (Some (ECall (EPath [(id_Punctuated, []); (id_new, [])]) [])) None
      (ESeq (EFor (PVar id_generic) (ERef (EField (EPath [(id_generics, [])]) id_params)) src_impl_GenericName_extract_from_loop0) (EPath [(id_names, [])]))).

(* oct-macros/src/generic_name/mod.rs:48 *)
Definition src_impl_GenericName : impl :=
  Impl [] [] [] None (YPath [(id_GenericName, [])])
    [] [] [src_impl_GenericName_extract_from].

(* oct-macros/src/generic_name/mod.rs:70 *)
Definition src_Debug_GenericName_fmt : fn := Fn id_fmt [] [((PVar id_self), (YPath [(id_Self, [])])); ((PVar id_f), (YRef true (YPath [(id_Formatter, [])])))] (YPath [(id_fmt, []); (id_Result, [])])
    (ELet (PVar id_ident) None (Some (EMatch (EDeref (EPath [(id_self, [])])) [((POr [(PCon [(id_Self, []); (id_Const, [])] [(PVar id_ident)]); (PCon [(id_Self, []); (id_Lifetime, [])] [(PRec [(id_Lifetime, [])] [(id_ident, (PVar id_ident))])]); (PCon [(id_Self, []); (id_Ty, [])] [(PVar id_ident)])]), (EPath [(id_ident, [])]))])) None
      (ECall (EPath [(id_Debug, []); (id_fmt, [])]) [(EPath [(id_ident, [])]); (EPath [(id_f, [])])])).

(* oct-macros/src/generic_name/mod.rs:68 *)
Definition src_Debug_GenericName : impl :=
  Impl [] [] [] (Some [(id_Debug, [])]) (YPath [(id_GenericName, [])])
    [] [] [src_Debug_GenericName_fmt].

(* oct-macros/src/generic_name/mod.rs:84 *)
Definition src_ToTokens_GenericName_to_tokens : fn := Fn id_to_tokens [] [((PVar id_self), (YPath [(id_Self, [])])); ((PVar id_tokens), (YRef true (YPath [(id_TokenStream, [])])))] (YTup [])
    (EMatch (EDeref (EPath [(id_self, [])])) [((POr [(PCon [(id_Self, []); (id_Const, [])] [(PVar id_ident)]); (PCon [(id_Self, []); (id_Ty, [])] [(PVar id_ident)])]), (EMethod (EPath [(id_ident, [])]) id_to_tokens [] [(EPath [(id_tokens, [])])])); ((PCon [(id_Self, []); (id_Lifetime, [])] [(PVar id_lifetime)]), (EMethod (EPath [(id_lifetime, [])]) id_to_tokens [] [(EPath [(id_tokens, [])])]))]).

(* oct-macros/src/generic_name/mod.rs:82 *)
Definition src_ToTokens_GenericName : impl :=
  Impl [] [] [] (Some [(id_ToTokens, [])]) (YPath [(id_GenericName, [])])
    [] [] [src_ToTokens_GenericName_to_tokens].

(* oct-macros/src/impls/encode_struct.rs:36 *)
Definition src_quote_4 : list tmpl :=
  [(QTok (TId (txt "Self")))].

(* oct-macros/src/impls/encode_struct.rs:38 *)
Definition src_quote_5 : list tmpl :=
  [(QTok (TId (txt "Self"))); (QGroup DParen [(QRep [(QTok (TId (txt "ref"))); (QHole id_captures); (QTok (TPunct (txt ",")))])])].

(* oct-macros/src/impls/encode_struct.rs:46 *)
Definition src_quote_6 : list tmpl :=
  [(QTok (TId (txt "Self"))); (QGroup DBrace [(QRep [(QHole id_field_names); (QTok (TPunct (txt ":"))); (QTok (TId (txt "ref"))); (QHole id_captures); (QTok (TPunct (txt ",")))])])].

(* oct-macros/src/impls/encode_struct.rs:50 *)
Definition src_quote_7 : list tmpl :=
  [(QTok (TId (txt "type"))); (QTok (TId (txt "Error"))); (QTok (TPunct (txt "="))); (QTok (TPunct (txt "::"))); (QTok (TId (txt "oct"))); (QTok (TPunct (txt "::"))); (QTok (TId (txt "error"))); (QTok (TPunct (txt "::"))); (QTok (TId (txt "GenericEncodeError"))); (QTok (TPunct (txt ";"))); (QTok (TPunct (txt "#"))); (QGroup DBracket [(QTok (TId (txt "inline")))]); (QTok (TId (txt "fn"))); (QTok (TId (txt "encode"))); (QGroup DParen [(QTok (TPunct (txt "&"))); (QTok (TId (txt "self"))); (QTok (TPunct (txt ","))); (QTok (TId (txt "stream"))); (QTok (TPunct (txt ":"))); (QTok (TPunct (txt "&"))); (QTok (TId (txt "mut"))); (QTok (TPunct (txt "::"))); (QTok (TId (txt "oct"))); (QTok (TPunct (txt "::"))); (QTok (TId (txt "encode"))); (QTok (TPunct (txt "::"))); (QTok (TId (txt "Output")))]); (QTok (TPunct (txt "->"))); (QTok (TPunct (txt "::"))); (QTok (TId (txt "core"))); (QTok (TPunct (txt "::"))); (QTok (TId (txt "result"))); (QTok (TPunct (txt "::"))); (QTok (TId (txt "Result"))); (QTok (TPunct (txt "<"))); (QGroup DParen []); (QTok (TPunct (txt ","))); (QTok (TId (txt "Self"))); (QTok (TPunct (txt "::"))); (QTok (TId (txt "Error"))); (QTok (TPunct (txt ">"))); (QGroup DBrace [(QTok (TId (txt "let"))); (QHole id_pattern); (QTok (TPunct (txt "="))); (QTok (TId (txt "self"))); (QTok (TPunct (txt ";"))); (QRep [(QTok (TPunct (txt "::"))); (QTok (TId (txt "oct"))); (QTok (TPunct (txt "::"))); (QTok (TId (txt "encode"))); (QTok (TPunct (txt "::"))); (QTok (TId (txt "Encode"))); (QTok (TPunct (txt "::"))); (QTok (TId (txt "encode"))); (QGroup DParen [(QHole id_captures); (QTok (TPunct (txt ","))); (QTok (TId (txt "stream")))]); (QTok (TPunct (txt "."))); (QTok (TId (txt "map_err"))); (QGroup DParen [(QTok (TPunct (txt "::"))); (QTok (TId (txt "core"))); (QTok (TPunct (txt "::"))); (QTok (TId (txt "convert"))); (QTok (TPunct (txt "::"))); (QTok (TId (txt "Into"))); (QTok (TPunct (txt "::"))); (QTok (TPunct (txt "<"))); (QTok (TPunct (txt "::"))); (QTok (TId (txt "oct"))); (QTok (TPunct (txt "::"))); (QTok (TId (txt "error"))); (QTok (TPunct (txt "::"))); (QTok (TId (txt "GenericEncodeError"))); (QTok (TPunct (txt ">"))); (QTok (TPunct (txt "::"))); (QTok (TId (txt "into")))]); (QTok (TPunct (txt "?"))); (QTok (TPunct (txt ";")))]); (QTok (TPunct (txt "::"))); (QTok (TId (txt "core"))); (QTok (TPunct (txt "::"))); (QTok (TId (txt "result"))); (QTok (TPunct (txt "::"))); (QTok (TId (txt "Result"))); (QTok (TPunct (txt "::"))); (QTok (TId (txt "Ok"))); (QGroup DParen [(QGroup DParen [])])])].

(* oct-macros/src/impls/encode_struct.rs:27 *)
Definition src_fn_encode_struct : fn := Fn id_encode_struct [] [((PVar id_data), (YPath [(id_DataStruct, [])]))] (YPath [(id_TokenStream, [])])
    (ELet (PVar id_captures) (Some (YPath [(id_Vec, [YInfer])])) (Some (EMethod (EMethod (EMethod (EMethod (EField (EPath [(id_data, [])]) id_fields) id_iter [] []) id_enumerate [] []) id_map [] [(EClosure [(PTup [(PVar id_index); PAny])] (ECall (EPath [(id_Ident, []); (id_new, [])]) [(ERef (EMacro id_format [(EStr (txt "value{index}"))])); (ECall (EPath [(id_Span, []); (id_call_site, [])]) [])]))]) id_collect [] [])) None
      (ELet (PVar id_pattern) None (Some (EMatch (EField (EPath [(id_data, [])]) id_fields) [((PCon [(id_Fields, []); (id_Unit, [])] []), (EMacro id_quote [(EInt (4)%Z None)])); ((PCon [(id_Fields, []); (id_Unnamed, [])] [(PVar id__fields)]), (EMacro id_quote [(EInt (5)%Z None)])); ((PCon [(id_Fields, []); (id_Named, [])] [(PVar id_fields)]), (ELet (PVar id_field_names) None (Some (EMethod (EMethod (EField (EPath [(id_fields, [])]) id_named) id_into_iter [] []) id_map [] [(EClosure [(PVar id_field)] (EMethod (EField (EPath [(id_field, [])]) id_ident) id_unwrap [] []))])) None
      (EMacro id_quote [(EInt (6)%Z None)])))])) None
      (EMacro id_quote [(EInt (7)%Z None)]))).

(* oct-macros/src/impls/encode_enum.rs:53 *)
Definition src_quote_8 : list tmpl :=
  [(QTok (TId (txt "Self"))); (QTok (TPunct (txt "::"))); (QHole id_variant_name)].

(* oct-macros/src/impls/encode_enum.rs:55 *)
Definition src_quote_9 : list tmpl :=
  [(QTok (TId (txt "Self"))); (QTok (TPunct (txt "::"))); (QHole id_variant_name); (QGroup DParen [(QRep [(QTok (TId (txt "ref"))); (QHole id_captures); (QTok (TPunct (txt ",")))])])].

(* oct-macros/src/impls/encode_enum.rs:63 *)
Definition src_quote_10 : list tmpl :=
  [(QTok (TId (txt "Self"))); (QTok (TPunct (txt "::"))); (QHole id_variant_name); (QGroup DBrace [(QRep [(QHole id_field_names); (QTok (TPunct (txt ":"))); (QTok (TId (txt "ref"))); (QHole id_captures); (QTok (TPunct (txt ",")))])])].

(* oct-macros/src/impls/encode_enum.rs:68 *)
Definition src_quote_11 : list tmpl :=
  [(QTok (TId (txt "type"))); (QTok (TId (txt "Error"))); (QTok (TPunct (txt "="))); (QTok (TPunct (txt "::"))); (QTok (TId (txt "oct"))); (QTok (TPunct (txt "::"))); (QTok (TId (txt "error"))); (QTok (TPunct (txt "::"))); (QTok (TId (txt "EnumEncodeError"))); (QTok (TPunct (txt "<"))); (QHole id_repr); (QTok (TPunct (txt ","))); (QTok (TPunct (txt "::"))); (QTok (TId (txt "oct"))); (QTok (TPunct (txt "::"))); (QTok (TId (txt "error"))); (QTok (TPunct (txt "::"))); (QTok (TId (txt "GenericEncodeError"))); (QTok (TPunct (txt ">"))); (QTok (TPunct (txt ";"))); (QTok (TPunct (txt "#"))); (QGroup DBracket [(QTok (TId (txt "allow"))); (QGroup DParen [(QTok (TId (txt "unreachable_patterns")))])]); (QTok (TPunct (txt "#"))); (QGroup DBracket [(QTok (TId (txt "inline")))]); (QTok (TId (txt "fn"))); (QTok (TId (txt "encode"))); (QGroup DParen [(QTok (TPunct (txt "&"))); (QTok (TId (txt "self"))); (QTok (TPunct (txt ","))); (QTok (TId (txt "stream"))); (QTok (TPunct (txt ":"))); (QTok (TPunct (txt "&"))); (QTok (TId (txt "mut"))); (QTok (TPunct (txt "::"))); (QTok (TId (txt "oct"))); (QTok (TPunct (txt "::"))); (QTok (TId (txt "encode"))); (QTok (TPunct (txt "::"))); (QTok (TId (txt "Output")))]); (QTok (TPunct (txt "->"))); (QTok (TPunct (txt "::"))); (QTok (TId (txt "core"))); (QTok (TPunct (txt "::"))); (QTok (TId (txt "result"))); (QTok (TPunct (txt "::"))); (QTok (TId (txt "Result"))); (QTok (TPunct (txt "<"))); (QGroup DParen []); (QTok (TPunct (txt ","))); (QTok (TId (txt "Self"))); (QTok (TPunct (txt "::"))); (QTok (TId (txt "Error"))); (QTok (TPunct (txt ">"))); (QGroup DBrace [(QTok (TId (txt "match"))); (QTok (TPunct (txt "*"))); (QTok (TId (txt "self"))); (QGroup DBrace [(QRep [(QHole id_patterns); (QTok (TPunct (txt "=>"))); (QGroup DBrace [(QTok (TPunct (txt "<"))); (QHole id_repr); (QTok (TId (txt "as"))); (QTok (TPunct (txt "::"))); (QTok (TId (txt "oct"))); (QTok (TPunct (txt "::"))); (QTok (TId (txt "encode"))); (QTok (TPunct (txt "::"))); (QTok (TId (txt "Encode"))); (QTok (TPunct (txt ">"))); (QTok (TPunct (txt "::"))); (QTok (TId (txt "encode"))); (QGroup DParen [(QTok (TPunct (txt "&"))); (QHole id_discriminants); (QTok (TPunct (txt ","))); (QTok (TId (txt "stream")))]); (QTok (TPunct (txt "."))); (QTok (TId (txt "map_err"))); (QGroup DParen [(QTok (TPunct (txt "::"))); (QTok (TId (txt "oct"))); (QTok (TPunct (txt "::"))); (QTok (TId (txt "error"))); (QTok (TPunct (txt "::"))); (QTok (TId (txt "EnumEncodeError"))); (QTok (TPunct (txt "::"))); (QTok (TId (txt "BadDiscriminant")))]); (QTok (TPunct (txt "?"))); (QTok (TPunct (txt ";"))); (QRep [(QTok (TPunct (txt "::"))); (QTok (TId (txt "oct"))); (QTok (TPunct (txt "::"))); (QTok (TId (txt "encode"))); (QTok (TPunct (txt "::"))); (QTok (TId (txt "Encode"))); (QTok (TPunct (txt "::"))); (QTok (TId (txt "encode"))); (QGroup DParen [(QHole id_captures); (QTok (TPunct (txt ","))); (QTok (TId (txt "stream")))]); (QTok (TPunct (txt "."))); (QTok (TId (txt "map_err"))); (QGroup DParen [(QTok (TPunct (txt "::"))); (QTok (TId (txt "core"))); (QTok (TPunct (txt "::"))); (QTok (TId (txt "convert"))); (QTok (TPunct (txt "::"))); (QTok (TId (txt "Into"))); (QTok (TPunct (txt "::"))); (QTok (TPunct (txt "<"))); (QTok (TPunct (txt "::"))); (QTok (TId (txt "oct"))); (QTok (TPunct (txt "::"))); (QTok (TId (txt "error"))); (QTok (TPunct (txt "::"))); (QTok (TId (txt "GenericEncodeError"))); (QTok (TPunct (txt ">"))); (QTok (TPunct (txt "::"))); (QTok (TId (txt "into")))]); (QTok (TPunct (txt "."))); (QTok (TId (txt "map_err"))); (QGroup DParen [(QTok (TPunct (txt "::"))); (QTok (TId (txt "oct"))); (QTok (TPunct (txt "::"))); (QTok (TId (txt "error"))); (QTok (TPunct (txt "::"))); (QTok (TId (txt "EnumEncodeError"))); (QTok (TPunct (txt "::"))); (QTok (TId (txt "BadField")))]); (QTok (TPunct (txt "?"))); (QTok (TPunct (txt ";")))])])]); (QTok (TId (txt "_"))); (QTok (TPunct (txt "=>"))); (QTok (TPunct (txt "::"))); (QTok (TId (txt "core"))); (QTok (TPunct (txt "::"))); (QTok (TId (txt "unreachable"))); (QTok (TPunct (txt "!"))); (QGroup DParen [(QTok (TLit (txt """no variants defined for this enumeration""")))]); (QTok (TPunct (txt ",")))]); (QTok (TPunct (txt "::"))); (QTok (TId (txt "core"))); (QTok (TPunct (txt "::"))); (QTok (TId (txt "result"))); (QTok (TPunct (txt "::"))); (QTok (TId (txt "Result"))); (QTok (TPunct (txt "::"))); (QTok (TId (txt "Ok"))); (QGroup DParen [(QGroup DParen [])])])].

(* oct-macros/src/impls/encode_enum.rs:29 *)
Definition src_fn_encode_enum : fn := Fn id_encode_enum [] [((PVar id_data), (YPath [(id_DataEnum, [])])); ((PVar id_repr), (YPath [(id_Repr, [])]))] (YPath [(id_TokenStream, [])])
    (ELet (PVar id_discriminants) (Some (YPath [(id_Vec, [(YPath [(id_LitInt, [])])])])) (Some (EMethod (ECall (EPath [(id_Discriminants, []); (id_new, [])]) [(ERef (EField (EPath [(id_data, [])]) id_variants))]) id_collect [] [])) None
      (ELet (PVar id_captures) (Some (YPath [(id_Vec, [(YPath [(id_Vec, [(YPath [(id_Ident, [])])])])])])) (Some (EMethod (EMethod (EMethod (EField (EPath [(id_data, [])]) id_variants) id_iter [] []) id_map [] [(EClosure [(PVar id_variant)] (EMethod (EMethod (EMethod (EMethod (EField (EPath [(id_variant, [])]) id_fields) id_iter [] []) id_enumerate [] []) id_map [] [(EClosure [(PTup [(PVar id_index); PAny])] (ECall (EPath [(id_Ident, []); (id_new, [])]) [(ERef (EMacro id_format [(EStr (txt "value{index}"))])); (ECall (EPath [(id_Span, []); (id_call_site, [])]) [])]))]) id_collect [] []))]) id_collect [] [])) None
      (ELet (PVar id_patterns) None (Some (EMethod (EMethod (EMethod (EField (EPath [(id_data, [])]) id_variants) id_into_iter [] []) id_zip [] [(ERef (EPath [(id_captures, [])]))]) id_map [] [(EClosure [(PTup [(PVar id_variant); (PVar id_captures)])] (ELet (PVar id_variant_name) None (Some (EField (EPath [(id_variant, [])]) id_ident)) None
      (EMatch (EField (EPath [(id_variant, [])]) id_fields) [((PCon [(id_Fields, []); (id_Unit, [])] []), (EMacro id_quote [(EInt (8)%Z None)])); ((PCon [(id_Fields, []); (id_Unnamed, [])] [(PVar id__fields)]), (EMacro id_quote [(EInt (9)%Z None)])); ((PCon [(id_Fields, []); (id_Named, [])] [(PVar id_fields)]), (ELet (PVar id_field_names) None (Some (EMethod (EMethod (EField (EPath [(id_fields, [])]) id_named) id_into_iter [] []) id_map [] [(EClosure [(PVar id_field)] (EMethod (EField (EPath [(id_field, [])]) id_ident) id_unwrap [] []))])) None
      (EMacro id_quote [(EInt (10)%Z None)])))])))])) None
      (EMacro id_quote [(EInt (11)%Z None)])))).

(* oct-macros/src/impls/decode_struct.rs:30 *)
Definition src_quote_12 : list tmpl :=
  [(QTok (TPunct (txt "::"))); (QTok (TId (txt "oct"))); (QTok (TPunct (txt "::"))); (QTok (TId (txt "decode"))); (QTok (TPunct (txt "::"))); (QTok (TId (txt "Decode"))); (QTok (TPunct (txt "::"))); (QTok (TId (txt "decode"))); (QGroup DParen [(QTok (TId (txt "stream")))]); (QTok (TPunct (txt "."))); (QTok (TId (txt "map_err"))); (QGroup DParen [(QTok (TPunct (txt "::"))); (QTok (TId (txt "core"))); (QTok (TPunct (txt "::"))); (QTok (TId (txt "convert"))); (QTok (TPunct (txt "::"))); (QTok (TId (txt "Into"))); (QTok (TPunct (txt "::"))); (QTok (TPunct (txt "<"))); (QTok (TPunct (txt "::"))); (QTok (TId (txt "oct"))); (QTok (TPunct (txt "::"))); (QTok (TId (txt "error"))); (QTok (TPunct (txt "::"))); (QTok (TId (txt "GenericDecodeError"))); (QTok (TPunct (txt ">"))); (QTok (TPunct (txt "::"))); (QTok (TId (txt "into")))]); (QTok (TPunct (txt "?")))].

(* oct-macros/src/impls/decode_struct.rs:38 *)
Definition src_quote_13 : list tmpl :=
  [(QTok (TId (txt "Self")))].

(* oct-macros/src/impls/decode_struct.rs:40 *)
Definition src_quote_14 : list tmpl :=
  [(QTok (TId (txt "Self"))); (QGroup DParen [(QRep [(QHole id_commands); (QTok (TPunct (txt ",")))])])].

(* oct-macros/src/impls/decode_struct.rs:48 *)
Definition src_quote_15 : list tmpl :=
  [(QTok (TId (txt "Self"))); (QGroup DBrace [(QRep [(QHole id_field_names); (QTok (TPunct (txt ":"))); (QHole id_commands); (QTok (TPunct (txt ",")))])])].

(* oct-macros/src/impls/decode_struct.rs:52 *)
Definition src_quote_16 : list tmpl :=
  [(QTok (TId (txt "type"))); (QTok (TId (txt "Error"))); (QTok (TPunct (txt "="))); (QTok (TPunct (txt "::"))); (QTok (TId (txt "oct"))); (QTok (TPunct (txt "::"))); (QTok (TId (txt "error"))); (QTok (TPunct (txt "::"))); (QTok (TId (txt "GenericDecodeError"))); (QTok (TPunct (txt ";"))); (QTok (TPunct (txt "#"))); (QGroup DBracket [(QTok (TId (txt "inline")))]); (QTok (TId (txt "fn"))); (QTok (TId (txt "decode"))); (QGroup DParen [(QTok (TId (txt "stream"))); (QTok (TPunct (txt ":"))); (QTok (TPunct (txt "&"))); (QTok (TId (txt "mut"))); (QTok (TPunct (txt "::"))); (QTok (TId (txt "oct"))); (QTok (TPunct (txt "::"))); (QTok (TId (txt "decode"))); (QTok (TPunct (txt "::"))); (QTok (TId (txt "Input")))]); (QTok (TPunct (txt "->"))); (QTok (TPunct (txt "::"))); (QTok (TId (txt "core"))); (QTok (TPunct (txt "::"))); (QTok (TId (txt "result"))); (QTok (TPunct (txt "::"))); (QTok (TId (txt "Result"))); (QTok (TPunct (txt "<"))); (QTok (TId (txt "Self"))); (QTok (TPunct (txt ","))); (QTok (TId (txt "Self"))); (QTok (TPunct (txt "::"))); (QTok (TId (txt "Error"))); (QTok (TPunct (txt ">"))); (QGroup DBrace [(QTok (TId (txt "let"))); (QTok (TId (txt "this"))); (QTok (TPunct (txt "="))); (QHole id_value); (QTok (TPunct (txt ";"))); (QTok (TPunct (txt "::"))); (QTok (TId (txt "core"))); (QTok (TPunct (txt "::"))); (QTok (TId (txt "result"))); (QTok (TPunct (txt "::"))); (QTok (TId (txt "Result"))); (QTok (TPunct (txt "::"))); (QTok (TId (txt "Ok"))); (QGroup DParen [(QTok (TId (txt "this")))])])].

(* oct-macros/src/impls/decode_struct.rs:28 *)
Definition src_fn_decode_struct : fn := Fn id_decode_struct [] [((PVar id_data), (YPath [(id_DataStruct, [])]))] (YPath [(id_TokenStream, [])])
    (ELet (PVar id_commands) None (Some (ECall (EPath [(id_iter, []); (id_repeat_n, [])]) [(EMacro id_quote [(EInt (12)%Z None)]); (EMethod (EField (EPath [(id_data, [])]) id_fields) id_len [] [])])) None
      (ELet (PVar id_value) None (Some (EMatch (EField (EPath [(id_data, [])]) id_fields) [((PCon [(id_Fields, []); (id_Unit, [])] []), (EMacro id_quote [(EInt (13)%Z None)])); ((PCon [(id_Fields, []); (id_Unnamed, [])] [(PVar id__fields)]), (EMacro id_quote [(EInt (14)%Z None)])); ((PCon [(id_Fields, []); (id_Named, [])] [(PVar id_fields)]), (ELet (PVar id_field_names) None (Some (EMethod (EMethod (EField (EPath [(id_fields, [])]) id_named) id_into_iter [] []) id_map [] [(EClosure [(PVar id_field)] (EMethod (EField (EPath [(id_field, [])]) id_ident) id_unwrap [] []))])) None
      (EMacro id_quote [(EInt (15)%Z None)])))])) None
      (EMacro id_quote [(EInt (16)%Z None)]))).

(* oct-macros/src/impls/decode_enum.rs:40 *)
Definition src_quote_17 : list tmpl :=
  [(QTok (TPunct (txt "::"))); (QTok (TId (txt "oct"))); (QTok (TPunct (txt "::"))); (QTok (TId (txt "decode"))); (QTok (TPunct (txt "::"))); (QTok (TId (txt "Decode"))); (QTok (TPunct (txt "::"))); (QTok (TId (txt "decode"))); (QGroup DParen [(QTok (TId (txt "stream")))]); (QTok (TPunct (txt "."))); (QTok (TId (txt "map_err"))); (QGroup DParen [(QTok (TPunct (txt "::"))); (QTok (TId (txt "core"))); (QTok (TPunct (txt "::"))); (QTok (TId (txt "convert"))); (QTok (TPunct (txt "::"))); (QTok (TId (txt "Into"))); (QTok (TPunct (txt "::"))); (QTok (TPunct (txt "<"))); (QTok (TPunct (txt "::"))); (QTok (TId (txt "oct"))); (QTok (TPunct (txt "::"))); (QTok (TId (txt "error"))); (QTok (TPunct (txt "::"))); (QTok (TId (txt "GenericDecodeError"))); (QTok (TPunct (txt ">"))); (QTok (TPunct (txt "::"))); (QTok (TId (txt "into")))]); (QTok (TPunct (txt "."))); (QTok (TId (txt "map_err"))); (QGroup DParen [(QTok (TPunct (txt "::"))); (QTok (TId (txt "oct"))); (QTok (TPunct (txt "::"))); (QTok (TId (txt "error"))); (QTok (TPunct (txt "::"))); (QTok (TId (txt "EnumDecodeError"))); (QTok (TPunct (txt "::"))); (QTok (TId (txt "BadField")))]); (QTok (TPunct (txt "?")))].

(* oct-macros/src/impls/decode_enum.rs:49 *)
Definition src_quote_18 : list tmpl :=
  [(QTok (TId (txt "Self"))); (QTok (TPunct (txt "::"))); (QHole id_variant_name)].

(* oct-macros/src/impls/decode_enum.rs:51 *)
Definition src_quote_19 : list tmpl :=
  [(QTok (TId (txt "Self"))); (QTok (TPunct (txt "::"))); (QHole id_variant_name); (QGroup DParen [(QRep [(QHole id_commands); (QTok (TPunct (txt ",")))])])].

(* oct-macros/src/impls/decode_enum.rs:59 *)
Definition src_quote_20 : list tmpl :=
  [(QTok (TId (txt "Self"))); (QTok (TPunct (txt "::"))); (QHole id_variant_name); (QGroup DBrace [(QRep [(QHole id_field_names); (QTok (TPunct (txt ":"))); (QHole id_commands); (QTok (TPunct (txt ",")))])])].

(* oct-macros/src/impls/decode_enum.rs:64 *)
Definition src_quote_21 : list tmpl :=
  [(QTok (TId (txt "type"))); (QTok (TId (txt "Error"))); (QTok (TPunct (txt "="))); (QTok (TPunct (txt "::"))); (QTok (TId (txt "oct"))); (QTok (TPunct (txt "::"))); (QTok (TId (txt "error"))); (QTok (TPunct (txt "::"))); (QTok (TId (txt "EnumDecodeError"))); (QTok (TPunct (txt "<"))); (QHole id_repr); (QTok (TPunct (txt ","))); (QTok (TPunct (txt "::"))); (QTok (TId (txt "oct"))); (QTok (TPunct (txt "::"))); (QTok (TId (txt "error"))); (QTok (TPunct (txt "::"))); (QTok (TId (txt "GenericDecodeError"))); (QTok (TPunct (txt ">"))); (QTok (TPunct (txt ";"))); (QTok (TPunct (txt "#"))); (QGroup DBracket [(QTok (TId (txt "inline")))]); (QTok (TId (txt "fn"))); (QTok (TId (txt "decode"))); (QGroup DParen [(QTok (TId (txt "stream"))); (QTok (TPunct (txt ":"))); (QTok (TPunct (txt "&"))); (QTok (TId (txt "mut"))); (QTok (TPunct (txt "::"))); (QTok (TId (txt "oct"))); (QTok (TPunct (txt "::"))); (QTok (TId (txt "decode"))); (QTok (TPunct (txt "::"))); (QTok (TId (txt "Input")))]); (QTok (TPunct (txt "->"))); (QTok (TPunct (txt "::"))); (QTok (TId (txt "core"))); (QTok (TPunct (txt "::"))); (QTok (TId (txt "result"))); (QTok (TPunct (txt "::"))); (QTok (TId (txt "Result"))); (QTok (TPunct (txt "<"))); (QTok (TId (txt "Self"))); (QTok (TPunct (txt ","))); (QTok (TId (txt "Self"))); (QTok (TPunct (txt "::"))); (QTok (TId (txt "Error"))); (QTok (TPunct (txt ">"))); (QGroup DBrace [(QTok (TId (txt "let"))); (QTok (TId (txt "discriminant"))); (QTok (TPunct (txt "="))); (QTok (TPunct (txt "<"))); (QHole id_repr); (QTok (TId (txt "as"))); (QTok (TPunct (txt "::"))); (QTok (TId (txt "oct"))); (QTok (TPunct (txt "::"))); (QTok (TId (txt "decode"))); (QTok (TPunct (txt "::"))); (QTok (TId (txt "Decode"))); (QTok (TPunct (txt ">"))); (QTok (TPunct (txt "::"))); (QTok (TId (txt "decode"))); (QGroup DParen [(QTok (TId (txt "stream")))]); (QTok (TPunct (txt "."))); (QTok (TId (txt "map_err"))); (QGroup DParen [(QTok (TPunct (txt "::"))); (QTok (TId (txt "core"))); (QTok (TPunct (txt "::"))); (QTok (TId (txt "convert"))); (QTok (TPunct (txt "::"))); (QTok (TId (txt "Into"))); (QTok (TPunct (txt "::"))); (QTok (TPunct (txt "<"))); (QTok (TPunct (txt "::"))); (QTok (TId (txt "core"))); (QTok (TPunct (txt "::"))); (QTok (TId (txt "convert"))); (QTok (TPunct (txt "::"))); (QTok (TId (txt "Infallible"))); (QTok (TPunct (txt ">"))); (QTok (TPunct (txt "::"))); (QTok (TId (txt "into")))]); (QTok (TPunct (txt "."))); (QTok (TId (txt "map_err"))); (QGroup DParen [(QTok (TPunct (txt "::"))); (QTok (TId (txt "oct"))); (QTok (TPunct (txt "::"))); (QTok (TId (txt "error"))); (QTok (TPunct (txt "::"))); (QTok (TId (txt "EnumDecodeError"))); (QTok (TPunct (txt "::"))); (QTok (TId (txt "InvalidDiscriminant")))]); (QTok (TPunct (txt "?"))); (QTok (TPunct (txt ";"))); (QTok (TId (txt "let"))); (QTok (TId (txt "this"))); (QTok (TPunct (txt "="))); (QTok (TId (txt "match"))); (QTok (TId (txt "discriminant"))); (QGroup DBrace [(QRep [(QHole id_discriminants); (QTok (TPunct (txt "=>"))); (QHole id_values); (QTok (TPunct (txt ",")))]); (QTok (TId (txt "value"))); (QTok (TPunct (txt "=>"))); (QTok (TId (txt "return"))); (QTok (TPunct (txt "::"))); (QTok (TId (txt "core"))); (QTok (TPunct (txt "::"))); (QTok (TId (txt "result"))); (QTok (TPunct (txt "::"))); (QTok (TId (txt "Result"))); (QTok (TPunct (txt "::"))); (QTok (TId (txt "Err"))); (QGroup DParen [(QTok (TPunct (txt "::"))); (QTok (TId (txt "oct"))); (QTok (TPunct (txt "::"))); (QTok (TId (txt "error"))); (QTok (TPunct (txt "::"))); (QTok (TId (txt "EnumDecodeError"))); (QTok (TPunct (txt "::"))); (QTok (TId (txt "UnassignedDiscriminant"))); (QGroup DBrace [(QTok (TId (txt "value")))])]); (QTok (TPunct (txt ",")))]); (QTok (TPunct (txt ";"))); (QTok (TPunct (txt "::"))); (QTok (TId (txt "core"))); (QTok (TPunct (txt "::"))); (QTok (TId (txt "result"))); (QTok (TPunct (txt "::"))); (QTok (TId (txt "Result"))); (QTok (TPunct (txt "::"))); (QTok (TId (txt "Ok"))); (QGroup DParen [(QTok (TId (txt "this")))])])].

(* oct-macros/src/impls/decode_enum.rs:30 *)
Definition src_fn_decode_enum : fn := Fn id_decode_enum [] [((PVar id_data), (YPath [(id_DataEnum, [])])); ((PVar id_repr), (YPath [(id_Repr, [])]))] (YPath [(id_TokenStream, [])])
    (ELet (PVar id_discriminants) (Some (YPath [(id_Vec, [YInfer])])) (Some (EMethod (ECall (EPath [(id_Discriminants, []); (id_new, [])]) [(ERef (EField (EPath [(id_data, [])]) id_variants))]) id_collect [] [])) None
      (ELet (PVar id_values) None (Some (EMethod (EMethod (EField (EPath [(id_data, [])]) id_variants) id_into_iter [] []) id_map [] [(EClosure [(PVar id_variant)] (ELet (PVar id_variant_name) None (Some (EField (EPath [(id_variant, [])]) id_ident)) None
      (ELet (PVar id_commands) None (Some (ECall (EPath [(id_iter, []); (id_repeat_n, [])]) [(EMacro id_quote [(EInt (17)%Z None)]); (EMethod (EField (EPath [(id_variant, [])]) id_fields) id_len [] [])])) None
      (EMatch (EField (EPath [(id_variant, [])]) id_fields) [((PCon [(id_Fields, []); (id_Unit, [])] []), (EMacro id_quote [(EInt (18)%Z None)])); ((PCon [(id_Fields, []); (id_Unnamed, [])] [(PVar id__fields)]), (EMacro id_quote [(EInt (19)%Z None)])); ((PCon [(id_Fields, []); (id_Named, [])] [(PVar id_fields)]), (ELet (PVar id_field_names) None (Some (EMethod (EMethod (EField (EPath [(id_fields, [])]) id_named) id_into_iter [] []) id_map [] [(EClosure [(PVar id_field)] (EMethod (EField (EPath [(id_field, [])]) id_ident) id_unwrap [] []))])) None
      (EMacro id_quote [(EInt (20)%Z None)])))]))))])) None
      (EMacro id_quote [(EInt (21)%Z None)]))).

(* oct-macros/src/impls/sized_encode_struct.rs:33 *)
Definition src_quote_22 : list tmpl :=
  [(QTok (TId (txt "const"))); (QTok (TId (txt "MAX_ENCODED_SIZE"))); (QTok (TPunct (txt ":"))); (QTok (TId (txt "usize"))); (QTok (TPunct (txt "="))); (QTok (TLit (txt "0x0"))); (QRep [(QTok (TPunct (txt "+"))); (QTok (TPunct (txt "<"))); (QHole id_tys); (QTok (TId (txt "as"))); (QTok (TPunct (txt "::"))); (QTok (TId (txt "oct"))); (QTok (TPunct (txt "::"))); (QTok (TId (txt "encode"))); (QTok (TPunct (txt "::"))); (QTok (TId (txt "SizedEncode"))); (QTok (TPunct (txt ">"))); (QTok (TPunct (txt "::"))); (QTok (TId (txt "MAX_ENCODED_SIZE")))]); (QTok (TPunct (txt ";")))].

(* oct-macros/src/impls/sized_encode_struct.rs:27 *)
Definition src_fn_sized_encode_struct : fn := Fn id_sized_encode_struct [] [((PVar id_data), (YPath [(id_DataStruct, [])]))] (YPath [(id_TokenStream, [])])
    (ELet (PVar id_tys) (Some (YPath [(id_Vec, [YInfer])])) (Some (EMethod (EMethod (EMethod (EField (EPath [(id_data, [])]) id_fields) id_into_iter [] []) id_map [] [(EClosure [(PVar id_field)] (EField (EPath [(id_field, [])]) id_ty))]) id_collect [] [])) None
      (EMacro id_quote [(EInt (22)%Z None)])).

(* oct-macros/src/impls/sized_encode_enum.rs:44 *)
Definition src_quote_23 : list tmpl :=
  [(QTok (TId (txt "const"))); (QTok (TId (txt "MAX_ENCODED_SIZE"))); (QTok (TPunct (txt ":"))); (QTok (TId (txt "usize"))); (QTok (TPunct (txt "="))); (QGroup DBrace [(QTok (TId (txt "let"))); (QTok (TId (txt "mut"))); (QTok (TId (txt "total_size"))); (QTok (TPunct (txt "="))); (QTok (TLit (txt "0x0usize"))); (QTok (TPunct (txt ";"))); (QTok (TId (txt "let"))); (QTok (TId (txt "mut"))); (QTok (TId (txt "current_size"))); (QTok (TPunct (txt "="))); (QTok (TLit (txt "0x0usize"))); (QTok (TPunct (txt ";"))); (QRep [(QTok (TId (txt "current_size"))); (QTok (TPunct (txt "="))); (QTok (TLit (txt "0x0"))); (QRep [(QTok (TPunct (txt "+"))); (QTok (TPunct (txt "<"))); (QHole id_tys); (QTok (TId (txt "as"))); (QTok (TPunct (txt "::"))); (QTok (TId (txt "oct"))); (QTok (TPunct (txt "::"))); (QTok (TId (txt "encode"))); (QTok (TPunct (txt "::"))); (QTok (TId (txt "SizedEncode"))); (QTok (TPunct (txt ">"))); (QTok (TPunct (txt "::"))); (QTok (TId (txt "MAX_ENCODED_SIZE")))]); (QTok (TPunct (txt ";"))); (QTok (TId (txt "if"))); (QTok (TId (txt "current_size"))); (QTok (TPunct (txt ">"))); (QTok (TId (txt "total_size"))); (QGroup DBrace [(QTok (TId (txt "total_size"))); (QTok (TPunct (txt "="))); (QTok (TId (txt "current_size")))]); (QTok (TPunct (txt ";")))]); (QTok (TId (txt "total_size")))]); (QTok (TPunct (txt ";")))].

(* oct-macros/src/impls/sized_encode_enum.rs:30 *)
Definition src_fn_sized_encode_enum : fn := Fn id_sized_encode_enum [] [((PVar id_data), (YPath [(id_DataEnum, [])])); ((PVar id_repr), (YPath [(id_Repr, [])]))] (YPath [(id_TokenStream, [])])
    (ELet (PVar id_tys) (Some (YPath [(id_Vec, [(YPath [(id_Vec, [YInfer])])])])) (Some (EMethod (EMethod (EMethod (EField (EPath [(id_data, [])]) id_variants) id_iter [] []) id_map [] [(EClosure [(PVar id_variant)] (EMethod (EMethod (EMethod (EMethod (EField (EPath [(id_variant, [])]) id_fields) id_iter [] []) id_map [] [(EClosure [(PVar id_field)] (EMethod (EField (EPath [(id_field, [])]) id_ty) id_clone [] []))]) id_chain [] [(ECall (EPath [(id_iter, []); (id_once, [])]) [(EMethod (EPath [(id_repr, [])]) id_to_type [] [(ECall (EPath [(id_Span, []); (id_call_site, [])]) [])])])]) id_collect [] []))]) id_collect [] [])) None
      (EMacro id_quote [(EInt (23)%Z None)])).

(* all of them, in the order of the files *)
Definition src_macros_impls : list impl := [src_impl_Repr; src_Default_Repr; src_ToTokens_Repr; src_impl_Discriminants_I; src_Iterator_Discriminants_I; src_impl_GenericName; src_Debug_GenericName; src_ToTokens_GenericName].

(* the functions that stand by themselves *)
Definition src_macros_fns : list fn := [src_fn_derive_decode; src_fn_derive_encode; src_fn_derive_sized_encode; src_fn_impl_derive_macro; src_fn_encode_struct; src_fn_encode_enum; src_fn_decode_struct; src_fn_decode_enum; src_fn_sized_encode_struct; src_fn_sized_encode_enum].

(* each `quote!`, in the order of the files *)
Definition src_quotes : list (list tmpl) := [src_quote_0; src_quote_1; src_quote_2; src_quote_3; src_quote_4; src_quote_5; src_quote_6; src_quote_7; src_quote_8; src_quote_9; src_quote_10; src_quote_11; src_quote_12; src_quote_13; src_quote_14; src_quote_15; src_quote_16; src_quote_17; src_quote_18; src_quote_19; src_quote_20; src_quote_21; src_quote_22; src_quote_23].
