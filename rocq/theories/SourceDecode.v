(* Generated by tools/rust2v.py from oct/src/decode/decode/mod.rs, oct/src/sized_slice/code.rs, oct/src/sized_str/code.rs. Do not edit. *)
From Coq Require Import String.
From Verif Require Import Base SourceNames SourceSyntax.
Local Open Scope list_scope.

(* oct/src/decode/decode/mod.rs:120 *)
Definition src_Decode_tuple1_decode : fn := Fn id_decode [] [((PVar id_input), (YRef true (YPath [(id_Input, [])])))] (YPath [(id_Result, [(YPath [(id_Self, [])]); (YPath [(id_Self, []); (id_Error, [])])])])
    (ELet (PVar id_this) None (Some (ETuple [(ETry (ECall (EHole 0 [(id_Decode, []); (id_decode, [])]) [(EPath [(id_input, [])])]))])) None
      (ECall (EPath [(id_Result, []); (id_Ok, [])]) [(EPath [(id_this, [])])])).

(* oct/src/decode/decode/mod.rs:116 *)
Definition src_Decode_tuple1 : impl :=
  Impl [id_T] [] [((YPath [(id_T, [])]), [(id_Decode, [])])] (Some [(id_Decode, [])]) (YTup [(YPath [(id_T, [])])])
    [] [(id_Error, (YPath [(id_T, []); (id_Error, [])]))] [src_Decode_tuple1_decode].

(* oct/src/decode/decode/mod.rs:130, a loop in it *)
Definition src_Decode_array_decode_loop0 : expr :=
    (ELet (PVar id_value) None (Some (ETry (EMethod (ECall (EHole 0 [(id_Decode, []); (id_decode, [])]) [(EPath [(id_input, [])])]) id_map_err [] [(EClosure [(PVar id_e)] (ECall (EPath [(id_CollectionDecodeError, []); (id_BadItem, [])]) [(ERec [(id_ItemDecodeError, [])] [(id_index, (EPath [(id_i, [])])); (id_error, (EPath [(id_e, [])]))])]))]))) None
      (ESeq (EMethod (EPath [(id_item, [])]) id_write [] [(EPath [(id_value, [])])]) EUnit)).

(* oct/src/decode/decode/mod.rs:130 *)
Definition src_Decode_array_decode : fn := Fn id_decode [] [((PVar id_input), (YRef true (YPath [(id_Input, [])])))] (YPath [(id_Result, [(YPath [(id_Self, [])]); (YPath [(id_Self, []); (id_Error, [])])])])
    (ELet (PVar id_buf) None (Some (ERepeat (ECall (EPath [(id_MaybeUninit, [(YPath [(id_T, [])])]); (id_uninit, [])]) []) (EPath [(id_N, [])]))) None
      (ESeq (EFor (PTup [(PVar id_i); (PVar id_item)]) (EMethod (EMethod (EPath [(id_buf, [])]) id_iter_mut [] []) id_enumerate [] []) src_Decode_array_decode_loop0) (ELet (PVar id_this) None (Some (EMethod (EMethod (EMethod (EPath [(id_buf, [])]) id_as_ptr [] []) id_cast [(YArr (YPath [(id_T, [])]) (YPath [(id_N, [])]))] []) id_read [] [])) None
      (ECall (EPath [(id_Result, []); (id_Ok, [])]) [(EPath [(id_this, [])])])))).

(* oct/src/decode/decode/mod.rs:126 *)
Definition src_Decode_array : impl :=
  Impl [id_T] [id_N] [((YPath [(id_T, [])]), [(id_Decode, [])])] (Some [(id_Decode, [])]) (YArr (YPath [(id_T, [])]) (YPath [(id_N, [])]))
    [] [(id_Error, (YPath [(id_CollectionDecodeError, [(YPath [(id_Infallible, [])]); (YPath [(id_ItemDecodeError, [(YPath [(id_usize, [])]); (YPath [(id_T, []); (id_Error, [])])])])])]))] [src_Decode_array_decode].

(* oct/src/decode/decode/mod.rs:160 *)
Definition src_Decode_Arc_T_decode : fn := Fn id_decode [] [((PVar id_input), (YRef true (YPath [(id_Input, [])])))] (YPath [(id_Result, [(YPath [(id_Self, [])]); (YPath [(id_Self, []); (id_Error, [])])])])
    (ELet (PVar id_value) None (Some (ETry (ECall (EHole 0 [(id_Decode, []); (id_decode, [])]) [(EPath [(id_input, [])])]))) None
      (ELet (PVar id_this) None (Some (ECall (EPath [(id_Self, []); (id_new, [])]) [(EPath [(id_value, [])])])) None
      (ECall (EPath [(id_Result, []); (id_Ok, [])]) [(EPath [(id_this, [])])]))).

(* oct/src/decode/decode/mod.rs:156 *)
Definition src_Decode_Arc_T : impl :=
  Impl [id_T] [] [((YPath [(id_T, [])]), [(id_Decode, [])])] (Some [(id_Decode, [])]) (YPath [(id_Arc, [(YPath [(id_T, [])])])])
    [] [(id_Error, (YPath [(id_T, []); (id_Error, [])]))] [src_Decode_Arc_T_decode].

(* oct/src/decode/decode/mod.rs:175 *)
Definition src_Decode_bool_decode : fn := Fn id_decode [] [((PVar id_input), (YRef true (YPath [(id_Input, [])])))] (YPath [(id_Result, [(YPath [(id_Self, [])]); (YPath [(id_Self, []); (id_Error, [])])])])
    (ELet (PCon [(id_Ok, [])] [(PVar id_value)]) None (Some (ECall (EPath [(id_u8, []); (id_decode, [])]) [(EPath [(id_input, [])])])) None
      (ELet (PVar id_this) None (Some (EBin ONe (EPath [(id_value, [])]) (EInt (0)%Z None))) None
      (ECall (EPath [(id_Result, []); (id_Ok, [])]) [(EPath [(id_this, [])])]))).

(* oct/src/decode/decode/mod.rs:168 *)
Definition src_Decode_bool : impl :=
  Impl [] [] [] (Some [(id_Decode, [])]) (YPath [(id_bool, [])])
    [] [(id_Error, (YPath [(id_Infallible, [])]))] [src_Decode_bool_decode].

(* oct/src/decode/decode/mod.rs:187 *)
Definition src_Decode_Bound_T_decode : fn := Fn id_decode [] [((PVar id_input), (YRef true (YPath [(id_Input, [])])))] (YPath [(id_Result, [(YPath [(id_Self, [])]); (YPath [(id_Self, []); (id_Error, [])])])])
    (ELet (PCon [(id_Ok, [])] [(PVar id_discriminant)]) None (Some (ECall (EPath [(id_u8, []); (id_decode, [])]) [(EPath [(id_input, [])])])) None
      (ELet (PVar id_this) None (Some (EMatch (EPath [(id_discriminant, [])]) [((PLit (0)%Z), (ELet (PVar id_bound) None (Some (ETry (EMethod (ECall (EHole 0 [(id_Decode, []); (id_decode, [])]) [(EPath [(id_input, [])])]) id_map_err [] [(EPath [(id_EnumDecodeError, []); (id_BadField, [])])]))) None
      (ECall (EPath [(id_Self, []); (id_Included, [])]) [(EPath [(id_bound, [])])]))); ((PLit (1)%Z), (ELet (PVar id_bound) None (Some (ETry (EMethod (ECall (EHole 1 [(id_Decode, []); (id_decode, [])]) [(EPath [(id_input, [])])]) id_map_err [] [(EPath [(id_EnumDecodeError, []); (id_BadField, [])])]))) None
      (ECall (EPath [(id_Self, []); (id_Excluded, [])]) [(EPath [(id_bound, [])])]))); ((PLit (2)%Z), (EPath [(id_Self, []); (id_Unbounded, [])])); ((PVar id_value), (EReturn (ECall (EPath [(id_Err, [])]) [(ERec [(id_EnumDecodeError, []); (id_UnassignedDiscriminant, [])] [(id_value, (EPath [(id_value, [])]))])])))])) None
      (ECall (EPath [(id_Result, []); (id_Ok, [])]) [(EPath [(id_this, [])])]))).

(* oct/src/decode/decode/mod.rs:183 *)
Definition src_Decode_Bound_T : impl :=
  Impl [id_T] [] [((YPath [(id_T, [])]), [(id_Decode, [])])] (Some [(id_Decode, [])]) (YPath [(id_Bound, [(YPath [(id_T, [])])])])
    [] [(id_Error, (YPath [(id_EnumDecodeError, [(YPath [(id_u8, [])]); (YPath [(id_T, []); (id_Error, [])])])]))] [src_Decode_Bound_T_decode].

(* oct/src/decode/decode/mod.rs:220 *)
Definition src_Decode_Box_T_decode : fn := Fn id_decode [] [((PVar id_input), (YRef true (YPath [(id_Input, [])])))] (YPath [(id_Result, [(YPath [(id_Self, [])]); (YPath [(id_Self, []); (id_Error, [])])])])
    (ELet (PVar id_value) None (Some (ETry (ECall (EHole 0 [(id_Decode, []); (id_decode, [])]) [(EPath [(id_input, [])])]))) None
      (ELet (PVar id_this) None (Some (ECall (EPath [(id_Self, []); (id_new, [])]) [(EPath [(id_value, [])])])) None
      (ECall (EPath [(id_Result, []); (id_Ok, [])]) [(EPath [(id_this, [])])]))).

(* oct/src/decode/decode/mod.rs:216 *)
Definition src_Decode_Box_T : impl :=
  Impl [id_T] [] [((YPath [(id_T, [])]), [(id_Decode, [])])] (Some [(id_Decode, [])]) (YPath [(id_Box, [(YPath [(id_T, [])])])])
    [] [(id_Error, (YPath [(id_T, []); (id_Error, [])]))] [src_Decode_Box_T_decode].

(* oct/src/decode/decode/mod.rs:232 *)
Definition src_Decode_Cell_T_decode : fn := Fn id_decode [] [((PVar id_input), (YRef true (YPath [(id_Input, [])])))] (YPath [(id_Result, [(YPath [(id_Self, [])]); (YPath [(id_Self, []); (id_Error, [])])])])
    (ELet (PVar id_value) None (Some (ETry (ECall (EHole 0 [(id_Decode, []); (id_decode, [])]) [(EPath [(id_input, [])])]))) None
      (ELet (PVar id_this) None (Some (ECall (EPath [(id_Self, []); (id_new, [])]) [(EPath [(id_value, [])])])) None
      (ECall (EPath [(id_Result, []); (id_Ok, [])]) [(EPath [(id_this, [])])]))).

(* oct/src/decode/decode/mod.rs:228 *)
Definition src_Decode_Cell_T : impl :=
  Impl [id_T] [] [((YPath [(id_T, [])]), [(id_Decode, [])])] (Some [(id_Decode, [])]) (YPath [(id_Cell, [(YPath [(id_T, [])])])])
    [] [(id_Error, (YPath [(id_T, []); (id_Error, [])]))] [src_Decode_Cell_T_decode].

(* oct/src/decode/decode/mod.rs:244 *)
Definition src_Decode_char_decode : fn := Fn id_decode [] [((PVar id_input), (YRef true (YPath [(id_Input, [])])))] (YPath [(id_Result, [(YPath [(id_Self, [])]); (YPath [(id_Self, []); (id_Error, [])])])])
    (ELet (PCon [(id_Ok, [])] [(PVar id_code_point)]) None (Some (ECall (EPath [(id_u32, []); (id_decode, [])]) [(EPath [(id_input, [])])])) None
      (EMatch (EPath [(id_code_point, [])]) [((PAt id_code_point (POr [(PRange (0)%Z (55295)%Z); (PRange (56832)%Z (1114111)%Z)])), (ELet (PVar id_this) None (Some (ECall (EPath [(id_Self, []); (id_from_u32_unchecked, [])]) [(EPath [(id_code_point, [])])])) None
      (ECall (EPath [(id_Result, []); (id_Ok, [])]) [(EPath [(id_this, [])])]))); ((PVar id_code_point), (ECall (EPath [(id_Err, [])]) [(ERec [(id_CharDecodeError, [])] [(id_code_point, (EPath [(id_code_point, [])]))])]))])).

(* oct/src/decode/decode/mod.rs:240 *)
Definition src_Decode_char : impl :=
  Impl [] [] [] (Some [(id_Decode, [])]) (YPath [(id_char, [])])
    [] [(id_Error, (YPath [(id_CharDecodeError, [])]))] [src_Decode_char_decode].

(* oct/src/decode/decode/mod.rs:268 *)
Definition src_Decode_Cow_B_decode : fn := Fn id_decode [] [((PVar id_input), (YRef true (YPath [(id_Input, [])])))] (YPath [(id_Result, [(YPath [(id_Self, [])]); (YPath [(id_Self, []); (id_Error, [])])])])
    (ELet (PVar id_value) None (Some (ETry (ECall (EHole 0 [(id_Decode, []); (id_decode, [])]) [(EPath [(id_input, [])])]))) None
      (ELet (PVar id_this) None (Some (ECall (EPath [(id_Self, []); (id_Owned, [])]) [(EPath [(id_value, [])])])) None
      (ECall (EPath [(id_Result, []); (id_Ok, [])]) [(EPath [(id_this, [])])]))).

(* oct/src/decode/decode/mod.rs:260 *)
Definition src_Decode_Cow_B : impl :=
  Impl [id_T; id_B] [] [((YPath [(id_T, [])]), [(id_DecodeBorrowed, [(YPath [(id_B, [])])])]); ((YPath [(id_B, [])]), [(id_ToOwned, [(YAssoc id_Owned (YPath [(id_T, [])]))])])] (Some [(id_Decode, [])]) (YPath [(id_Cow, [(YPath [(id_B, [])])])])
    [] [(id_Error, (YPath [(id_T, []); (id_Error, [])]))] [src_Decode_Cow_B_decode].

(* oct/src/decode/decode/mod.rs:282, a loop in it *)
Definition src_Decode_CString_decode_loop0 : expr :=
    (ESeq (EIf (EBin OEq (EDeref (EPath [(id_c, [])])) (EInt (0)%Z (Some id_u8))) (EReturn (ECall (EPath [(id_Err, [])]) [(ERec [(id_CStringDecodeError, [])] [(id_index, (EPath [(id_i, [])]))])])) EUnit) EUnit).

(* oct/src/decode/decode/mod.rs:282 *)
Definition src_Decode_CString_decode : fn := Fn id_decode [] [((PVar id_input), (YRef true (YPath [(id_Input, [])])))] (YPath [(id_Result, [(YPath [(id_Self, [])]); (YPath [(id_Self, []); (id_Error, [])])])])
    (ELet (PCon [(id_Ok, [])] [(PVar id_len)]) None (Some (ECall (EHole 0 [(id_Decode, []); (id_decode, [])]) [(EPath [(id_input, [])])])) None
      (ELet (PVar id_data) None (Some (EMethod (EMethod (EPath [(id_input, [])]) id_read [] [(EPath [(id_len, [])])]) id_unwrap [] [])) None
      (ESeq (EFor (PTup [(PVar id_i); (PVar id_c)]) (EMethod (EMethod (EPath [(id_data, [])]) id_iter [] []) id_enumerate [] []) src_Decode_CString_decode_loop0) (ELet (PVar id_buf) None (Some (ECall (EPath [(id_Vec, []); (id_with_capacity, [])]) [(EPath [(id_len, [])])])) None
      (ESeq (ELet (PVar id_src) None (Some (EMethod (EPath [(id_data, [])]) id_as_ptr [] [])) None
      (ELet (PVar id_dst) None (Some (EMethod (EPath [(id_buf, [])]) id_as_mut_ptr [] [])) None
      (ESeq (ECall (EPath [(id_copy_nonoverlapping, [])]) [(EPath [(id_src, [])]); (EPath [(id_dst, [])]); (EPath [(id_len, [])])]) (ESeq (EMethod (EPath [(id_buf, [])]) id_set_len [] [(EPath [(id_len, [])])]) EUnit)))) (ELet (PVar id_this) None (Some (ECall (EPath [(id_Self, []); (id_from_vec_unchecked, [])]) [(EPath [(id_buf, [])])])) None
      (ECall (EPath [(id_Result, []); (id_Ok, [])]) [(EPath [(id_this, [])])]))))))).

(* oct/src/decode/decode/mod.rs:278 *)
Definition src_Decode_CString : impl :=
  Impl [] [] [] (Some [(id_Decode, [])]) (YPath [(id_CString, [])])
    [] [(id_Error, (YPath [(id_CStringDecodeError, [])]))] [src_Decode_CString_decode].

(* oct/src/decode/decode/mod.rs:311 *)
Definition src_Decode_Duration_decode : fn := Fn id_decode [] [((PVar id_input), (YRef true (YPath [(id_Input, [])])))] (YPath [(id_Result, [(YPath [(id_Self, [])]); (YPath [(id_Self, []); (id_Error, [])])])])
    (ELet (PCon [(id_Ok, [])] [(PVar id_secs)]) None (Some (ECall (EHole 0 [(id_Decode, []); (id_decode, [])]) [(EPath [(id_input, [])])])) None
      (ELet (PCon [(id_Ok, [])] [(PVar id_nanos)]) None (Some (ECall (EHole 1 [(id_Decode, []); (id_decode, [])]) [(EPath [(id_input, [])])])) None
      (ELet (PVar id_this) None (Some (ECall (EPath [(id_Self, []); (id_new, [])]) [(EPath [(id_secs, [])]); (EPath [(id_nanos, [])])])) None
      (ECall (EPath [(id_Result, []); (id_Ok, [])]) [(EPath [(id_this, [])])])))).

(* oct/src/decode/decode/mod.rs:307 *)
Definition src_Decode_Duration : impl :=
  Impl [] [] [] (Some [(id_Decode, [])]) (YPath [(id_Duration, [])])
    [] [(id_Error, (YPath [(id_Infallible, [])]))] [src_Decode_Duration_decode].

(* oct/src/decode/decode/mod.rs:331, a loop in it *)
Definition src_Decode_HashMap_K_V_S_decode_loop0 : expr :=
    (ELet (PVar id_key) None (Some (ETry (EMethod (ECall (EHole 1 [(id_Decode, []); (id_decode, [])]) [(EPath [(id_input, [])])]) id_map_err [] [(EClosure [(PVar id_e)] (ECall (EPath [(id_CollectionDecodeError, []); (id_BadItem, [])]) [(ERec [(id_ItemDecodeError, [])] [(id_index, (EPath [(id_i, [])])); (id_error, (EPath [(id_e, [])]))])]))]))) None
      (ELet (PVar id_value) None (Some (ETry (EMethod (ECall (EHole 2 [(id_Decode, []); (id_decode, [])]) [(EPath [(id_input, [])])]) id_map_err [] [(EClosure [(PVar id_e)] (ECall (EPath [(id_CollectionDecodeError, []); (id_BadItem, [])]) [(ERec [(id_ItemDecodeError, [])] [(id_index, (EPath [(id_i, [])])); (id_error, (EPath [(id_e, [])]))])]))]))) None
      (ESeq (EMethod (EPath [(id_this, [])]) id_insert [] [(EPath [(id_key, [])]); (EPath [(id_value, [])])]) EUnit))).

(* oct/src/decode/decode/mod.rs:331 *)
Definition src_Decode_HashMap_K_V_S_decode : fn := Fn id_decode [] [((PVar id_input), (YRef true (YPath [(id_Input, [])])))] (YPath [(id_Result, [(YPath [(id_Self, [])]); (YPath [(id_Self, []); (id_Error, [])])])])
    (ELet (PCon [(id_Ok, [])] [(PVar id_len)]) None (Some (ECall (EHole 0 [(id_Decode, []); (id_decode, [])]) [(EPath [(id_input, [])])])) None
      (ELet (PVar id_this) None (Some (ECall (EPath [(id_Self, []); (id_with_capacity_and_hasher, [])]) [(EPath [(id_len, [])]); (ECall (EPath [(id_Default, []); (id_default, [])]) [])])) None
      (ESeq (EFor (PVar id_i) (ERange (Some (EInt (0)%Z None)) (Some (EPath [(id_len, [])])) false) src_Decode_HashMap_K_V_S_decode_loop0) (ECall (EPath [(id_Result, []); (id_Ok, [])]) [(EPath [(id_this, [])])])))).

(* oct/src/decode/decode/mod.rs:322 *)
Definition src_Decode_HashMap_K_V_S : impl :=
  Impl [id_K; id_V; id_S; id_E] [] [((YPath [(id_K, [])]), [(id_Decode, [(YAssoc id_Error (YPath [(id_E, [])]))])]); ((YPath [(id_K, [])]), [(id_Eq, [])]); ((YPath [(id_K, [])]), [(id_Hash, [])]); ((YPath [(id_V, [])]), [(id_Decode, [(YAssoc id_Error (YPath [(id_E, [])]))])]); ((YPath [(id_S, [])]), [(id_BuildHasher, [])]); ((YPath [(id_S, [])]), [(id_Default, [])])] (Some [(id_Decode, [])]) (YPath [(id_HashMap, [(YPath [(id_K, [])]); (YPath [(id_V, [])]); (YPath [(id_S, [])])])])
    [] [(id_Error, (YPath [(id_CollectionDecodeError, [(YPath [(id_Infallible, [])]); (YPath [(id_ItemDecodeError, [(YPath [(id_usize, [])]); (YPath [(id_E, [])])])])])]))] [src_Decode_HashMap_K_V_S_decode].

(* oct/src/decode/decode/mod.rs:360, a loop in it *)
Definition src_Decode_HashSet_K_S_decode_loop0 : expr :=
    (ELet (PVar id_key) None (Some (ETry (EMethod (ECall (EHole 1 [(id_Decode, []); (id_decode, [])]) [(EPath [(id_input, [])])]) id_map_err [] [(EClosure [(PVar id_e)] (ECall (EPath [(id_CollectionDecodeError, []); (id_BadItem, [])]) [(ERec [(id_ItemDecodeError, [])] [(id_index, (EPath [(id_i, [])])); (id_error, (EPath [(id_e, [])]))])]))]))) None
      (ESeq (EMethod (EPath [(id_this, [])]) id_insert [] [(EPath [(id_key, [])])]) EUnit)).

(* oct/src/decode/decode/mod.rs:360 *)
Definition src_Decode_HashSet_K_S_decode : fn := Fn id_decode [] [((PVar id_input), (YRef true (YPath [(id_Input, [])])))] (YPath [(id_Result, [(YPath [(id_Self, [])]); (YPath [(id_Self, []); (id_Error, [])])])])
    (ELet (PCon [(id_Ok, [])] [(PVar id_len)]) None (Some (ECall (EHole 0 [(id_Decode, []); (id_decode, [])]) [(EPath [(id_input, [])])])) None
      (ELet (PVar id_this) None (Some (ECall (EPath [(id_Self, []); (id_with_capacity_and_hasher, [])]) [(EPath [(id_len, [])]); (ECall (EPath [(id_Default, []); (id_default, [])]) [])])) None
      (ESeq (EFor (PVar id_i) (ERange (Some (EInt (0)%Z None)) (Some (EPath [(id_len, [])])) false) src_Decode_HashSet_K_S_decode_loop0) (ECall (EPath [(id_Result, []); (id_Ok, [])]) [(EPath [(id_this, [])])])))).

(* oct/src/decode/decode/mod.rs:352 *)
Definition src_Decode_HashSet_K_S : impl :=
  Impl [id_K; id_S] [] [((YPath [(id_K, [])]), [(id_Decode, [])]); ((YPath [(id_K, [])]), [(id_Eq, [])]); ((YPath [(id_K, [])]), [(id_Hash, [])]); ((YPath [(id_S, [])]), [(id_BuildHasher, [])]); ((YPath [(id_S, [])]), [(id_Default, [])])] (Some [(id_Decode, [])]) (YPath [(id_HashSet, [(YPath [(id_K, [])]); (YPath [(id_S, [])])])])
    [] [(id_Error, (YPath [(id_CollectionDecodeError, [(YPath [(id_Infallible, [])]); (YPath [(id_ItemDecodeError, [(YPath [(id_usize, [])]); (YPath [(id_K, []); (id_Error, [])])])])])]))] [src_Decode_HashSet_K_S_decode].

(* oct/src/decode/decode/mod.rs:380 *)
Definition src_Decode_Infallible_decode : fn := Fn id_decode [] [((PVar id__input), (YRef true (YPath [(id_Input, [])])))] (YPath [(id_Result, [(YPath [(id_Self, [])]); (YPath [(id_Self, []); (id_Error, [])])])])
    (EMacro id_panic [(EStr (txt "cannot deserialise `Infallible` as it cannot be serialised to begin with"))]).

(* oct/src/decode/decode/mod.rs:376 *)
Definition src_Decode_Infallible : impl :=
  Impl [] [] [] (Some [(id_Decode, [])]) (YPath [(id_Infallible, [])])
    [] [(id_Error, (YPath [(id_Self, [])]))] [src_Decode_Infallible_decode].

(* oct/src/decode/decode/mod.rs:389 *)
Definition src_Decode_IpAddr_decode : fn := Fn id_decode [] [((PVar id_input), (YRef true (YPath [(id_Input, [])])))] (YPath [(id_Result, [(YPath [(id_Self, [])]); (YPath [(id_Self, []); (id_Error, [])])])])
    (ELet (PVar id_discriminant) None (Some (ETry (EMethod (ECall (EPath [(id_u8, []); (id_decode, [])]) [(EPath [(id_input, [])])]) id_map_err [] [(EPath [(id_EnumDecodeError, []); (id_InvalidDiscriminant, [])])]))) None
      (ELet (PVar id_this) None (Some (EMatch (EPath [(id_discriminant, [])]) [((PLit (4)%Z), (ECall (EPath [(id_Self, []); (id_V4, [])]) [(EMethod (ECall (EHole 0 [(id_Decode, []); (id_decode, [])]) [(EPath [(id_input, [])])]) id_unwrap [] [])])); ((PLit (6)%Z), (ECall (EPath [(id_Self, []); (id_V6, [])]) [(EMethod (ECall (EHole 1 [(id_Decode, []); (id_decode, [])]) [(EPath [(id_input, [])])]) id_unwrap [] [])])); ((PVar id_value), (EReturn (ECall (EPath [(id_Err, [])]) [(ERec [(id_EnumDecodeError, []); (id_UnassignedDiscriminant, [])] [(id_value, (EPath [(id_value, [])]))])])))])) None
      (ECall (EPath [(id_Result, []); (id_Ok, [])]) [(EPath [(id_this, [])])]))).

(* oct/src/decode/decode/mod.rs:385 *)
Definition src_Decode_IpAddr : impl :=
  Impl [] [] [] (Some [(id_Decode, [])]) (YPath [(id_IpAddr, [])])
    [] [(id_Error, (YPath [(id_EnumDecodeError, [(YPath [(id_u8, [])]); (YPath [(id_Infallible, [])])])]))] [src_Decode_IpAddr_decode].

(* oct/src/decode/decode/mod.rs:408 *)
Definition src_Decode_Ipv4Addr_decode : fn := Fn id_decode [] [((PVar id_input), (YRef true (YPath [(id_Input, [])])))] (YPath [(id_Result, [(YPath [(id_Self, [])]); (YPath [(id_Self, []); (id_Error, [])])])])
    (ELet (PCon [(id_Ok, [])] [(PVar id_value)]) None (Some (ECall (EHole 0 [(id_Decode, []); (id_decode, [])]) [(EPath [(id_input, [])])])) None
      (ELet (PVar id_this) None (Some (ECall (EPath [(id_Self, []); (id_from_bits, [])]) [(EPath [(id_value, [])])])) None
      (ECall (EPath [(id_Result, []); (id_Ok, [])]) [(EPath [(id_this, [])])]))).

(* oct/src/decode/decode/mod.rs:404 *)
Definition src_Decode_Ipv4Addr : impl :=
  Impl [] [] [] (Some [(id_Decode, [])]) (YPath [(id_Ipv4Addr, [])])
    [] [(id_Error, (YPath [(id_Infallible, [])]))] [src_Decode_Ipv4Addr_decode].

(* oct/src/decode/decode/mod.rs:420 *)
Definition src_Decode_Ipv6Addr_decode : fn := Fn id_decode [] [((PVar id_input), (YRef true (YPath [(id_Input, [])])))] (YPath [(id_Result, [(YPath [(id_Self, [])]); (YPath [(id_Self, []); (id_Error, [])])])])
    (ELet (PCon [(id_Ok, [])] [(PVar id_value)]) None (Some (ECall (EHole 0 [(id_Decode, []); (id_decode, [])]) [(EPath [(id_input, [])])])) None
      (ELet (PVar id_this) None (Some (ECall (EPath [(id_Self, []); (id_from_bits, [])]) [(EPath [(id_value, [])])])) None
      (ECall (EPath [(id_Result, []); (id_Ok, [])]) [(EPath [(id_this, [])])]))).

(* oct/src/decode/decode/mod.rs:416 *)
Definition src_Decode_Ipv6Addr : impl :=
  Impl [] [] [] (Some [(id_Decode, [])]) (YPath [(id_Ipv6Addr, [])])
    [] [(id_Error, (YPath [(id_Infallible, [])]))] [src_Decode_Ipv6Addr_decode].

(* oct/src/decode/decode/mod.rs:432 *)
Definition src_Decode_isize_decode : fn := Fn id_decode [] [((PVar id_input), (YRef true (YPath [(id_Input, [])])))] (YPath [(id_Result, [(YPath [(id_Self, [])]); (YPath [(id_Self, []); (id_Error, [])])])])
    (ELet (PCon [(id_Ok, [])] [(PVar id_value)]) None (Some (ECall (EPath [(id_i16, []); (id_decode, [])]) [(EPath [(id_input, [])])])) None
      (ECall (EPath [(id_Result, []); (id_Ok, [])]) [(ECast (EPath [(id_value, [])]) (YPath [(id_Self, [])]))])).

(* oct/src/decode/decode/mod.rs:428 *)
Definition src_Decode_isize : impl :=
  Impl [] [] [] (Some [(id_Decode, [])]) (YPath [(id_isize, [])])
    [] [(id_Error, (YPath [(id_Infallible, [])]))] [src_Decode_isize_decode].

(* oct/src/decode/decode/mod.rs:445, a loop in it *)
Definition src_Decode_LinkedList_T_decode_loop0 : expr :=
    (ELet (PVar id_value) None (Some (ETry (EMethod (ECall (EPath [(id_T, []); (id_decode, [])]) [(EPath [(id_input, [])])]) id_map_err [] [(EClosure [(PVar id_e)] (ECall (EPath [(id_CollectionDecodeError, []); (id_BadItem, [])]) [(ERec [(id_ItemDecodeError, [])] [(id_index, (EPath [(id_i, [])])); (id_error, (EPath [(id_e, [])]))])]))]))) None
      (ESeq (EMethod (EPath [(id_this, [])]) id_push_back [] [(EPath [(id_value, [])])]) EUnit)).

(* oct/src/decode/decode/mod.rs:445 *)
Definition src_Decode_LinkedList_T_decode : fn := Fn id_decode [] [((PVar id_input), (YRef true (YPath [(id_Input, [])])))] (YPath [(id_Result, [(YPath [(id_Self, [])]); (YPath [(id_Self, []); (id_Error, [])])])])
    (ELet (PCon [(id_Ok, [])] [(PVar id_len)]) None (Some (ECall (EPath [(id_usize, []); (id_decode, [])]) [(EPath [(id_input, [])])])) None
      (ELet (PVar id_this) None (Some (ECall (EPath [(id_Self, []); (id_new, [])]) [])) None
      (ESeq (EFor (PVar id_i) (ERange (Some (EInt (0)%Z None)) (Some (EPath [(id_len, [])])) false) src_Decode_LinkedList_T_decode_loop0) (ECall (EPath [(id_Result, []); (id_Ok, [])]) [(EPath [(id_this, [])])])))).

(* oct/src/decode/decode/mod.rs:441 *)
Definition src_Decode_LinkedList_T : impl :=
  Impl [id_T] [] [((YPath [(id_T, [])]), [(id_Decode, [])])] (Some [(id_Decode, [])]) (YPath [(id_LinkedList, [(YPath [(id_T, [])])])])
    [] [(id_Error, (YPath [(id_CollectionDecodeError, [(YPath [(id_Infallible, [])]); (YPath [(id_ItemDecodeError, [(YPath [(id_usize, [])]); (YPath [(id_T, []); (id_Error, [])])])])])]))] [src_Decode_LinkedList_T_decode].

(* oct/src/decode/decode/mod.rs:467 *)
Definition src_Decode_Mutex_T_decode : fn := Fn id_decode [] [((PVar id_input), (YRef true (YPath [(id_Input, [])])))] (YPath [(id_Result, [(YPath [(id_Self, [])]); (YPath [(id_Self, []); (id_Error, [])])])])
    (ELet (PVar id_value) None (Some (ETry (ECall (EHole 0 [(id_Decode, []); (id_decode, [])]) [(EPath [(id_input, [])])]))) None
      (ELet (PVar id_this) None (Some (ECall (EPath [(id_Self, []); (id_new, [])]) [(EPath [(id_value, [])])])) None
      (ECall (EPath [(id_Result, []); (id_Ok, [])]) [(EPath [(id_this, [])])]))).

(* oct/src/decode/decode/mod.rs:463 *)
Definition src_Decode_Mutex_T : impl :=
  Impl [id_T] [] [((YPath [(id_T, [])]), [(id_Decode, [])])] (Some [(id_Decode, [])]) (YPath [(id_Mutex, [(YPath [(id_T, [])])])])
    [] [(id_Error, (YPath [(id_T, []); (id_Error, [])]))] [src_Decode_Mutex_T_decode].

(* oct/src/decode/decode/mod.rs:480 *)
Definition src_Decode_Option_T_decode : fn := Fn id_decode [] [((PVar id_input), (YRef true (YPath [(id_Input, [])])))] (YPath [(id_Result, [(YPath [(id_Self, [])]); (YPath [(id_Self, []); (id_Error, [])])])])
    (ELet (PVar id_sign) None (Some (ETry (EMethod (ECall (EPath [(id_bool, []); (id_decode, [])]) [(EPath [(id_input, [])])]) id_map_err [(YPath [(id_T, []); (id_Error, [])]); YInfer] [(EClosure [(PVar id__e)] (EMacro id_unreachable []))]))) None
      (ELet (PVar id_this) None (Some (EIf (EPath [(id_sign, [])]) (ECall (EPath [(id_Some, [])]) [(ETry (ECall (EHole 0 [(id_Decode, []); (id_decode, [])]) [(EPath [(id_input, [])])]))]) (EPath [(id_None, [])]))) None
      (ECall (EPath [(id_Result, []); (id_Ok, [])]) [(EPath [(id_this, [])])]))).

(* oct/src/decode/decode/mod.rs:475 *)
Definition src_Decode_Option_T : impl :=
  Impl [id_T] [] [((YPath [(id_T, [])]), [(id_Decode, [])])] (Some [(id_Decode, [])]) (YPath [(id_Option, [(YPath [(id_T, [])])])])
    [] [(id_Error, (YPath [(id_T, []); (id_Error, [])]))] [src_Decode_Option_T_decode].

(* oct/src/decode/decode/mod.rs:498 *)
Definition src_Decode_PhantomData_T_decode : fn := Fn id_decode [] [((PVar id__input), (YRef true (YPath [(id_Input, [])])))] (YPath [(id_Result, [(YPath [(id_Self, [])]); (YPath [(id_Self, []); (id_Error, [])])])])
    (ECall (EPath [(id_Result, []); (id_Ok, [])]) [(EPath [(id_Self, [])])]).

(* oct/src/decode/decode/mod.rs:494 *)
Definition src_Decode_PhantomData_T : impl :=
  Impl [id_T] [] [] (Some [(id_Decode, [])]) (YPath [(id_PhantomData, [(YPath [(id_T, [])])])])
    [] [(id_Error, (YPath [(id_Infallible, [])]))] [src_Decode_PhantomData_T_decode].

(* oct/src/decode/decode/mod.rs:507 *)
Definition src_Decode_PhantomPinned_decode : fn := Fn id_decode [] [((PVar id__input), (YRef true (YPath [(id_Input, [])])))] (YPath [(id_Result, [(YPath [(id_Self, [])]); (YPath [(id_Self, []); (id_Error, [])])])])
    (ECall (EPath [(id_Result, []); (id_Ok, [])]) [(EPath [(id_Self, [])])]).

(* oct/src/decode/decode/mod.rs:503 *)
Definition src_Decode_PhantomPinned : impl :=
  Impl [] [] [] (Some [(id_Decode, [])]) (YPath [(id_PhantomPinned, [])])
    [] [(id_Error, (YPath [(id_Infallible, [])]))] [src_Decode_PhantomPinned_decode].

(* oct/src/decode/decode/mod.rs:516 *)
Definition src_Decode_Range_T_decode : fn := Fn id_decode [] [((PVar id_input), (YRef true (YPath [(id_Input, [])])))] (YPath [(id_Result, [(YPath [(id_Self, [])]); (YPath [(id_Self, []); (id_Error, [])])])])
    (ELet (PVar id_start) None (Some (ETry (ECall (EHole 0 [(id_Decode, []); (id_decode, [])]) [(EPath [(id_input, [])])]))) None
      (ELet (PVar id_end) None (Some (ETry (ECall (EHole 1 [(id_Decode, []); (id_decode, [])]) [(EPath [(id_input, [])])]))) None
      (ECall (EPath [(id_Result, []); (id_Ok, [])]) [(ERange (Some (EPath [(id_start, [])])) (Some (EPath [(id_end, [])])) false)]))).

(* oct/src/decode/decode/mod.rs:512 *)
Definition src_Decode_Range_T : impl :=
  Impl [id_T] [] [((YPath [(id_T, [])]), [(id_Decode, [])])] (Some [(id_Decode, [])]) (YPath [(id_Range, [(YPath [(id_T, [])])])])
    [] [(id_Error, (YPath [(id_T, []); (id_Error, [])]))] [src_Decode_Range_T_decode].

(* oct/src/decode/decode/mod.rs:528 *)
Definition src_Decode_RangeFrom_T_decode : fn := Fn id_decode [] [((PVar id_input), (YRef true (YPath [(id_Input, [])])))] (YPath [(id_Result, [(YPath [(id_Self, [])]); (YPath [(id_Self, []); (id_Error, [])])])])
    (ELet (PVar id_start) None (Some (ETry (ECall (EHole 0 [(id_Decode, []); (id_decode, [])]) [(EPath [(id_input, [])])]))) None
      (ECall (EPath [(id_Result, []); (id_Ok, [])]) [(ERange (Some (EPath [(id_start, [])])) None false)])).

(* oct/src/decode/decode/mod.rs:524 *)
Definition src_Decode_RangeFrom_T : impl :=
  Impl [id_T] [] [((YPath [(id_T, [])]), [(id_Decode, [])])] (Some [(id_Decode, [])]) (YPath [(id_RangeFrom, [(YPath [(id_T, [])])])])
    [] [(id_Error, (YPath [(id_T, []); (id_Error, [])]))] [src_Decode_RangeFrom_T_decode].

(* oct/src/decode/decode/mod.rs:539 *)
Definition src_Decode_RangeFull_decode : fn := Fn id_decode [] [((PVar id__input), (YRef true (YPath [(id_Input, [])])))] (YPath [(id_Result, [(YPath [(id_Self, [])]); (YPath [(id_Self, []); (id_Error, [])])])])
    (ECall (EPath [(id_Result, []); (id_Ok, [])]) [(ERange None None false)]).

(* oct/src/decode/decode/mod.rs:535 *)
Definition src_Decode_RangeFull : impl :=
  Impl [] [] [] (Some [(id_Decode, [])]) (YPath [(id_RangeFull, [])])
    [] [(id_Error, (YPath [(id_Infallible, [])]))] [src_Decode_RangeFull_decode].

(* oct/src/decode/decode/mod.rs:548 *)
Definition src_Decode_RangeInclusive_T_decode : fn := Fn id_decode [] [((PVar id_input), (YRef true (YPath [(id_Input, [])])))] (YPath [(id_Result, [(YPath [(id_Self, [])]); (YPath [(id_Self, []); (id_Error, [])])])])
    (ELet (PVar id_start) None (Some (ETry (ECall (EHole 0 [(id_Decode, []); (id_decode, [])]) [(EPath [(id_input, [])])]))) None
      (ELet (PVar id_end) None (Some (ETry (ECall (EHole 1 [(id_Decode, []); (id_decode, [])]) [(EPath [(id_input, [])])]))) None
      (ECall (EPath [(id_Result, []); (id_Ok, [])]) [(ERange (Some (EPath [(id_start, [])])) (Some (EPath [(id_end, [])])) true)]))).

(* oct/src/decode/decode/mod.rs:544 *)
Definition src_Decode_RangeInclusive_T : impl :=
  Impl [id_T] [] [((YPath [(id_T, [])]), [(id_Decode, [])])] (Some [(id_Decode, [])]) (YPath [(id_RangeInclusive, [(YPath [(id_T, [])])])])
    [] [(id_Error, (YPath [(id_T, []); (id_Error, [])]))] [src_Decode_RangeInclusive_T_decode].

(* oct/src/decode/decode/mod.rs:560 *)
Definition src_Decode_RangeTo_T_decode : fn := Fn id_decode [] [((PVar id_input), (YRef true (YPath [(id_Input, [])])))] (YPath [(id_Result, [(YPath [(id_Self, [])]); (YPath [(id_Self, []); (id_Error, [])])])])
    (ELet (PVar id_end) None (Some (ETry (ECall (EHole 0 [(id_Decode, []); (id_decode, [])]) [(EPath [(id_input, [])])]))) None
      (ECall (EPath [(id_Result, []); (id_Ok, [])]) [(ERange None (Some (EPath [(id_end, [])])) false)])).

(* oct/src/decode/decode/mod.rs:556 *)
Definition src_Decode_RangeTo_T : impl :=
  Impl [id_T] [] [((YPath [(id_T, [])]), [(id_Decode, [])])] (Some [(id_Decode, [])]) (YPath [(id_RangeTo, [(YPath [(id_T, [])])])])
    [] [(id_Error, (YPath [(id_T, []); (id_Error, [])]))] [src_Decode_RangeTo_T_decode].

(* oct/src/decode/decode/mod.rs:571 *)
Definition src_Decode_RangeToInclusive_T_decode : fn := Fn id_decode [] [((PVar id_input), (YRef true (YPath [(id_Input, [])])))] (YPath [(id_Result, [(YPath [(id_Self, [])]); (YPath [(id_Self, []); (id_Error, [])])])])
    (ELet (PVar id_end) None (Some (ETry (ECall (EHole 0 [(id_Decode, []); (id_decode, [])]) [(EPath [(id_input, [])])]))) None
      (ECall (EPath [(id_Result, []); (id_Ok, [])]) [(ERange None (Some (EPath [(id_end, [])])) true)])).

(* oct/src/decode/decode/mod.rs:567 *)
Definition src_Decode_RangeToInclusive_T : impl :=
  Impl [id_T] [] [((YPath [(id_T, [])]), [(id_Decode, [])])] (Some [(id_Decode, [])]) (YPath [(id_RangeToInclusive, [(YPath [(id_T, [])])])])
    [] [(id_Error, (YPath [(id_T, []); (id_Error, [])]))] [src_Decode_RangeToInclusive_T_decode].

(* oct/src/decode/decode/mod.rs:584 *)
Definition src_Decode_Rc_T_decode : fn := Fn id_decode [] [((PVar id_input), (YRef true (YPath [(id_Input, [])])))] (YPath [(id_Result, [(YPath [(id_Self, [])]); (YPath [(id_Self, []); (id_Error, [])])])])
    (ECall (EPath [(id_Result, []); (id_Ok, [])]) [(ECall (EPath [(id_Self, []); (id_new, [])]) [(ETry (ECall (EHole 0 [(id_Decode, []); (id_decode, [])]) [(EPath [(id_input, [])])]))])]).

(* oct/src/decode/decode/mod.rs:580 *)
Definition src_Decode_Rc_T : impl :=
  Impl [id_T] [] [((YPath [(id_T, [])]), [(id_Decode, [])])] (Some [(id_Decode, [])]) (YPath [(id_Rc, [(YPath [(id_T, [])])])])
    [] [(id_Error, (YPath [(id_T, []); (id_Error, [])]))] [src_Decode_Rc_T_decode].

(* oct/src/decode/decode/mod.rs:593 *)
Definition src_Decode_RefCell_T_decode : fn := Fn id_decode [] [((PVar id_input), (YRef true (YPath [(id_Input, [])])))] (YPath [(id_Result, [(YPath [(id_Self, [])]); (YPath [(id_Self, []); (id_Error, [])])])])
    (ELet (PVar id_value) None (Some (ETry (ECall (EHole 0 [(id_Decode, []); (id_decode, [])]) [(EPath [(id_input, [])])]))) None
      (ELet (PVar id_this) None (Some (ECall (EPath [(id_Self, []); (id_new, [])]) [(EPath [(id_value, [])])])) None
      (ECall (EPath [(id_Result, []); (id_Ok, [])]) [(EPath [(id_this, [])])]))).

(* oct/src/decode/decode/mod.rs:589 *)
Definition src_Decode_RefCell_T : impl :=
  Impl [id_T] [] [((YPath [(id_T, [])]), [(id_Decode, [])])] (Some [(id_Decode, [])]) (YPath [(id_RefCell, [(YPath [(id_T, [])])])])
    [] [(id_Error, (YPath [(id_T, []); (id_Error, [])]))] [src_Decode_RefCell_T_decode].

(* oct/src/decode/decode/mod.rs:609 *)
Definition src_Decode_Result_T_E_decode : fn := Fn id_decode [] [((PVar id_input), (YRef true (YPath [(id_Input, [])])))] (YPath [(id_Result, [(YPath [(id_Self, [])]); (YPath [(id_Self, []); (id_Error, [])])])])
    (ELet (PVar id_sign) None (Some (ETry (EMethod (ECall (EPath [(id_bool, []); (id_decode, [])]) [(EPath [(id_input, [])])]) id_map_err [] [(EPath [(id_EnumDecodeError, []); (id_InvalidDiscriminant, [])])]))) None
      (ELet (PVar id_this) None (Some (EIf (EPath [(id_sign, [])]) (ELet (PVar id_value) None (Some (ETry (EMethod (ECall (EHole 0 [(id_Decode, []); (id_decode, [])]) [(EPath [(id_input, [])])]) id_map_err [] [(EPath [(id_EnumDecodeError, []); (id_BadField, [])])]))) None
      (ECall (EPath [(id_Err, [])]) [(EPath [(id_value, [])])])) (ELet (PVar id_value) None (Some (ETry (EMethod (ECall (EHole 1 [(id_Decode, []); (id_decode, [])]) [(EPath [(id_input, [])])]) id_map_err [] [(EPath [(id_EnumDecodeError, []); (id_BadField, [])])]))) None
      (ECall (EPath [(id_Ok, [])]) [(EPath [(id_value, [])])])))) None
      (ECall (EPath [(id_Result, []); (id_Ok, [])]) [(EPath [(id_this, [])])]))).

(* oct/src/decode/decode/mod.rs:601 *)
Definition src_Decode_Result_T_E : impl :=
  Impl [id_T; id_E; id_Err] [] [((YPath [(id_T, [])]), [(id_Decode, [(YAssoc id_Error (YPath [(id_Err, [])]))])]); ((YPath [(id_E, [])]), [(id_Decode, [(YAssoc id_Error (YPath [(id_Err, [])]))])])] (Some [(id_Decode, [])]) (YPath [(id_Result, [(YPath [(id_T, [])]); (YPath [(id_E, [])])])])
    [] [(id_Error, (YPath [(id_EnumDecodeError, [(YPath [(id_bool, [])]); (YPath [(id_Err, [])])])]))] [src_Decode_Result_T_E_decode].

(* oct/src/decode/decode/mod.rs:635 *)
Definition src_Decode_RwLock_T_decode : fn := Fn id_decode [] [((PVar id_input), (YRef true (YPath [(id_Input, [])])))] (YPath [(id_Result, [(YPath [(id_Self, [])]); (YPath [(id_Self, []); (id_Error, [])])])])
    (ELet (PVar id_value) None (Some (ETry (ECall (EHole 0 [(id_Decode, []); (id_decode, [])]) [(EPath [(id_input, [])])]))) None
      (ELet (PVar id_this) None (Some (ECall (EPath [(id_Self, []); (id_new, [])]) [(EPath [(id_value, [])])])) None
      (ECall (EPath [(id_Result, []); (id_Ok, [])]) [(EPath [(id_this, [])])]))).

(* oct/src/decode/decode/mod.rs:631 *)
Definition src_Decode_RwLock_T : impl :=
  Impl [id_T] [] [((YPath [(id_T, [])]), [(id_Decode, [])])] (Some [(id_Decode, [])]) (YPath [(id_RwLock, [(YPath [(id_T, [])])])])
    [] [(id_Error, (YPath [(id_T, []); (id_Error, [])]))] [src_Decode_RwLock_T_decode].

(* oct/src/decode/decode/mod.rs:647 *)
Definition src_Decode_Saturating_T_decode : fn := Fn id_decode [] [((PVar id_input), (YRef true (YPath [(id_Input, [])])))] (YPath [(id_Result, [(YPath [(id_Self, [])]); (YPath [(id_Self, []); (id_Error, [])])])])
    (ELet (PVar id_value) None (Some (ETry (ECall (EHole 0 [(id_Decode, []); (id_decode, [])]) [(EPath [(id_input, [])])]))) None
      (ELet (PVar id_this) None (Some (ECall (EPath [(id_Self, [])]) [(EPath [(id_value, [])])])) None
      (ECall (EPath [(id_Result, []); (id_Ok, [])]) [(EPath [(id_this, [])])]))).

(* oct/src/decode/decode/mod.rs:643 *)
Definition src_Decode_Saturating_T : impl :=
  Impl [id_T] [] [((YPath [(id_T, [])]), [(id_Decode, [])])] (Some [(id_Decode, [])]) (YPath [(id_Saturating, [(YPath [(id_T, [])])])])
    [] [(id_Error, (YPath [(id_T, []); (id_Error, [])]))] [src_Decode_Saturating_T_decode].

(* oct/src/decode/decode/mod.rs:659 *)
Definition src_Decode_SocketAddr_decode : fn := Fn id_decode [] [((PVar id_input), (YRef true (YPath [(id_Input, [])])))] (YPath [(id_Result, [(YPath [(id_Self, [])]); (YPath [(id_Self, []); (id_Error, [])])])])
    (ELet (PCon [(id_Ok, [])] [(PVar id_discriminant)]) None (Some (ECall (EPath [(id_u8, []); (id_decode, [])]) [(EPath [(id_input, [])])])) None
      (EMatch (EPath [(id_discriminant, [])]) [((PLit (4)%Z), (ECall (EPath [(id_Result, []); (id_Ok, [])]) [(ECall (EPath [(id_Self, []); (id_V4, [])]) [(EMethod (ECall (EHole 0 [(id_Decode, []); (id_decode, [])]) [(EPath [(id_input, [])])]) id_unwrap [] [])])])); ((PLit (6)%Z), (ECall (EPath [(id_Result, []); (id_Ok, [])]) [(ECall (EPath [(id_Self, []); (id_V6, [])]) [(EMethod (ECall (EHole 1 [(id_Decode, []); (id_decode, [])]) [(EPath [(id_input, [])])]) id_unwrap [] [])])])); ((PVar id_value), (ECall (EPath [(id_Err, [])]) [(ERec [(id_EnumDecodeError, []); (id_UnassignedDiscriminant, [])] [(id_value, (EPath [(id_value, [])]))])]))])).

(* oct/src/decode/decode/mod.rs:655 *)
Definition src_Decode_SocketAddr : impl :=
  Impl [] [] [] (Some [(id_Decode, [])]) (YPath [(id_SocketAddr, [])])
    [] [(id_Error, (YPath [(id_EnumDecodeError, [(YPath [(id_u8, [])]); (YPath [(id_Infallible, [])])])]))] [src_Decode_SocketAddr_decode].

(* oct/src/decode/decode/mod.rs:675 *)
Definition src_Decode_SocketAddrV4_decode : fn := Fn id_decode [] [((PVar id_input), (YRef true (YPath [(id_Input, [])])))] (YPath [(id_Result, [(YPath [(id_Self, [])]); (YPath [(id_Self, []); (id_Error, [])])])])
    (ELet (PVar id_ip) None (Some (ETry (ECall (EHole 0 [(id_Decode, []); (id_decode, [])]) [(EPath [(id_input, [])])]))) None
      (ELet (PVar id_port) None (Some (ETry (ECall (EHole 1 [(id_Decode, []); (id_decode, [])]) [(EPath [(id_input, [])])]))) None
      (ELet (PVar id_this) None (Some (ECall (EPath [(id_Self, []); (id_new, [])]) [(EPath [(id_ip, [])]); (EPath [(id_port, [])])])) None
      (ECall (EPath [(id_Result, []); (id_Ok, [])]) [(EPath [(id_this, [])])])))).

(* oct/src/decode/decode/mod.rs:671 *)
Definition src_Decode_SocketAddrV4 : impl :=
  Impl [] [] [] (Some [(id_Decode, [])]) (YPath [(id_SocketAddrV4, [])])
    [] [(id_Error, (YPath [(id_Infallible, [])]))] [src_Decode_SocketAddrV4_decode].

(* oct/src/decode/decode/mod.rs:688 *)
Definition src_Decode_SocketAddrV6_decode : fn := Fn id_decode [] [((PVar id_input), (YRef true (YPath [(id_Input, [])])))] (YPath [(id_Result, [(YPath [(id_Self, [])]); (YPath [(id_Self, []); (id_Error, [])])])])
    (ELet (PVar id_ip) None (Some (ETry (ECall (EHole 0 [(id_Decode, []); (id_decode, [])]) [(EPath [(id_input, [])])]))) None
      (ELet (PVar id_port) None (Some (ETry (ECall (EHole 1 [(id_Decode, []); (id_decode, [])]) [(EPath [(id_input, [])])]))) None
      (ELet (PVar id_flow_info) None (Some (ETry (ECall (EHole 2 [(id_Decode, []); (id_decode, [])]) [(EPath [(id_input, [])])]))) None
      (ELet (PVar id_scope_id) None (Some (ETry (ECall (EHole 3 [(id_Decode, []); (id_decode, [])]) [(EPath [(id_input, [])])]))) None
      (ELet (PVar id_this) None (Some (ECall (EPath [(id_Self, []); (id_new, [])]) [(EPath [(id_ip, [])]); (EPath [(id_port, [])]); (EPath [(id_flow_info, [])]); (EPath [(id_scope_id, [])])])) None
      (ECall (EPath [(id_Result, []); (id_Ok, [])]) [(EPath [(id_this, [])])])))))).

(* oct/src/decode/decode/mod.rs:684 *)
Definition src_Decode_SocketAddrV6 : impl :=
  Impl [] [] [] (Some [(id_Decode, [])]) (YPath [(id_SocketAddrV6, [])])
    [] [(id_Error, (YPath [(id_Infallible, [])]))] [src_Decode_SocketAddrV6_decode].

(* oct/src/decode/decode/mod.rs:705 *)
Definition src_Decode_String_decode : fn := Fn id_decode [] [((PVar id_input), (YRef true (YPath [(id_Input, [])])))] (YPath [(id_Result, [(YPath [(id_Self, [])]); (YPath [(id_Self, []); (id_Error, [])])])])
    (ELet (PCon [(id_Ok, [])] [(PVar id_len)]) None (Some (ECall (EHole 0 [(id_Decode, []); (id_decode, [])]) [(EPath [(id_input, [])])])) None
      (ELet (PVar id_data) None (Some (EMethod (EMethod (EPath [(id_input, [])]) id_read [] [(EPath [(id_len, [])])]) id_unwrap [] [])) None
      (ESeq (EIfLet (PCon [(id_Err, [])] [(PVar id_e)]) (ECall (EPath [(id_str, []); (id_from_utf8, [])]) [(EPath [(id_data, [])])]) (ELet (PVar id_i) None (Some (EMethod (EPath [(id_e, [])]) id_valid_up_to [] [])) None
      (ELet (PVar id_c) None (Some (EIndex (EPath [(id_data, [])]) (EPath [(id_i, [])]))) None
      (ESeq (EReturn (ECall (EPath [(id_Err, [])]) [(ECall (EPath [(id_CollectionDecodeError, []); (id_BadItem, [])]) [(ERec [(id_Utf8Error, [])] [(id_value, (EPath [(id_c, [])])); (id_index, (EPath [(id_i, [])]))])])])) EUnit))) EUnit) (ELet (PVar id_v) None (Some (ECall (EPath [(id_Vec, []); (id_with_capacity, [])]) [(EPath [(id_len, [])])])) None
      (ESeq (ELet (PVar id_src) None (Some (EMethod (EPath [(id_data, [])]) id_as_ptr [] [])) None
      (ELet (PVar id_dst) None (Some (EMethod (EPath [(id_v, [])]) id_as_mut_ptr [] [])) None
      (ESeq (ECall (EPath [(id_copy_nonoverlapping, [])]) [(EPath [(id_src, [])]); (EPath [(id_dst, [])]); (EPath [(id_len, [])])]) (ESeq (EMethod (EPath [(id_v, [])]) id_set_len [] [(EPath [(id_len, [])])]) EUnit)))) (ELet (PVar id_this) None (Some (ECall (EPath [(id_Self, []); (id_from_utf8_unchecked, [])]) [(EPath [(id_v, [])])])) None
      (ECall (EPath [(id_Result, []); (id_Ok, [])]) [(EPath [(id_this, [])])]))))))).

(* oct/src/decode/decode/mod.rs:701 *)
Definition src_Decode_String : impl :=
  Impl [] [] [] (Some [(id_Decode, [])]) (YPath [(id_String, [])])
    [] [(id_Error, (YPath [(id_CollectionDecodeError, [(YPath [(id_Infallible, [])]); (YPath [(id_Utf8Error, [])])])]))] [src_Decode_String_decode].

(* oct/src/decode/decode/mod.rs:743 *)
Definition src_Decode_SystemTime_decode : fn := Fn id_decode [] [((PVar id_input), (YRef true (YPath [(id_Input, [])])))] (YPath [(id_Result, [(YPath [(id_Self, [])]); (YPath [(id_Self, []); (id_Error, [])])])])
    (ELet (PCon [(id_Ok, [])] [(PVar id_time)]) None (Some (ECall (EPath [(id_i64, []); (id_decode, [])]) [(EPath [(id_input, [])])])) None
      (ELet (PVar id_this) None (Some (EIf (EMethod (EPath [(id_time, [])]) id_is_positive [] []) (ELet (PVar id_time) None (Some (ECast (EPath [(id_time, [])]) (YPath [(id_u64, [])]))) None
      (EMethod (EPath [(id_UNIX_EPOCH, [])]) id_checked_add [] [(ECall (EPath [(id_Duration, []); (id_from_secs, [])]) [(EPath [(id_time, [])])])])) (ELet (PVar id_time) None (Some (EMethod (EPath [(id_time, [])]) id_unsigned_abs [] [])) None
      (EMethod (EPath [(id_UNIX_EPOCH, [])]) id_checked_sub [] [(ECall (EPath [(id_Duration, []); (id_from_secs, [])]) [(EPath [(id_time, [])])])])))) None
      (EMethod (EPath [(id_this, [])]) id_ok_or [] [(ERec [(id_SystemTimeDecodeError, [])] [(id_timestamp, (EPath [(id_time, [])]))])]))).

(* oct/src/decode/decode/mod.rs:739 *)
Definition src_Decode_SystemTime : impl :=
  Impl [] [] [] (Some [(id_Decode, [])]) (YPath [(id_SystemTime, [])])
    [] [(id_Error, (YPath [(id_SystemTimeDecodeError, [])]))] [src_Decode_SystemTime_decode].

(* oct/src/decode/decode/mod.rs:764 *)
Definition src_Decode_tuple0_decode : fn := Fn id_decode [] [((PVar id__input), (YRef true (YPath [(id_Input, [])])))] (YPath [(id_Result, [(YPath [(id_Self, [])]); (YPath [(id_Self, []); (id_Error, [])])])])
    (ECall (EPath [(id_Result, []); (id_Ok, [])]) [(ETuple [])]).

(* oct/src/decode/decode/mod.rs:760 *)
Definition src_Decode_tuple0 : impl :=
  Impl [] [] [] (Some [(id_Decode, [])]) (YTup [])
    [] [(id_Error, (YPath [(id_Infallible, [])]))] [src_Decode_tuple0_decode].

(* oct/src/decode/decode/mod.rs:773 *)
Definition src_Decode_usize_decode : fn := Fn id_decode [] [((PVar id_input), (YRef true (YPath [(id_Input, [])])))] (YPath [(id_Result, [(YPath [(id_Self, [])]); (YPath [(id_Self, []); (id_Error, [])])])])
    (ELet (PCon [(id_Ok, [])] [(PVar id_value)]) None (Some (ECall (EPath [(id_u16, []); (id_decode, [])]) [(EPath [(id_input, [])])])) None
      (ECall (EPath [(id_Result, []); (id_Ok, [])]) [(ECast (EPath [(id_value, [])]) (YPath [(id_Self, [])]))])).

(* oct/src/decode/decode/mod.rs:769 *)
Definition src_Decode_usize : impl :=
  Impl [] [] [] (Some [(id_Decode, [])]) (YPath [(id_usize, [])])
    [] [(id_Error, (YPath [(id_Infallible, [])]))] [src_Decode_usize_decode].

(* oct/src/decode/decode/mod.rs:785, a loop in it *)
Definition src_Decode_Vec_T_decode_loop0 : expr :=
    (ELet (PVar id_value) None (Some (ETry (EMethod (ECall (EHole 1 [(id_Decode, []); (id_decode, [])]) [(EPath [(id_input, [])])]) id_map_err [] [(EClosure [(PVar id_e)] (ECall (EPath [(id_CollectionDecodeError, []); (id_BadItem, [])]) [(ERec [(id_ItemDecodeError, [])] [(id_index, (EPath [(id_i, [])])); (id_error, (EPath [(id_e, [])]))])]))]))) None
      (ESeq (EMethod (EMethod (EPath [(id_buf, [])]) id_add [] [(EPath [(id_i, [])])]) id_write [] [(EPath [(id_value, [])])]) EUnit)).

(* oct/src/decode/decode/mod.rs:785 *)
Definition src_Decode_Vec_T_decode : fn := Fn id_decode [] [((PVar id_input), (YRef true (YPath [(id_Input, [])])))] (YPath [(id_Result, [(YPath [(id_Self, [])]); (YPath [(id_Self, []); (id_Error, [])])])])
    (ELet (PCon [(id_Ok, [])] [(PVar id_len)]) None (Some (ECall (EHole 0 [(id_Decode, []); (id_decode, [])]) [(EPath [(id_input, [])])])) None
      (ELet (PVar id_this) None (Some (ECall (EPath [(id_Self, []); (id_with_capacity, [])]) [(EPath [(id_len, [])])])) None
      (ELet (PVar id_buf) None (Some (EMethod (EPath [(id_this, [])]) id_as_mut_ptr [] [])) None
      (ESeq (EFor (PVar id_i) (ERange (Some (EInt (0)%Z None)) (Some (EPath [(id_len, [])])) false) src_Decode_Vec_T_decode_loop0) (ESeq (ESeq (EMethod (EPath [(id_this, [])]) id_set_len [] [(EPath [(id_len, [])])]) EUnit) (ECall (EPath [(id_Result, []); (id_Ok, [])]) [(EPath [(id_this, [])])])))))).

(* oct/src/decode/decode/mod.rs:781 *)
Definition src_Decode_Vec_T : impl :=
  Impl [id_T] [] [((YPath [(id_T, [])]), [(id_Decode, [])])] (Some [(id_Decode, [])]) (YPath [(id_Vec, [(YPath [(id_T, [])])])])
    [] [(id_Error, (YPath [(id_CollectionDecodeError, [(YPath [(id_Infallible, [])]); (YPath [(id_ItemDecodeError, [(YPath [(id_usize, [])]); (YPath [(id_T, []); (id_Error, [])])])])])]))] [src_Decode_Vec_T_decode].

(* oct/src/decode/decode/mod.rs:811 *)
Definition src_Decode_Wrapping_T_decode : fn := Fn id_decode [] [((PVar id_input), (YRef true (YPath [(id_Input, [])])))] (YPath [(id_Result, [(YPath [(id_Self, [])]); (YPath [(id_Self, []); (id_Error, [])])])])
    (ELet (PVar id_value) None (Some (ETry (ECall (EHole 0 [(id_Decode, []); (id_decode, [])]) [(EPath [(id_input, [])])]))) None
      (ELet (PVar id_this) None (Some (ECall (EPath [(id_Self, [])]) [(EPath [(id_value, [])])])) None
      (ECall (EPath [(id_Result, []); (id_Ok, [])]) [(EPath [(id_this, [])])]))).

(* oct/src/decode/decode/mod.rs:807 *)
Definition src_Decode_Wrapping_T : impl :=
  Impl [id_T] [] [((YPath [(id_T, [])]), [(id_Decode, [])])] (Some [(id_Decode, [])]) (YPath [(id_Wrapping, [(YPath [(id_T, [])])])])
    [] [(id_Error, (YPath [(id_T, []); (id_Error, [])]))] [src_Decode_Wrapping_T_decode].

(* oct/src/decode/decode/mod.rs:825 *)
Definition src_Decode_f32_decode : fn := Fn id_decode [] [((PVar id_input), (YRef true (YPath [(id_oct, []); (id_decode, []); (id_Input, [])])))] (YPath [(id_core, []); (id_result, []); (id_Result, [(YPath [(id_Self, [])]); (YPath [(id_Self, []); (id_Error, [])])])])
    (ELet (PVar id_data) None (Some (ERepeat (ECall (EPath [(id_core, []); (id_default, []); (id_Default, []); (id_default, [])]) []) (EQual (YPath [(id_Self, [])]) [(id_oct, []); (id_encode, []); (id_SizedEncode, [])] [(id_MAX_ENCODED_SIZE, [])]))) None
      (ESeq (EMethod (EMethod (EPath [(id_input, [])]) id_read_into [] [(ERef (EPath [(id_data, [])]))]) id_unwrap [] []) (ELet (PVar id_this) None (Some (ECall (EPath [(id_Self, []); (id_from_le_bytes, [])]) [(EPath [(id_data, [])])])) None
      (ECall (EPath [(id_core, []); (id_result, []); (id_Result, []); (id_Ok, [])]) [(EPath [(id_this, [])])])))).

(* oct/src/decode/decode/mod.rs:821 *)
Definition src_Decode_f32 : impl :=
  Impl [] [] [] (Some [(id_oct, []); (id_decode, []); (id_Decode, [])]) (YPath [(id_f32, [])])
    [] [(id_Error, (YPath [(id_core, []); (id_convert, []); (id_Infallible, [])]))] [src_Decode_f32_decode].

(* oct/src/decode/decode/mod.rs:825 *)
Definition src_Decode_f64_decode : fn := Fn id_decode [] [((PVar id_input), (YRef true (YPath [(id_oct, []); (id_decode, []); (id_Input, [])])))] (YPath [(id_core, []); (id_result, []); (id_Result, [(YPath [(id_Self, [])]); (YPath [(id_Self, []); (id_Error, [])])])])
    (ELet (PVar id_data) None (Some (ERepeat (ECall (EPath [(id_core, []); (id_default, []); (id_Default, []); (id_default, [])]) []) (EQual (YPath [(id_Self, [])]) [(id_oct, []); (id_encode, []); (id_SizedEncode, [])] [(id_MAX_ENCODED_SIZE, [])]))) None
      (ESeq (EMethod (EMethod (EPath [(id_input, [])]) id_read_into [] [(ERef (EPath [(id_data, [])]))]) id_unwrap [] []) (ELet (PVar id_this) None (Some (ECall (EPath [(id_Self, []); (id_from_le_bytes, [])]) [(EPath [(id_data, [])])])) None
      (ECall (EPath [(id_core, []); (id_result, []); (id_Result, []); (id_Ok, [])]) [(EPath [(id_this, [])])])))).

(* oct/src/decode/decode/mod.rs:821 *)
Definition src_Decode_f64 : impl :=
  Impl [] [] [] (Some [(id_oct, []); (id_decode, []); (id_Decode, [])]) (YPath [(id_f64, [])])
    [] [(id_Error, (YPath [(id_core, []); (id_convert, []); (id_Infallible, [])]))] [src_Decode_f64_decode].

(* oct/src/decode/decode/mod.rs:825 *)
Definition src_Decode_i128_decode : fn := Fn id_decode [] [((PVar id_input), (YRef true (YPath [(id_oct, []); (id_decode, []); (id_Input, [])])))] (YPath [(id_core, []); (id_result, []); (id_Result, [(YPath [(id_Self, [])]); (YPath [(id_Self, []); (id_Error, [])])])])
    (ELet (PVar id_data) None (Some (ERepeat (ECall (EPath [(id_core, []); (id_default, []); (id_Default, []); (id_default, [])]) []) (EQual (YPath [(id_Self, [])]) [(id_oct, []); (id_encode, []); (id_SizedEncode, [])] [(id_MAX_ENCODED_SIZE, [])]))) None
      (ESeq (EMethod (EMethod (EPath [(id_input, [])]) id_read_into [] [(ERef (EPath [(id_data, [])]))]) id_unwrap [] []) (ELet (PVar id_this) None (Some (ECall (EPath [(id_Self, []); (id_from_le_bytes, [])]) [(EPath [(id_data, [])])])) None
      (ECall (EPath [(id_core, []); (id_result, []); (id_Result, []); (id_Ok, [])]) [(EPath [(id_this, [])])])))).

(* oct/src/decode/decode/mod.rs:821 *)
Definition src_Decode_i128 : impl :=
  Impl [] [] [] (Some [(id_oct, []); (id_decode, []); (id_Decode, [])]) (YPath [(id_i128, [])])
    [] [(id_Error, (YPath [(id_core, []); (id_convert, []); (id_Infallible, [])]))] [src_Decode_i128_decode].

(* oct/src/decode/decode/mod.rs:825 *)
Definition src_Decode_i16_decode : fn := Fn id_decode [] [((PVar id_input), (YRef true (YPath [(id_oct, []); (id_decode, []); (id_Input, [])])))] (YPath [(id_core, []); (id_result, []); (id_Result, [(YPath [(id_Self, [])]); (YPath [(id_Self, []); (id_Error, [])])])])
    (ELet (PVar id_data) None (Some (ERepeat (ECall (EPath [(id_core, []); (id_default, []); (id_Default, []); (id_default, [])]) []) (EQual (YPath [(id_Self, [])]) [(id_oct, []); (id_encode, []); (id_SizedEncode, [])] [(id_MAX_ENCODED_SIZE, [])]))) None
      (ESeq (EMethod (EMethod (EPath [(id_input, [])]) id_read_into [] [(ERef (EPath [(id_data, [])]))]) id_unwrap [] []) (ELet (PVar id_this) None (Some (ECall (EPath [(id_Self, []); (id_from_le_bytes, [])]) [(EPath [(id_data, [])])])) None
      (ECall (EPath [(id_core, []); (id_result, []); (id_Result, []); (id_Ok, [])]) [(EPath [(id_this, [])])])))).

(* oct/src/decode/decode/mod.rs:821 *)
Definition src_Decode_i16 : impl :=
  Impl [] [] [] (Some [(id_oct, []); (id_decode, []); (id_Decode, [])]) (YPath [(id_i16, [])])
    [] [(id_Error, (YPath [(id_core, []); (id_convert, []); (id_Infallible, [])]))] [src_Decode_i16_decode].

(* oct/src/decode/decode/mod.rs:825 *)
Definition src_Decode_i32_decode : fn := Fn id_decode [] [((PVar id_input), (YRef true (YPath [(id_oct, []); (id_decode, []); (id_Input, [])])))] (YPath [(id_core, []); (id_result, []); (id_Result, [(YPath [(id_Self, [])]); (YPath [(id_Self, []); (id_Error, [])])])])
    (ELet (PVar id_data) None (Some (ERepeat (ECall (EPath [(id_core, []); (id_default, []); (id_Default, []); (id_default, [])]) []) (EQual (YPath [(id_Self, [])]) [(id_oct, []); (id_encode, []); (id_SizedEncode, [])] [(id_MAX_ENCODED_SIZE, [])]))) None
      (ESeq (EMethod (EMethod (EPath [(id_input, [])]) id_read_into [] [(ERef (EPath [(id_data, [])]))]) id_unwrap [] []) (ELet (PVar id_this) None (Some (ECall (EPath [(id_Self, []); (id_from_le_bytes, [])]) [(EPath [(id_data, [])])])) None
      (ECall (EPath [(id_core, []); (id_result, []); (id_Result, []); (id_Ok, [])]) [(EPath [(id_this, [])])])))).

(* oct/src/decode/decode/mod.rs:821 *)
Definition src_Decode_i32 : impl :=
  Impl [] [] [] (Some [(id_oct, []); (id_decode, []); (id_Decode, [])]) (YPath [(id_i32, [])])
    [] [(id_Error, (YPath [(id_core, []); (id_convert, []); (id_Infallible, [])]))] [src_Decode_i32_decode].

(* oct/src/decode/decode/mod.rs:825 *)
Definition src_Decode_i64_decode : fn := Fn id_decode [] [((PVar id_input), (YRef true (YPath [(id_oct, []); (id_decode, []); (id_Input, [])])))] (YPath [(id_core, []); (id_result, []); (id_Result, [(YPath [(id_Self, [])]); (YPath [(id_Self, []); (id_Error, [])])])])
    (ELet (PVar id_data) None (Some (ERepeat (ECall (EPath [(id_core, []); (id_default, []); (id_Default, []); (id_default, [])]) []) (EQual (YPath [(id_Self, [])]) [(id_oct, []); (id_encode, []); (id_SizedEncode, [])] [(id_MAX_ENCODED_SIZE, [])]))) None
      (ESeq (EMethod (EMethod (EPath [(id_input, [])]) id_read_into [] [(ERef (EPath [(id_data, [])]))]) id_unwrap [] []) (ELet (PVar id_this) None (Some (ECall (EPath [(id_Self, []); (id_from_le_bytes, [])]) [(EPath [(id_data, [])])])) None
      (ECall (EPath [(id_core, []); (id_result, []); (id_Result, []); (id_Ok, [])]) [(EPath [(id_this, [])])])))).

(* oct/src/decode/decode/mod.rs:821 *)
Definition src_Decode_i64 : impl :=
  Impl [] [] [] (Some [(id_oct, []); (id_decode, []); (id_Decode, [])]) (YPath [(id_i64, [])])
    [] [(id_Error, (YPath [(id_core, []); (id_convert, []); (id_Infallible, [])]))] [src_Decode_i64_decode].

(* oct/src/decode/decode/mod.rs:825 *)
Definition src_Decode_i8_decode : fn := Fn id_decode [] [((PVar id_input), (YRef true (YPath [(id_oct, []); (id_decode, []); (id_Input, [])])))] (YPath [(id_core, []); (id_result, []); (id_Result, [(YPath [(id_Self, [])]); (YPath [(id_Self, []); (id_Error, [])])])])
    (ELet (PVar id_data) None (Some (ERepeat (ECall (EPath [(id_core, []); (id_default, []); (id_Default, []); (id_default, [])]) []) (EQual (YPath [(id_Self, [])]) [(id_oct, []); (id_encode, []); (id_SizedEncode, [])] [(id_MAX_ENCODED_SIZE, [])]))) None
      (ESeq (EMethod (EMethod (EPath [(id_input, [])]) id_read_into [] [(ERef (EPath [(id_data, [])]))]) id_unwrap [] []) (ELet (PVar id_this) None (Some (ECall (EPath [(id_Self, []); (id_from_le_bytes, [])]) [(EPath [(id_data, [])])])) None
      (ECall (EPath [(id_core, []); (id_result, []); (id_Result, []); (id_Ok, [])]) [(EPath [(id_this, [])])])))).

(* oct/src/decode/decode/mod.rs:821 *)
Definition src_Decode_i8 : impl :=
  Impl [] [] [] (Some [(id_oct, []); (id_decode, []); (id_Decode, [])]) (YPath [(id_i8, [])])
    [] [(id_Error, (YPath [(id_core, []); (id_convert, []); (id_Infallible, [])]))] [src_Decode_i8_decode].

(* oct/src/decode/decode/mod.rs:825 *)
Definition src_Decode_u128_decode : fn := Fn id_decode [] [((PVar id_input), (YRef true (YPath [(id_oct, []); (id_decode, []); (id_Input, [])])))] (YPath [(id_core, []); (id_result, []); (id_Result, [(YPath [(id_Self, [])]); (YPath [(id_Self, []); (id_Error, [])])])])
    (ELet (PVar id_data) None (Some (ERepeat (ECall (EPath [(id_core, []); (id_default, []); (id_Default, []); (id_default, [])]) []) (EQual (YPath [(id_Self, [])]) [(id_oct, []); (id_encode, []); (id_SizedEncode, [])] [(id_MAX_ENCODED_SIZE, [])]))) None
      (ESeq (EMethod (EMethod (EPath [(id_input, [])]) id_read_into [] [(ERef (EPath [(id_data, [])]))]) id_unwrap [] []) (ELet (PVar id_this) None (Some (ECall (EPath [(id_Self, []); (id_from_le_bytes, [])]) [(EPath [(id_data, [])])])) None
      (ECall (EPath [(id_core, []); (id_result, []); (id_Result, []); (id_Ok, [])]) [(EPath [(id_this, [])])])))).

(* oct/src/decode/decode/mod.rs:821 *)
Definition src_Decode_u128 : impl :=
  Impl [] [] [] (Some [(id_oct, []); (id_decode, []); (id_Decode, [])]) (YPath [(id_u128, [])])
    [] [(id_Error, (YPath [(id_core, []); (id_convert, []); (id_Infallible, [])]))] [src_Decode_u128_decode].

(* oct/src/decode/decode/mod.rs:825 *)
Definition src_Decode_u16_decode : fn := Fn id_decode [] [((PVar id_input), (YRef true (YPath [(id_oct, []); (id_decode, []); (id_Input, [])])))] (YPath [(id_core, []); (id_result, []); (id_Result, [(YPath [(id_Self, [])]); (YPath [(id_Self, []); (id_Error, [])])])])
    (ELet (PVar id_data) None (Some (ERepeat (ECall (EPath [(id_core, []); (id_default, []); (id_Default, []); (id_default, [])]) []) (EQual (YPath [(id_Self, [])]) [(id_oct, []); (id_encode, []); (id_SizedEncode, [])] [(id_MAX_ENCODED_SIZE, [])]))) None
      (ESeq (EMethod (EMethod (EPath [(id_input, [])]) id_read_into [] [(ERef (EPath [(id_data, [])]))]) id_unwrap [] []) (ELet (PVar id_this) None (Some (ECall (EPath [(id_Self, []); (id_from_le_bytes, [])]) [(EPath [(id_data, [])])])) None
      (ECall (EPath [(id_core, []); (id_result, []); (id_Result, []); (id_Ok, [])]) [(EPath [(id_this, [])])])))).

(* oct/src/decode/decode/mod.rs:821 *)
Definition src_Decode_u16 : impl :=
  Impl [] [] [] (Some [(id_oct, []); (id_decode, []); (id_Decode, [])]) (YPath [(id_u16, [])])
    [] [(id_Error, (YPath [(id_core, []); (id_convert, []); (id_Infallible, [])]))] [src_Decode_u16_decode].

(* oct/src/decode/decode/mod.rs:825 *)
Definition src_Decode_u32_decode : fn := Fn id_decode [] [((PVar id_input), (YRef true (YPath [(id_oct, []); (id_decode, []); (id_Input, [])])))] (YPath [(id_core, []); (id_result, []); (id_Result, [(YPath [(id_Self, [])]); (YPath [(id_Self, []); (id_Error, [])])])])
    (ELet (PVar id_data) None (Some (ERepeat (ECall (EPath [(id_core, []); (id_default, []); (id_Default, []); (id_default, [])]) []) (EQual (YPath [(id_Self, [])]) [(id_oct, []); (id_encode, []); (id_SizedEncode, [])] [(id_MAX_ENCODED_SIZE, [])]))) None
      (ESeq (EMethod (EMethod (EPath [(id_input, [])]) id_read_into [] [(ERef (EPath [(id_data, [])]))]) id_unwrap [] []) (ELet (PVar id_this) None (Some (ECall (EPath [(id_Self, []); (id_from_le_bytes, [])]) [(EPath [(id_data, [])])])) None
      (ECall (EPath [(id_core, []); (id_result, []); (id_Result, []); (id_Ok, [])]) [(EPath [(id_this, [])])])))).

(* oct/src/decode/decode/mod.rs:821 *)
Definition src_Decode_u32 : impl :=
  Impl [] [] [] (Some [(id_oct, []); (id_decode, []); (id_Decode, [])]) (YPath [(id_u32, [])])
    [] [(id_Error, (YPath [(id_core, []); (id_convert, []); (id_Infallible, [])]))] [src_Decode_u32_decode].

(* oct/src/decode/decode/mod.rs:825 *)
Definition src_Decode_u64_decode : fn := Fn id_decode [] [((PVar id_input), (YRef true (YPath [(id_oct, []); (id_decode, []); (id_Input, [])])))] (YPath [(id_core, []); (id_result, []); (id_Result, [(YPath [(id_Self, [])]); (YPath [(id_Self, []); (id_Error, [])])])])
    (ELet (PVar id_data) None (Some (ERepeat (ECall (EPath [(id_core, []); (id_default, []); (id_Default, []); (id_default, [])]) []) (EQual (YPath [(id_Self, [])]) [(id_oct, []); (id_encode, []); (id_SizedEncode, [])] [(id_MAX_ENCODED_SIZE, [])]))) None
      (ESeq (EMethod (EMethod (EPath [(id_input, [])]) id_read_into [] [(ERef (EPath [(id_data, [])]))]) id_unwrap [] []) (ELet (PVar id_this) None (Some (ECall (EPath [(id_Self, []); (id_from_le_bytes, [])]) [(EPath [(id_data, [])])])) None
      (ECall (EPath [(id_core, []); (id_result, []); (id_Result, []); (id_Ok, [])]) [(EPath [(id_this, [])])])))).

(* oct/src/decode/decode/mod.rs:821 *)
Definition src_Decode_u64 : impl :=
  Impl [] [] [] (Some [(id_oct, []); (id_decode, []); (id_Decode, [])]) (YPath [(id_u64, [])])
    [] [(id_Error, (YPath [(id_core, []); (id_convert, []); (id_Infallible, [])]))] [src_Decode_u64_decode].

(* oct/src/decode/decode/mod.rs:825 *)
Definition src_Decode_u8_decode : fn := Fn id_decode [] [((PVar id_input), (YRef true (YPath [(id_oct, []); (id_decode, []); (id_Input, [])])))] (YPath [(id_core, []); (id_result, []); (id_Result, [(YPath [(id_Self, [])]); (YPath [(id_Self, []); (id_Error, [])])])])
    (ELet (PVar id_data) None (Some (ERepeat (ECall (EPath [(id_core, []); (id_default, []); (id_Default, []); (id_default, [])]) []) (EQual (YPath [(id_Self, [])]) [(id_oct, []); (id_encode, []); (id_SizedEncode, [])] [(id_MAX_ENCODED_SIZE, [])]))) None
      (ESeq (EMethod (EMethod (EPath [(id_input, [])]) id_read_into [] [(ERef (EPath [(id_data, [])]))]) id_unwrap [] []) (ELet (PVar id_this) None (Some (ECall (EPath [(id_Self, []); (id_from_le_bytes, [])]) [(EPath [(id_data, [])])])) None
      (ECall (EPath [(id_core, []); (id_result, []); (id_Result, []); (id_Ok, [])]) [(EPath [(id_this, [])])])))).

(* oct/src/decode/decode/mod.rs:821 *)
Definition src_Decode_u8 : impl :=
  Impl [] [] [] (Some [(id_oct, []); (id_decode, []); (id_Decode, [])]) (YPath [(id_u8, [])])
    [] [(id_Error, (YPath [(id_core, []); (id_convert, []); (id_Infallible, [])]))] [src_Decode_u8_decode].

(* oct/src/decode/decode/mod.rs:848 *)
Definition src_Decode_tuple2_decode : fn := Fn id_decode [] [((PVar id_input), (YRef true (YPath [(id_oct, []); (id_decode, []); (id_Input, [])])))] (YPath [(id_core, []); (id_result, []); (id_Result, [(YPath [(id_Self, [])]); (YPath [(id_Self, []); (id_Error, [])])])])
    (ELet (PVar id_this) None (Some (ETuple [(ETry (ECall (EQual (YPath [(id_T0, [])]) [(id_oct, []); (id_decode, []); (id_Decode, [])] [(id_decode, [])]) [(EPath [(id_input, [])])])); (ETry (ECall (EQual (YPath [(id_T1, [])]) [(id_oct, []); (id_decode, []); (id_Decode, [])] [(id_decode, [])]) [(EPath [(id_input, [])])]))])) None
      (ECall (EPath [(id_core, []); (id_result, []); (id_Result, []); (id_Ok, [])]) [(EPath [(id_this, [])])])).

(* oct/src/decode/decode/mod.rs:841 *)
Definition src_Decode_tuple2 : impl :=
  Impl [id_T0; id_T1; id_E] [] [((YPath [(id_T0, [])]), [(id_Decode, [(YAssoc id_Error (YPath [(id_E, [])]))])]); ((YPath [(id_T1, [])]), [(id_Decode, [(YAssoc id_Error (YPath [(id_E, [])]))])])] (Some [(id_oct, []); (id_decode, []); (id_Decode, [])]) (YTup [(YPath [(id_T0, [])]); (YPath [(id_T1, [])])])
    [] [(id_Error, (YPath [(id_E, [])]))] [src_Decode_tuple2_decode].

(* oct/src/decode/decode/mod.rs:848 *)
Definition src_Decode_tuple3_decode : fn := Fn id_decode [] [((PVar id_input), (YRef true (YPath [(id_oct, []); (id_decode, []); (id_Input, [])])))] (YPath [(id_core, []); (id_result, []); (id_Result, [(YPath [(id_Self, [])]); (YPath [(id_Self, []); (id_Error, [])])])])
    (ELet (PVar id_this) None (Some (ETuple [(ETry (ECall (EQual (YPath [(id_T0, [])]) [(id_oct, []); (id_decode, []); (id_Decode, [])] [(id_decode, [])]) [(EPath [(id_input, [])])])); (ETry (ECall (EQual (YPath [(id_T1, [])]) [(id_oct, []); (id_decode, []); (id_Decode, [])] [(id_decode, [])]) [(EPath [(id_input, [])])])); (ETry (ECall (EQual (YPath [(id_T2, [])]) [(id_oct, []); (id_decode, []); (id_Decode, [])] [(id_decode, [])]) [(EPath [(id_input, [])])]))])) None
      (ECall (EPath [(id_core, []); (id_result, []); (id_Result, []); (id_Ok, [])]) [(EPath [(id_this, [])])])).

(* oct/src/decode/decode/mod.rs:841 *)
Definition src_Decode_tuple3 : impl :=
  Impl [id_T0; id_T1; id_T2; id_E] [] [((YPath [(id_T0, [])]), [(id_Decode, [(YAssoc id_Error (YPath [(id_E, [])]))])]); ((YPath [(id_T1, [])]), [(id_Decode, [(YAssoc id_Error (YPath [(id_E, [])]))])]); ((YPath [(id_T2, [])]), [(id_Decode, [(YAssoc id_Error (YPath [(id_E, [])]))])])] (Some [(id_oct, []); (id_decode, []); (id_Decode, [])]) (YTup [(YPath [(id_T0, [])]); (YPath [(id_T1, [])]); (YPath [(id_T2, [])])])
    [] [(id_Error, (YPath [(id_E, [])]))] [src_Decode_tuple3_decode].

(* oct/src/decode/decode/mod.rs:848 *)
Definition src_Decode_tuple4_decode : fn := Fn id_decode [] [((PVar id_input), (YRef true (YPath [(id_oct, []); (id_decode, []); (id_Input, [])])))] (YPath [(id_core, []); (id_result, []); (id_Result, [(YPath [(id_Self, [])]); (YPath [(id_Self, []); (id_Error, [])])])])
    (ELet (PVar id_this) None (Some (ETuple [(ETry (ECall (EQual (YPath [(id_T0, [])]) [(id_oct, []); (id_decode, []); (id_Decode, [])] [(id_decode, [])]) [(EPath [(id_input, [])])])); (ETry (ECall (EQual (YPath [(id_T1, [])]) [(id_oct, []); (id_decode, []); (id_Decode, [])] [(id_decode, [])]) [(EPath [(id_input, [])])])); (ETry (ECall (EQual (YPath [(id_T2, [])]) [(id_oct, []); (id_decode, []); (id_Decode, [])] [(id_decode, [])]) [(EPath [(id_input, [])])])); (ETry (ECall (EQual (YPath [(id_T3, [])]) [(id_oct, []); (id_decode, []); (id_Decode, [])] [(id_decode, [])]) [(EPath [(id_input, [])])]))])) None
      (ECall (EPath [(id_core, []); (id_result, []); (id_Result, []); (id_Ok, [])]) [(EPath [(id_this, [])])])).

(* oct/src/decode/decode/mod.rs:841 *)
Definition src_Decode_tuple4 : impl :=
  Impl [id_T0; id_T1; id_T2; id_T3; id_E] [] [((YPath [(id_T0, [])]), [(id_Decode, [(YAssoc id_Error (YPath [(id_E, [])]))])]); ((YPath [(id_T1, [])]), [(id_Decode, [(YAssoc id_Error (YPath [(id_E, [])]))])]); ((YPath [(id_T2, [])]), [(id_Decode, [(YAssoc id_Error (YPath [(id_E, [])]))])]); ((YPath [(id_T3, [])]), [(id_Decode, [(YAssoc id_Error (YPath [(id_E, [])]))])])] (Some [(id_oct, []); (id_decode, []); (id_Decode, [])]) (YTup [(YPath [(id_T0, [])]); (YPath [(id_T1, [])]); (YPath [(id_T2, [])]); (YPath [(id_T3, [])])])
    [] [(id_Error, (YPath [(id_E, [])]))] [src_Decode_tuple4_decode].

(* oct/src/decode/decode/mod.rs:848 *)
Definition src_Decode_tuple5_decode : fn := Fn id_decode [] [((PVar id_input), (YRef true (YPath [(id_oct, []); (id_decode, []); (id_Input, [])])))] (YPath [(id_core, []); (id_result, []); (id_Result, [(YPath [(id_Self, [])]); (YPath [(id_Self, []); (id_Error, [])])])])
    (ELet (PVar id_this) None (Some (ETuple [(ETry (ECall (EQual (YPath [(id_T0, [])]) [(id_oct, []); (id_decode, []); (id_Decode, [])] [(id_decode, [])]) [(EPath [(id_input, [])])])); (ETry (ECall (EQual (YPath [(id_T1, [])]) [(id_oct, []); (id_decode, []); (id_Decode, [])] [(id_decode, [])]) [(EPath [(id_input, [])])])); (ETry (ECall (EQual (YPath [(id_T2, [])]) [(id_oct, []); (id_decode, []); (id_Decode, [])] [(id_decode, [])]) [(EPath [(id_input, [])])])); (ETry (ECall (EQual (YPath [(id_T3, [])]) [(id_oct, []); (id_decode, []); (id_Decode, [])] [(id_decode, [])]) [(EPath [(id_input, [])])])); (ETry (ECall (EQual (YPath [(id_T4, [])]) [(id_oct, []); (id_decode, []); (id_Decode, [])] [(id_decode, [])]) [(EPath [(id_input, [])])]))])) None
      (ECall (EPath [(id_core, []); (id_result, []); (id_Result, []); (id_Ok, [])]) [(EPath [(id_this, [])])])).

(* oct/src/decode/decode/mod.rs:841 *)
Definition src_Decode_tuple5 : impl :=
  Impl [id_T0; id_T1; id_T2; id_T3; id_T4; id_E] [] [((YPath [(id_T0, [])]), [(id_Decode, [(YAssoc id_Error (YPath [(id_E, [])]))])]); ((YPath [(id_T1, [])]), [(id_Decode, [(YAssoc id_Error (YPath [(id_E, [])]))])]); ((YPath [(id_T2, [])]), [(id_Decode, [(YAssoc id_Error (YPath [(id_E, [])]))])]); ((YPath [(id_T3, [])]), [(id_Decode, [(YAssoc id_Error (YPath [(id_E, [])]))])]); ((YPath [(id_T4, [])]), [(id_Decode, [(YAssoc id_Error (YPath [(id_E, [])]))])])] (Some [(id_oct, []); (id_decode, []); (id_Decode, [])]) (YTup [(YPath [(id_T0, [])]); (YPath [(id_T1, [])]); (YPath [(id_T2, [])]); (YPath [(id_T3, [])]); (YPath [(id_T4, [])])])
    [] [(id_Error, (YPath [(id_E, [])]))] [src_Decode_tuple5_decode].

(* oct/src/decode/decode/mod.rs:848 *)
Definition src_Decode_tuple6_decode : fn := Fn id_decode [] [((PVar id_input), (YRef true (YPath [(id_oct, []); (id_decode, []); (id_Input, [])])))] (YPath [(id_core, []); (id_result, []); (id_Result, [(YPath [(id_Self, [])]); (YPath [(id_Self, []); (id_Error, [])])])])
    (ELet (PVar id_this) None (Some (ETuple [(ETry (ECall (EQual (YPath [(id_T0, [])]) [(id_oct, []); (id_decode, []); (id_Decode, [])] [(id_decode, [])]) [(EPath [(id_input, [])])])); (ETry (ECall (EQual (YPath [(id_T1, [])]) [(id_oct, []); (id_decode, []); (id_Decode, [])] [(id_decode, [])]) [(EPath [(id_input, [])])])); (ETry (ECall (EQual (YPath [(id_T2, [])]) [(id_oct, []); (id_decode, []); (id_Decode, [])] [(id_decode, [])]) [(EPath [(id_input, [])])])); (ETry (ECall (EQual (YPath [(id_T3, [])]) [(id_oct, []); (id_decode, []); (id_Decode, [])] [(id_decode, [])]) [(EPath [(id_input, [])])])); (ETry (ECall (EQual (YPath [(id_T4, [])]) [(id_oct, []); (id_decode, []); (id_Decode, [])] [(id_decode, [])]) [(EPath [(id_input, [])])])); (ETry (ECall (EQual (YPath [(id_T5, [])]) [(id_oct, []); (id_decode, []); (id_Decode, [])] [(id_decode, [])]) [(EPath [(id_input, [])])]))])) None
      (ECall (EPath [(id_core, []); (id_result, []); (id_Result, []); (id_Ok, [])]) [(EPath [(id_this, [])])])).

(* oct/src/decode/decode/mod.rs:841 *)
Definition src_Decode_tuple6 : impl :=
  Impl [id_T0; id_T1; id_T2; id_T3; id_T4; id_T5; id_E] [] [((YPath [(id_T0, [])]), [(id_Decode, [(YAssoc id_Error (YPath [(id_E, [])]))])]); ((YPath [(id_T1, [])]), [(id_Decode, [(YAssoc id_Error (YPath [(id_E, [])]))])]); ((YPath [(id_T2, [])]), [(id_Decode, [(YAssoc id_Error (YPath [(id_E, [])]))])]); ((YPath [(id_T3, [])]), [(id_Decode, [(YAssoc id_Error (YPath [(id_E, [])]))])]); ((YPath [(id_T4, [])]), [(id_Decode, [(YAssoc id_Error (YPath [(id_E, [])]))])]); ((YPath [(id_T5, [])]), [(id_Decode, [(YAssoc id_Error (YPath [(id_E, [])]))])])] (Some [(id_oct, []); (id_decode, []); (id_Decode, [])]) (YTup [(YPath [(id_T0, [])]); (YPath [(id_T1, [])]); (YPath [(id_T2, [])]); (YPath [(id_T3, [])]); (YPath [(id_T4, [])]); (YPath [(id_T5, [])])])
    [] [(id_Error, (YPath [(id_E, [])]))] [src_Decode_tuple6_decode].

(* oct/src/decode/decode/mod.rs:848 *)
Definition src_Decode_tuple7_decode : fn := Fn id_decode [] [((PVar id_input), (YRef true (YPath [(id_oct, []); (id_decode, []); (id_Input, [])])))] (YPath [(id_core, []); (id_result, []); (id_Result, [(YPath [(id_Self, [])]); (YPath [(id_Self, []); (id_Error, [])])])])
    (ELet (PVar id_this) None (Some (ETuple [(ETry (ECall (EQual (YPath [(id_T0, [])]) [(id_oct, []); (id_decode, []); (id_Decode, [])] [(id_decode, [])]) [(EPath [(id_input, [])])])); (ETry (ECall (EQual (YPath [(id_T1, [])]) [(id_oct, []); (id_decode, []); (id_Decode, [])] [(id_decode, [])]) [(EPath [(id_input, [])])])); (ETry (ECall (EQual (YPath [(id_T2, [])]) [(id_oct, []); (id_decode, []); (id_Decode, [])] [(id_decode, [])]) [(EPath [(id_input, [])])])); (ETry (ECall (EQual (YPath [(id_T3, [])]) [(id_oct, []); (id_decode, []); (id_Decode, [])] [(id_decode, [])]) [(EPath [(id_input, [])])])); (ETry (ECall (EQual (YPath [(id_T4, [])]) [(id_oct, []); (id_decode, []); (id_Decode, [])] [(id_decode, [])]) [(EPath [(id_input, [])])])); (ETry (ECall (EQual (YPath [(id_T5, [])]) [(id_oct, []); (id_decode, []); (id_Decode, [])] [(id_decode, [])]) [(EPath [(id_input, [])])])); (ETry (ECall (EQual (YPath [(id_T6, [])]) [(id_oct, []); (id_decode, []); (id_Decode, [])] [(id_decode, [])]) [(EPath [(id_input, [])])]))])) None
      (ECall (EPath [(id_core, []); (id_result, []); (id_Result, []); (id_Ok, [])]) [(EPath [(id_this, [])])])).

(* oct/src/decode/decode/mod.rs:841 *)
Definition src_Decode_tuple7 : impl :=
  Impl [id_T0; id_T1; id_T2; id_T3; id_T4; id_T5; id_T6; id_E] [] [((YPath [(id_T0, [])]), [(id_Decode, [(YAssoc id_Error (YPath [(id_E, [])]))])]); ((YPath [(id_T1, [])]), [(id_Decode, [(YAssoc id_Error (YPath [(id_E, [])]))])]); ((YPath [(id_T2, [])]), [(id_Decode, [(YAssoc id_Error (YPath [(id_E, [])]))])]); ((YPath [(id_T3, [])]), [(id_Decode, [(YAssoc id_Error (YPath [(id_E, [])]))])]); ((YPath [(id_T4, [])]), [(id_Decode, [(YAssoc id_Error (YPath [(id_E, [])]))])]); ((YPath [(id_T5, [])]), [(id_Decode, [(YAssoc id_Error (YPath [(id_E, [])]))])]); ((YPath [(id_T6, [])]), [(id_Decode, [(YAssoc id_Error (YPath [(id_E, [])]))])])] (Some [(id_oct, []); (id_decode, []); (id_Decode, [])]) (YTup [(YPath [(id_T0, [])]); (YPath [(id_T1, [])]); (YPath [(id_T2, [])]); (YPath [(id_T3, [])]); (YPath [(id_T4, [])]); (YPath [(id_T5, [])]); (YPath [(id_T6, [])])])
    [] [(id_Error, (YPath [(id_E, [])]))] [src_Decode_tuple7_decode].

(* oct/src/decode/decode/mod.rs:848 *)
Definition src_Decode_tuple8_decode : fn := Fn id_decode [] [((PVar id_input), (YRef true (YPath [(id_oct, []); (id_decode, []); (id_Input, [])])))] (YPath [(id_core, []); (id_result, []); (id_Result, [(YPath [(id_Self, [])]); (YPath [(id_Self, []); (id_Error, [])])])])
    (ELet (PVar id_this) None (Some (ETuple [(ETry (ECall (EQual (YPath [(id_T0, [])]) [(id_oct, []); (id_decode, []); (id_Decode, [])] [(id_decode, [])]) [(EPath [(id_input, [])])])); (ETry (ECall (EQual (YPath [(id_T1, [])]) [(id_oct, []); (id_decode, []); (id_Decode, [])] [(id_decode, [])]) [(EPath [(id_input, [])])])); (ETry (ECall (EQual (YPath [(id_T2, [])]) [(id_oct, []); (id_decode, []); (id_Decode, [])] [(id_decode, [])]) [(EPath [(id_input, [])])])); (ETry (ECall (EQual (YPath [(id_T3, [])]) [(id_oct, []); (id_decode, []); (id_Decode, [])] [(id_decode, [])]) [(EPath [(id_input, [])])])); (ETry (ECall (EQual (YPath [(id_T4, [])]) [(id_oct, []); (id_decode, []); (id_Decode, [])] [(id_decode, [])]) [(EPath [(id_input, [])])])); (ETry (ECall (EQual (YPath [(id_T5, [])]) [(id_oct, []); (id_decode, []); (id_Decode, [])] [(id_decode, [])]) [(EPath [(id_input, [])])])); (ETry (ECall (EQual (YPath [(id_T6, [])]) [(id_oct, []); (id_decode, []); (id_Decode, [])] [(id_decode, [])]) [(EPath [(id_input, [])])])); (ETry (ECall (EQual (YPath [(id_T7, [])]) [(id_oct, []); (id_decode, []); (id_Decode, [])] [(id_decode, [])]) [(EPath [(id_input, [])])]))])) None
      (ECall (EPath [(id_core, []); (id_result, []); (id_Result, []); (id_Ok, [])]) [(EPath [(id_this, [])])])).

(* oct/src/decode/decode/mod.rs:841 *)
Definition src_Decode_tuple8 : impl :=
  Impl [id_T0; id_T1; id_T2; id_T3; id_T4; id_T5; id_T6; id_T7; id_E] [] [((YPath [(id_T0, [])]), [(id_Decode, [(YAssoc id_Error (YPath [(id_E, [])]))])]); ((YPath [(id_T1, [])]), [(id_Decode, [(YAssoc id_Error (YPath [(id_E, [])]))])]); ((YPath [(id_T2, [])]), [(id_Decode, [(YAssoc id_Error (YPath [(id_E, [])]))])]); ((YPath [(id_T3, [])]), [(id_Decode, [(YAssoc id_Error (YPath [(id_E, [])]))])]); ((YPath [(id_T4, [])]), [(id_Decode, [(YAssoc id_Error (YPath [(id_E, [])]))])]); ((YPath [(id_T5, [])]), [(id_Decode, [(YAssoc id_Error (YPath [(id_E, [])]))])]); ((YPath [(id_T6, [])]), [(id_Decode, [(YAssoc id_Error (YPath [(id_E, [])]))])]); ((YPath [(id_T7, [])]), [(id_Decode, [(YAssoc id_Error (YPath [(id_E, [])]))])])] (Some [(id_oct, []); (id_decode, []); (id_Decode, [])]) (YTup [(YPath [(id_T0, [])]); (YPath [(id_T1, [])]); (YPath [(id_T2, [])]); (YPath [(id_T3, [])]); (YPath [(id_T4, [])]); (YPath [(id_T5, [])]); (YPath [(id_T6, [])]); (YPath [(id_T7, [])])])
    [] [(id_Error, (YPath [(id_E, [])]))] [src_Decode_tuple8_decode].

(* oct/src/decode/decode/mod.rs:848 *)
Definition src_Decode_tuple9_decode : fn := Fn id_decode [] [((PVar id_input), (YRef true (YPath [(id_oct, []); (id_decode, []); (id_Input, [])])))] (YPath [(id_core, []); (id_result, []); (id_Result, [(YPath [(id_Self, [])]); (YPath [(id_Self, []); (id_Error, [])])])])
    (ELet (PVar id_this) None (Some (ETuple [(ETry (ECall (EQual (YPath [(id_T0, [])]) [(id_oct, []); (id_decode, []); (id_Decode, [])] [(id_decode, [])]) [(EPath [(id_input, [])])])); (ETry (ECall (EQual (YPath [(id_T1, [])]) [(id_oct, []); (id_decode, []); (id_Decode, [])] [(id_decode, [])]) [(EPath [(id_input, [])])])); (ETry (ECall (EQual (YPath [(id_T2, [])]) [(id_oct, []); (id_decode, []); (id_Decode, [])] [(id_decode, [])]) [(EPath [(id_input, [])])])); (ETry (ECall (EQual (YPath [(id_T3, [])]) [(id_oct, []); (id_decode, []); (id_Decode, [])] [(id_decode, [])]) [(EPath [(id_input, [])])])); (ETry (ECall (EQual (YPath [(id_T4, [])]) [(id_oct, []); (id_decode, []); (id_Decode, [])] [(id_decode, [])]) [(EPath [(id_input, [])])])); (ETry (ECall (EQual (YPath [(id_T5, [])]) [(id_oct, []); (id_decode, []); (id_Decode, [])] [(id_decode, [])]) [(EPath [(id_input, [])])])); (ETry (ECall (EQual (YPath [(id_T6, [])]) [(id_oct, []); (id_decode, []); (id_Decode, [])] [(id_decode, [])]) [(EPath [(id_input, [])])])); (ETry (ECall (EQual (YPath [(id_T7, [])]) [(id_oct, []); (id_decode, []); (id_Decode, [])] [(id_decode, [])]) [(EPath [(id_input, [])])])); (ETry (ECall (EQual (YPath [(id_T8, [])]) [(id_oct, []); (id_decode, []); (id_Decode, [])] [(id_decode, [])]) [(EPath [(id_input, [])])]))])) None
      (ECall (EPath [(id_core, []); (id_result, []); (id_Result, []); (id_Ok, [])]) [(EPath [(id_this, [])])])).

(* oct/src/decode/decode/mod.rs:841 *)
Definition src_Decode_tuple9 : impl :=
  Impl [id_T0; id_T1; id_T2; id_T3; id_T4; id_T5; id_T6; id_T7; id_T8; id_E] [] [((YPath [(id_T0, [])]), [(id_Decode, [(YAssoc id_Error (YPath [(id_E, [])]))])]); ((YPath [(id_T1, [])]), [(id_Decode, [(YAssoc id_Error (YPath [(id_E, [])]))])]); ((YPath [(id_T2, [])]), [(id_Decode, [(YAssoc id_Error (YPath [(id_E, [])]))])]); ((YPath [(id_T3, [])]), [(id_Decode, [(YAssoc id_Error (YPath [(id_E, [])]))])]); ((YPath [(id_T4, [])]), [(id_Decode, [(YAssoc id_Error (YPath [(id_E, [])]))])]); ((YPath [(id_T5, [])]), [(id_Decode, [(YAssoc id_Error (YPath [(id_E, [])]))])]); ((YPath [(id_T6, [])]), [(id_Decode, [(YAssoc id_Error (YPath [(id_E, [])]))])]); ((YPath [(id_T7, [])]), [(id_Decode, [(YAssoc id_Error (YPath [(id_E, [])]))])]); ((YPath [(id_T8, [])]), [(id_Decode, [(YAssoc id_Error (YPath [(id_E, [])]))])])] (Some [(id_oct, []); (id_decode, []); (id_Decode, [])]) (YTup [(YPath [(id_T0, [])]); (YPath [(id_T1, [])]); (YPath [(id_T2, [])]); (YPath [(id_T3, [])]); (YPath [(id_T4, [])]); (YPath [(id_T5, [])]); (YPath [(id_T6, [])]); (YPath [(id_T7, [])]); (YPath [(id_T8, [])])])
    [] [(id_Error, (YPath [(id_E, [])]))] [src_Decode_tuple9_decode].

(* oct/src/decode/decode/mod.rs:848 *)
Definition src_Decode_tuple10_decode : fn := Fn id_decode [] [((PVar id_input), (YRef true (YPath [(id_oct, []); (id_decode, []); (id_Input, [])])))] (YPath [(id_core, []); (id_result, []); (id_Result, [(YPath [(id_Self, [])]); (YPath [(id_Self, []); (id_Error, [])])])])
    (ELet (PVar id_this) None (Some (ETuple [(ETry (ECall (EQual (YPath [(id_T0, [])]) [(id_oct, []); (id_decode, []); (id_Decode, [])] [(id_decode, [])]) [(EPath [(id_input, [])])])); (ETry (ECall (EQual (YPath [(id_T1, [])]) [(id_oct, []); (id_decode, []); (id_Decode, [])] [(id_decode, [])]) [(EPath [(id_input, [])])])); (ETry (ECall (EQual (YPath [(id_T2, [])]) [(id_oct, []); (id_decode, []); (id_Decode, [])] [(id_decode, [])]) [(EPath [(id_input, [])])])); (ETry (ECall (EQual (YPath [(id_T3, [])]) [(id_oct, []); (id_decode, []); (id_Decode, [])] [(id_decode, [])]) [(EPath [(id_input, [])])])); (ETry (ECall (EQual (YPath [(id_T4, [])]) [(id_oct, []); (id_decode, []); (id_Decode, [])] [(id_decode, [])]) [(EPath [(id_input, [])])])); (ETry (ECall (EQual (YPath [(id_T5, [])]) [(id_oct, []); (id_decode, []); (id_Decode, [])] [(id_decode, [])]) [(EPath [(id_input, [])])])); (ETry (ECall (EQual (YPath [(id_T6, [])]) [(id_oct, []); (id_decode, []); (id_Decode, [])] [(id_decode, [])]) [(EPath [(id_input, [])])])); (ETry (ECall (EQual (YPath [(id_T7, [])]) [(id_oct, []); (id_decode, []); (id_Decode, [])] [(id_decode, [])]) [(EPath [(id_input, [])])])); (ETry (ECall (EQual (YPath [(id_T8, [])]) [(id_oct, []); (id_decode, []); (id_Decode, [])] [(id_decode, [])]) [(EPath [(id_input, [])])])); (ETry (ECall (EQual (YPath [(id_T9, [])]) [(id_oct, []); (id_decode, []); (id_Decode, [])] [(id_decode, [])]) [(EPath [(id_input, [])])]))])) None
      (ECall (EPath [(id_core, []); (id_result, []); (id_Result, []); (id_Ok, [])]) [(EPath [(id_this, [])])])).

(* oct/src/decode/decode/mod.rs:841 *)
Definition src_Decode_tuple10 : impl :=
  Impl [id_T0; id_T1; id_T2; id_T3; id_T4; id_T5; id_T6; id_T7; id_T8; id_T9; id_E] [] [((YPath [(id_T0, [])]), [(id_Decode, [(YAssoc id_Error (YPath [(id_E, [])]))])]); ((YPath [(id_T1, [])]), [(id_Decode, [(YAssoc id_Error (YPath [(id_E, [])]))])]); ((YPath [(id_T2, [])]), [(id_Decode, [(YAssoc id_Error (YPath [(id_E, [])]))])]); ((YPath [(id_T3, [])]), [(id_Decode, [(YAssoc id_Error (YPath [(id_E, [])]))])]); ((YPath [(id_T4, [])]), [(id_Decode, [(YAssoc id_Error (YPath [(id_E, [])]))])]); ((YPath [(id_T5, [])]), [(id_Decode, [(YAssoc id_Error (YPath [(id_E, [])]))])]); ((YPath [(id_T6, [])]), [(id_Decode, [(YAssoc id_Error (YPath [(id_E, [])]))])]); ((YPath [(id_T7, [])]), [(id_Decode, [(YAssoc id_Error (YPath [(id_E, [])]))])]); ((YPath [(id_T8, [])]), [(id_Decode, [(YAssoc id_Error (YPath [(id_E, [])]))])]); ((YPath [(id_T9, [])]), [(id_Decode, [(YAssoc id_Error (YPath [(id_E, [])]))])])] (Some [(id_oct, []); (id_decode, []); (id_Decode, [])]) (YTup [(YPath [(id_T0, [])]); (YPath [(id_T1, [])]); (YPath [(id_T2, [])]); (YPath [(id_T3, [])]); (YPath [(id_T4, [])]); (YPath [(id_T5, [])]); (YPath [(id_T6, [])]); (YPath [(id_T7, [])]); (YPath [(id_T8, [])]); (YPath [(id_T9, [])])])
    [] [(id_Error, (YPath [(id_E, [])]))] [src_Decode_tuple10_decode].

(* oct/src/decode/decode/mod.rs:848 *)
Definition src_Decode_tuple11_decode : fn := Fn id_decode [] [((PVar id_input), (YRef true (YPath [(id_oct, []); (id_decode, []); (id_Input, [])])))] (YPath [(id_core, []); (id_result, []); (id_Result, [(YPath [(id_Self, [])]); (YPath [(id_Self, []); (id_Error, [])])])])
    (ELet (PVar id_this) None (Some (ETuple [(ETry (ECall (EQual (YPath [(id_T0, [])]) [(id_oct, []); (id_decode, []); (id_Decode, [])] [(id_decode, [])]) [(EPath [(id_input, [])])])); (ETry (ECall (EQual (YPath [(id_T1, [])]) [(id_oct, []); (id_decode, []); (id_Decode, [])] [(id_decode, [])]) [(EPath [(id_input, [])])])); (ETry (ECall (EQual (YPath [(id_T2, [])]) [(id_oct, []); (id_decode, []); (id_Decode, [])] [(id_decode, [])]) [(EPath [(id_input, [])])])); (ETry (ECall (EQual (YPath [(id_T3, [])]) [(id_oct, []); (id_decode, []); (id_Decode, [])] [(id_decode, [])]) [(EPath [(id_input, [])])])); (ETry (ECall (EQual (YPath [(id_T4, [])]) [(id_oct, []); (id_decode, []); (id_Decode, [])] [(id_decode, [])]) [(EPath [(id_input, [])])])); (ETry (ECall (EQual (YPath [(id_T5, [])]) [(id_oct, []); (id_decode, []); (id_Decode, [])] [(id_decode, [])]) [(EPath [(id_input, [])])])); (ETry (ECall (EQual (YPath [(id_T6, [])]) [(id_oct, []); (id_decode, []); (id_Decode, [])] [(id_decode, [])]) [(EPath [(id_input, [])])])); (ETry (ECall (EQual (YPath [(id_T7, [])]) [(id_oct, []); (id_decode, []); (id_Decode, [])] [(id_decode, [])]) [(EPath [(id_input, [])])])); (ETry (ECall (EQual (YPath [(id_T8, [])]) [(id_oct, []); (id_decode, []); (id_Decode, [])] [(id_decode, [])]) [(EPath [(id_input, [])])])); (ETry (ECall (EQual (YPath [(id_T9, [])]) [(id_oct, []); (id_decode, []); (id_Decode, [])] [(id_decode, [])]) [(EPath [(id_input, [])])])); (ETry (ECall (EQual (YPath [(id_T10, [])]) [(id_oct, []); (id_decode, []); (id_Decode, [])] [(id_decode, [])]) [(EPath [(id_input, [])])]))])) None
      (ECall (EPath [(id_core, []); (id_result, []); (id_Result, []); (id_Ok, [])]) [(EPath [(id_this, [])])])).

(* oct/src/decode/decode/mod.rs:841 *)
Definition src_Decode_tuple11 : impl :=
  Impl [id_T0; id_T1; id_T2; id_T3; id_T4; id_T5; id_T6; id_T7; id_T8; id_T9; id_T10; id_E] [] [((YPath [(id_T0, [])]), [(id_Decode, [(YAssoc id_Error (YPath [(id_E, [])]))])]); ((YPath [(id_T1, [])]), [(id_Decode, [(YAssoc id_Error (YPath [(id_E, [])]))])]); ((YPath [(id_T2, [])]), [(id_Decode, [(YAssoc id_Error (YPath [(id_E, [])]))])]); ((YPath [(id_T3, [])]), [(id_Decode, [(YAssoc id_Error (YPath [(id_E, [])]))])]); ((YPath [(id_T4, [])]), [(id_Decode, [(YAssoc id_Error (YPath [(id_E, [])]))])]); ((YPath [(id_T5, [])]), [(id_Decode, [(YAssoc id_Error (YPath [(id_E, [])]))])]); ((YPath [(id_T6, [])]), [(id_Decode, [(YAssoc id_Error (YPath [(id_E, [])]))])]); ((YPath [(id_T7, [])]), [(id_Decode, [(YAssoc id_Error (YPath [(id_E, [])]))])]); ((YPath [(id_T8, [])]), [(id_Decode, [(YAssoc id_Error (YPath [(id_E, [])]))])]); ((YPath [(id_T9, [])]), [(id_Decode, [(YAssoc id_Error (YPath [(id_E, [])]))])]); ((YPath [(id_T10, [])]), [(id_Decode, [(YAssoc id_Error (YPath [(id_E, [])]))])])] (Some [(id_oct, []); (id_decode, []); (id_Decode, [])]) (YTup [(YPath [(id_T0, [])]); (YPath [(id_T1, [])]); (YPath [(id_T2, [])]); (YPath [(id_T3, [])]); (YPath [(id_T4, [])]); (YPath [(id_T5, [])]); (YPath [(id_T6, [])]); (YPath [(id_T7, [])]); (YPath [(id_T8, [])]); (YPath [(id_T9, [])]); (YPath [(id_T10, [])])])
    [] [(id_Error, (YPath [(id_E, [])]))] [src_Decode_tuple11_decode].

(* oct/src/decode/decode/mod.rs:848 *)
Definition src_Decode_tuple12_decode : fn := Fn id_decode [] [((PVar id_input), (YRef true (YPath [(id_oct, []); (id_decode, []); (id_Input, [])])))] (YPath [(id_core, []); (id_result, []); (id_Result, [(YPath [(id_Self, [])]); (YPath [(id_Self, []); (id_Error, [])])])])
    (ELet (PVar id_this) None (Some (ETuple [(ETry (ECall (EQual (YPath [(id_T0, [])]) [(id_oct, []); (id_decode, []); (id_Decode, [])] [(id_decode, [])]) [(EPath [(id_input, [])])])); (ETry (ECall (EQual (YPath [(id_T1, [])]) [(id_oct, []); (id_decode, []); (id_Decode, [])] [(id_decode, [])]) [(EPath [(id_input, [])])])); (ETry (ECall (EQual (YPath [(id_T2, [])]) [(id_oct, []); (id_decode, []); (id_Decode, [])] [(id_decode, [])]) [(EPath [(id_input, [])])])); (ETry (ECall (EQual (YPath [(id_T3, [])]) [(id_oct, []); (id_decode, []); (id_Decode, [])] [(id_decode, [])]) [(EPath [(id_input, [])])])); (ETry (ECall (EQual (YPath [(id_T4, [])]) [(id_oct, []); (id_decode, []); (id_Decode, [])] [(id_decode, [])]) [(EPath [(id_input, [])])])); (ETry (ECall (EQual (YPath [(id_T5, [])]) [(id_oct, []); (id_decode, []); (id_Decode, [])] [(id_decode, [])]) [(EPath [(id_input, [])])])); (ETry (ECall (EQual (YPath [(id_T6, [])]) [(id_oct, []); (id_decode, []); (id_Decode, [])] [(id_decode, [])]) [(EPath [(id_input, [])])])); (ETry (ECall (EQual (YPath [(id_T7, [])]) [(id_oct, []); (id_decode, []); (id_Decode, [])] [(id_decode, [])]) [(EPath [(id_input, [])])])); (ETry (ECall (EQual (YPath [(id_T8, [])]) [(id_oct, []); (id_decode, []); (id_Decode, [])] [(id_decode, [])]) [(EPath [(id_input, [])])])); (ETry (ECall (EQual (YPath [(id_T9, [])]) [(id_oct, []); (id_decode, []); (id_Decode, [])] [(id_decode, [])]) [(EPath [(id_input, [])])])); (ETry (ECall (EQual (YPath [(id_T10, [])]) [(id_oct, []); (id_decode, []); (id_Decode, [])] [(id_decode, [])]) [(EPath [(id_input, [])])])); (ETry (ECall (EQual (YPath [(id_T11, [])]) [(id_oct, []); (id_decode, []); (id_Decode, [])] [(id_decode, [])]) [(EPath [(id_input, [])])]))])) None
      (ECall (EPath [(id_core, []); (id_result, []); (id_Result, []); (id_Ok, [])]) [(EPath [(id_this, [])])])).

(* oct/src/decode/decode/mod.rs:841 *)
Definition src_Decode_tuple12 : impl :=
  Impl [id_T0; id_T1; id_T2; id_T3; id_T4; id_T5; id_T6; id_T7; id_T8; id_T9; id_T10; id_T11; id_E] [] [((YPath [(id_T0, [])]), [(id_Decode, [(YAssoc id_Error (YPath [(id_E, [])]))])]); ((YPath [(id_T1, [])]), [(id_Decode, [(YAssoc id_Error (YPath [(id_E, [])]))])]); ((YPath [(id_T2, [])]), [(id_Decode, [(YAssoc id_Error (YPath [(id_E, [])]))])]); ((YPath [(id_T3, [])]), [(id_Decode, [(YAssoc id_Error (YPath [(id_E, [])]))])]); ((YPath [(id_T4, [])]), [(id_Decode, [(YAssoc id_Error (YPath [(id_E, [])]))])]); ((YPath [(id_T5, [])]), [(id_Decode, [(YAssoc id_Error (YPath [(id_E, [])]))])]); ((YPath [(id_T6, [])]), [(id_Decode, [(YAssoc id_Error (YPath [(id_E, [])]))])]); ((YPath [(id_T7, [])]), [(id_Decode, [(YAssoc id_Error (YPath [(id_E, [])]))])]); ((YPath [(id_T8, [])]), [(id_Decode, [(YAssoc id_Error (YPath [(id_E, [])]))])]); ((YPath [(id_T9, [])]), [(id_Decode, [(YAssoc id_Error (YPath [(id_E, [])]))])]); ((YPath [(id_T10, [])]), [(id_Decode, [(YAssoc id_Error (YPath [(id_E, [])]))])]); ((YPath [(id_T11, [])]), [(id_Decode, [(YAssoc id_Error (YPath [(id_E, [])]))])])] (Some [(id_oct, []); (id_decode, []); (id_Decode, [])]) (YTup [(YPath [(id_T0, [])]); (YPath [(id_T1, [])]); (YPath [(id_T2, [])]); (YPath [(id_T3, [])]); (YPath [(id_T4, [])]); (YPath [(id_T5, [])]); (YPath [(id_T6, [])]); (YPath [(id_T7, [])]); (YPath [(id_T8, [])]); (YPath [(id_T9, [])]); (YPath [(id_T10, [])]); (YPath [(id_T11, [])])])
    [] [(id_Error, (YPath [(id_E, [])]))] [src_Decode_tuple12_decode].

(* oct/src/decode/decode/mod.rs:865 *)
Definition src_Decode_NonZero_i128_decode : fn := Fn id_decode [] [((PVar id_input), (YRef true (YPath [(id_oct, []); (id_decode, []); (id_Input, [])])))] (YPath [(id_core, []); (id_result, []); (id_Result, [(YPath [(id_Self, [])]); (YPath [(id_Self, []); (id_Error, [])])])])
    (EUse id_Result [(id_core, []); (id_result, []); (id_Result, [])] (ELet (PCon [(id_Result, []); (id_Ok, [])] [(PVar id_value)]) None (Some (ECall (EQual (YPath [(id_i128, [])]) [(id_oct, []); (id_decode, []); (id_Decode, [])] [(id_decode, [])]) [(EPath [(id_input, [])])])) None
      (EMatch (EPath [(id_value, [])]) [((PLit (0)%Z), (ECall (EPath [(id_Result, []); (id_Err, [])]) [(EPath [(id_oct, []); (id_error, []); (id_NonZeroDecodeError, [])])])); ((PVar id_value), (ELet (PVar id_this) None (Some (ECall (EPath [(id_core, []); (id_num, []); (id_NonZero, []); (id_new_unchecked, [])]) [(EPath [(id_value, [])])])) None
      (ECall (EPath [(id_Result, []); (id_Ok, [])]) [(EPath [(id_this, [])])])))]))).

(* oct/src/decode/decode/mod.rs:861 *)
Definition src_Decode_NonZero_i128 : impl :=
  Impl [] [] [] (Some [(id_oct, []); (id_decode, []); (id_Decode, [])]) (YPath [(id_core, []); (id_num, []); (id_NonZero, [(YPath [(id_i128, [])])])])
    [] [(id_Error, (YPath [(id_oct, []); (id_error, []); (id_NonZeroDecodeError, [])]))] [src_Decode_NonZero_i128_decode].

(* oct/src/decode/decode/mod.rs:865 *)
Definition src_Decode_NonZero_i16_decode : fn := Fn id_decode [] [((PVar id_input), (YRef true (YPath [(id_oct, []); (id_decode, []); (id_Input, [])])))] (YPath [(id_core, []); (id_result, []); (id_Result, [(YPath [(id_Self, [])]); (YPath [(id_Self, []); (id_Error, [])])])])
    (EUse id_Result [(id_core, []); (id_result, []); (id_Result, [])] (ELet (PCon [(id_Result, []); (id_Ok, [])] [(PVar id_value)]) None (Some (ECall (EQual (YPath [(id_i16, [])]) [(id_oct, []); (id_decode, []); (id_Decode, [])] [(id_decode, [])]) [(EPath [(id_input, [])])])) None
      (EMatch (EPath [(id_value, [])]) [((PLit (0)%Z), (ECall (EPath [(id_Result, []); (id_Err, [])]) [(EPath [(id_oct, []); (id_error, []); (id_NonZeroDecodeError, [])])])); ((PVar id_value), (ELet (PVar id_this) None (Some (ECall (EPath [(id_core, []); (id_num, []); (id_NonZero, []); (id_new_unchecked, [])]) [(EPath [(id_value, [])])])) None
      (ECall (EPath [(id_Result, []); (id_Ok, [])]) [(EPath [(id_this, [])])])))]))).

(* oct/src/decode/decode/mod.rs:861 *)
Definition src_Decode_NonZero_i16 : impl :=
  Impl [] [] [] (Some [(id_oct, []); (id_decode, []); (id_Decode, [])]) (YPath [(id_core, []); (id_num, []); (id_NonZero, [(YPath [(id_i16, [])])])])
    [] [(id_Error, (YPath [(id_oct, []); (id_error, []); (id_NonZeroDecodeError, [])]))] [src_Decode_NonZero_i16_decode].

(* oct/src/decode/decode/mod.rs:865 *)
Definition src_Decode_NonZero_i32_decode : fn := Fn id_decode [] [((PVar id_input), (YRef true (YPath [(id_oct, []); (id_decode, []); (id_Input, [])])))] (YPath [(id_core, []); (id_result, []); (id_Result, [(YPath [(id_Self, [])]); (YPath [(id_Self, []); (id_Error, [])])])])
    (EUse id_Result [(id_core, []); (id_result, []); (id_Result, [])] (ELet (PCon [(id_Result, []); (id_Ok, [])] [(PVar id_value)]) None (Some (ECall (EQual (YPath [(id_i32, [])]) [(id_oct, []); (id_decode, []); (id_Decode, [])] [(id_decode, [])]) [(EPath [(id_input, [])])])) None
      (EMatch (EPath [(id_value, [])]) [((PLit (0)%Z), (ECall (EPath [(id_Result, []); (id_Err, [])]) [(EPath [(id_oct, []); (id_error, []); (id_NonZeroDecodeError, [])])])); ((PVar id_value), (ELet (PVar id_this) None (Some (ECall (EPath [(id_core, []); (id_num, []); (id_NonZero, []); (id_new_unchecked, [])]) [(EPath [(id_value, [])])])) None
      (ECall (EPath [(id_Result, []); (id_Ok, [])]) [(EPath [(id_this, [])])])))]))).

(* oct/src/decode/decode/mod.rs:861 *)
Definition src_Decode_NonZero_i32 : impl :=
  Impl [] [] [] (Some [(id_oct, []); (id_decode, []); (id_Decode, [])]) (YPath [(id_core, []); (id_num, []); (id_NonZero, [(YPath [(id_i32, [])])])])
    [] [(id_Error, (YPath [(id_oct, []); (id_error, []); (id_NonZeroDecodeError, [])]))] [src_Decode_NonZero_i32_decode].

(* oct/src/decode/decode/mod.rs:865 *)
Definition src_Decode_NonZero_i64_decode : fn := Fn id_decode [] [((PVar id_input), (YRef true (YPath [(id_oct, []); (id_decode, []); (id_Input, [])])))] (YPath [(id_core, []); (id_result, []); (id_Result, [(YPath [(id_Self, [])]); (YPath [(id_Self, []); (id_Error, [])])])])
    (EUse id_Result [(id_core, []); (id_result, []); (id_Result, [])] (ELet (PCon [(id_Result, []); (id_Ok, [])] [(PVar id_value)]) None (Some (ECall (EQual (YPath [(id_i64, [])]) [(id_oct, []); (id_decode, []); (id_Decode, [])] [(id_decode, [])]) [(EPath [(id_input, [])])])) None
      (EMatch (EPath [(id_value, [])]) [((PLit (0)%Z), (ECall (EPath [(id_Result, []); (id_Err, [])]) [(EPath [(id_oct, []); (id_error, []); (id_NonZeroDecodeError, [])])])); ((PVar id_value), (ELet (PVar id_this) None (Some (ECall (EPath [(id_core, []); (id_num, []); (id_NonZero, []); (id_new_unchecked, [])]) [(EPath [(id_value, [])])])) None
      (ECall (EPath [(id_Result, []); (id_Ok, [])]) [(EPath [(id_this, [])])])))]))).

(* oct/src/decode/decode/mod.rs:861 *)
Definition src_Decode_NonZero_i64 : impl :=
  Impl [] [] [] (Some [(id_oct, []); (id_decode, []); (id_Decode, [])]) (YPath [(id_core, []); (id_num, []); (id_NonZero, [(YPath [(id_i64, [])])])])
    [] [(id_Error, (YPath [(id_oct, []); (id_error, []); (id_NonZeroDecodeError, [])]))] [src_Decode_NonZero_i64_decode].

(* oct/src/decode/decode/mod.rs:865 *)
Definition src_Decode_NonZero_i8_decode : fn := Fn id_decode [] [((PVar id_input), (YRef true (YPath [(id_oct, []); (id_decode, []); (id_Input, [])])))] (YPath [(id_core, []); (id_result, []); (id_Result, [(YPath [(id_Self, [])]); (YPath [(id_Self, []); (id_Error, [])])])])
    (EUse id_Result [(id_core, []); (id_result, []); (id_Result, [])] (ELet (PCon [(id_Result, []); (id_Ok, [])] [(PVar id_value)]) None (Some (ECall (EQual (YPath [(id_i8, [])]) [(id_oct, []); (id_decode, []); (id_Decode, [])] [(id_decode, [])]) [(EPath [(id_input, [])])])) None
      (EMatch (EPath [(id_value, [])]) [((PLit (0)%Z), (ECall (EPath [(id_Result, []); (id_Err, [])]) [(EPath [(id_oct, []); (id_error, []); (id_NonZeroDecodeError, [])])])); ((PVar id_value), (ELet (PVar id_this) None (Some (ECall (EPath [(id_core, []); (id_num, []); (id_NonZero, []); (id_new_unchecked, [])]) [(EPath [(id_value, [])])])) None
      (ECall (EPath [(id_Result, []); (id_Ok, [])]) [(EPath [(id_this, [])])])))]))).

(* oct/src/decode/decode/mod.rs:861 *)
Definition src_Decode_NonZero_i8 : impl :=
  Impl [] [] [] (Some [(id_oct, []); (id_decode, []); (id_Decode, [])]) (YPath [(id_core, []); (id_num, []); (id_NonZero, [(YPath [(id_i8, [])])])])
    [] [(id_Error, (YPath [(id_oct, []); (id_error, []); (id_NonZeroDecodeError, [])]))] [src_Decode_NonZero_i8_decode].

(* oct/src/decode/decode/mod.rs:865 *)
Definition src_Decode_NonZero_isize_decode : fn := Fn id_decode [] [((PVar id_input), (YRef true (YPath [(id_oct, []); (id_decode, []); (id_Input, [])])))] (YPath [(id_core, []); (id_result, []); (id_Result, [(YPath [(id_Self, [])]); (YPath [(id_Self, []); (id_Error, [])])])])
    (EUse id_Result [(id_core, []); (id_result, []); (id_Result, [])] (ELet (PCon [(id_Result, []); (id_Ok, [])] [(PVar id_value)]) None (Some (ECall (EQual (YPath [(id_isize, [])]) [(id_oct, []); (id_decode, []); (id_Decode, [])] [(id_decode, [])]) [(EPath [(id_input, [])])])) None
      (EMatch (EPath [(id_value, [])]) [((PLit (0)%Z), (ECall (EPath [(id_Result, []); (id_Err, [])]) [(EPath [(id_oct, []); (id_error, []); (id_NonZeroDecodeError, [])])])); ((PVar id_value), (ELet (PVar id_this) None (Some (ECall (EPath [(id_core, []); (id_num, []); (id_NonZero, []); (id_new_unchecked, [])]) [(EPath [(id_value, [])])])) None
      (ECall (EPath [(id_Result, []); (id_Ok, [])]) [(EPath [(id_this, [])])])))]))).

(* oct/src/decode/decode/mod.rs:861 *)
Definition src_Decode_NonZero_isize : impl :=
  Impl [] [] [] (Some [(id_oct, []); (id_decode, []); (id_Decode, [])]) (YPath [(id_core, []); (id_num, []); (id_NonZero, [(YPath [(id_isize, [])])])])
    [] [(id_Error, (YPath [(id_oct, []); (id_error, []); (id_NonZeroDecodeError, [])]))] [src_Decode_NonZero_isize_decode].

(* oct/src/decode/decode/mod.rs:865 *)
Definition src_Decode_NonZero_u128_decode : fn := Fn id_decode [] [((PVar id_input), (YRef true (YPath [(id_oct, []); (id_decode, []); (id_Input, [])])))] (YPath [(id_core, []); (id_result, []); (id_Result, [(YPath [(id_Self, [])]); (YPath [(id_Self, []); (id_Error, [])])])])
    (EUse id_Result [(id_core, []); (id_result, []); (id_Result, [])] (ELet (PCon [(id_Result, []); (id_Ok, [])] [(PVar id_value)]) None (Some (ECall (EQual (YPath [(id_u128, [])]) [(id_oct, []); (id_decode, []); (id_Decode, [])] [(id_decode, [])]) [(EPath [(id_input, [])])])) None
      (EMatch (EPath [(id_value, [])]) [((PLit (0)%Z), (ECall (EPath [(id_Result, []); (id_Err, [])]) [(EPath [(id_oct, []); (id_error, []); (id_NonZeroDecodeError, [])])])); ((PVar id_value), (ELet (PVar id_this) None (Some (ECall (EPath [(id_core, []); (id_num, []); (id_NonZero, []); (id_new_unchecked, [])]) [(EPath [(id_value, [])])])) None
      (ECall (EPath [(id_Result, []); (id_Ok, [])]) [(EPath [(id_this, [])])])))]))).

(* oct/src/decode/decode/mod.rs:861 *)
Definition src_Decode_NonZero_u128 : impl :=
  Impl [] [] [] (Some [(id_oct, []); (id_decode, []); (id_Decode, [])]) (YPath [(id_core, []); (id_num, []); (id_NonZero, [(YPath [(id_u128, [])])])])
    [] [(id_Error, (YPath [(id_oct, []); (id_error, []); (id_NonZeroDecodeError, [])]))] [src_Decode_NonZero_u128_decode].

(* oct/src/decode/decode/mod.rs:865 *)
Definition src_Decode_NonZero_u16_decode : fn := Fn id_decode [] [((PVar id_input), (YRef true (YPath [(id_oct, []); (id_decode, []); (id_Input, [])])))] (YPath [(id_core, []); (id_result, []); (id_Result, [(YPath [(id_Self, [])]); (YPath [(id_Self, []); (id_Error, [])])])])
    (EUse id_Result [(id_core, []); (id_result, []); (id_Result, [])] (ELet (PCon [(id_Result, []); (id_Ok, [])] [(PVar id_value)]) None (Some (ECall (EQual (YPath [(id_u16, [])]) [(id_oct, []); (id_decode, []); (id_Decode, [])] [(id_decode, [])]) [(EPath [(id_input, [])])])) None
      (EMatch (EPath [(id_value, [])]) [((PLit (0)%Z), (ECall (EPath [(id_Result, []); (id_Err, [])]) [(EPath [(id_oct, []); (id_error, []); (id_NonZeroDecodeError, [])])])); ((PVar id_value), (ELet (PVar id_this) None (Some (ECall (EPath [(id_core, []); (id_num, []); (id_NonZero, []); (id_new_unchecked, [])]) [(EPath [(id_value, [])])])) None
      (ECall (EPath [(id_Result, []); (id_Ok, [])]) [(EPath [(id_this, [])])])))]))).

(* oct/src/decode/decode/mod.rs:861 *)
Definition src_Decode_NonZero_u16 : impl :=
  Impl [] [] [] (Some [(id_oct, []); (id_decode, []); (id_Decode, [])]) (YPath [(id_core, []); (id_num, []); (id_NonZero, [(YPath [(id_u16, [])])])])
    [] [(id_Error, (YPath [(id_oct, []); (id_error, []); (id_NonZeroDecodeError, [])]))] [src_Decode_NonZero_u16_decode].

(* oct/src/decode/decode/mod.rs:865 *)
Definition src_Decode_NonZero_u32_decode : fn := Fn id_decode [] [((PVar id_input), (YRef true (YPath [(id_oct, []); (id_decode, []); (id_Input, [])])))] (YPath [(id_core, []); (id_result, []); (id_Result, [(YPath [(id_Self, [])]); (YPath [(id_Self, []); (id_Error, [])])])])
    (EUse id_Result [(id_core, []); (id_result, []); (id_Result, [])] (ELet (PCon [(id_Result, []); (id_Ok, [])] [(PVar id_value)]) None (Some (ECall (EQual (YPath [(id_u32, [])]) [(id_oct, []); (id_decode, []); (id_Decode, [])] [(id_decode, [])]) [(EPath [(id_input, [])])])) None
      (EMatch (EPath [(id_value, [])]) [((PLit (0)%Z), (ECall (EPath [(id_Result, []); (id_Err, [])]) [(EPath [(id_oct, []); (id_error, []); (id_NonZeroDecodeError, [])])])); ((PVar id_value), (ELet (PVar id_this) None (Some (ECall (EPath [(id_core, []); (id_num, []); (id_NonZero, []); (id_new_unchecked, [])]) [(EPath [(id_value, [])])])) None
      (ECall (EPath [(id_Result, []); (id_Ok, [])]) [(EPath [(id_this, [])])])))]))).

(* oct/src/decode/decode/mod.rs:861 *)
Definition src_Decode_NonZero_u32 : impl :=
  Impl [] [] [] (Some [(id_oct, []); (id_decode, []); (id_Decode, [])]) (YPath [(id_core, []); (id_num, []); (id_NonZero, [(YPath [(id_u32, [])])])])
    [] [(id_Error, (YPath [(id_oct, []); (id_error, []); (id_NonZeroDecodeError, [])]))] [src_Decode_NonZero_u32_decode].

(* oct/src/decode/decode/mod.rs:865 *)
Definition src_Decode_NonZero_u64_decode : fn := Fn id_decode [] [((PVar id_input), (YRef true (YPath [(id_oct, []); (id_decode, []); (id_Input, [])])))] (YPath [(id_core, []); (id_result, []); (id_Result, [(YPath [(id_Self, [])]); (YPath [(id_Self, []); (id_Error, [])])])])
    (EUse id_Result [(id_core, []); (id_result, []); (id_Result, [])] (ELet (PCon [(id_Result, []); (id_Ok, [])] [(PVar id_value)]) None (Some (ECall (EQual (YPath [(id_u64, [])]) [(id_oct, []); (id_decode, []); (id_Decode, [])] [(id_decode, [])]) [(EPath [(id_input, [])])])) None
      (EMatch (EPath [(id_value, [])]) [((PLit (0)%Z), (ECall (EPath [(id_Result, []); (id_Err, [])]) [(EPath [(id_oct, []); (id_error, []); (id_NonZeroDecodeError, [])])])); ((PVar id_value), (ELet (PVar id_this) None (Some (ECall (EPath [(id_core, []); (id_num, []); (id_NonZero, []); (id_new_unchecked, [])]) [(EPath [(id_value, [])])])) None
      (ECall (EPath [(id_Result, []); (id_Ok, [])]) [(EPath [(id_this, [])])])))]))).

(* oct/src/decode/decode/mod.rs:861 *)
Definition src_Decode_NonZero_u64 : impl :=
  Impl [] [] [] (Some [(id_oct, []); (id_decode, []); (id_Decode, [])]) (YPath [(id_core, []); (id_num, []); (id_NonZero, [(YPath [(id_u64, [])])])])
    [] [(id_Error, (YPath [(id_oct, []); (id_error, []); (id_NonZeroDecodeError, [])]))] [src_Decode_NonZero_u64_decode].

(* oct/src/decode/decode/mod.rs:865 *)
Definition src_Decode_NonZero_u8_decode : fn := Fn id_decode [] [((PVar id_input), (YRef true (YPath [(id_oct, []); (id_decode, []); (id_Input, [])])))] (YPath [(id_core, []); (id_result, []); (id_Result, [(YPath [(id_Self, [])]); (YPath [(id_Self, []); (id_Error, [])])])])
    (EUse id_Result [(id_core, []); (id_result, []); (id_Result, [])] (ELet (PCon [(id_Result, []); (id_Ok, [])] [(PVar id_value)]) None (Some (ECall (EQual (YPath [(id_u8, [])]) [(id_oct, []); (id_decode, []); (id_Decode, [])] [(id_decode, [])]) [(EPath [(id_input, [])])])) None
      (EMatch (EPath [(id_value, [])]) [((PLit (0)%Z), (ECall (EPath [(id_Result, []); (id_Err, [])]) [(EPath [(id_oct, []); (id_error, []); (id_NonZeroDecodeError, [])])])); ((PVar id_value), (ELet (PVar id_this) None (Some (ECall (EPath [(id_core, []); (id_num, []); (id_NonZero, []); (id_new_unchecked, [])]) [(EPath [(id_value, [])])])) None
      (ECall (EPath [(id_Result, []); (id_Ok, [])]) [(EPath [(id_this, [])])])))]))).

(* oct/src/decode/decode/mod.rs:861 *)
Definition src_Decode_NonZero_u8 : impl :=
  Impl [] [] [] (Some [(id_oct, []); (id_decode, []); (id_Decode, [])]) (YPath [(id_core, []); (id_num, []); (id_NonZero, [(YPath [(id_u8, [])])])])
    [] [(id_Error, (YPath [(id_oct, []); (id_error, []); (id_NonZeroDecodeError, [])]))] [src_Decode_NonZero_u8_decode].

(* oct/src/decode/decode/mod.rs:865 *)
Definition src_Decode_NonZero_usize_decode : fn := Fn id_decode [] [((PVar id_input), (YRef true (YPath [(id_oct, []); (id_decode, []); (id_Input, [])])))] (YPath [(id_core, []); (id_result, []); (id_Result, [(YPath [(id_Self, [])]); (YPath [(id_Self, []); (id_Error, [])])])])
    (EUse id_Result [(id_core, []); (id_result, []); (id_Result, [])] (ELet (PCon [(id_Result, []); (id_Ok, [])] [(PVar id_value)]) None (Some (ECall (EQual (YPath [(id_usize, [])]) [(id_oct, []); (id_decode, []); (id_Decode, [])] [(id_decode, [])]) [(EPath [(id_input, [])])])) None
      (EMatch (EPath [(id_value, [])]) [((PLit (0)%Z), (ECall (EPath [(id_Result, []); (id_Err, [])]) [(EPath [(id_oct, []); (id_error, []); (id_NonZeroDecodeError, [])])])); ((PVar id_value), (ELet (PVar id_this) None (Some (ECall (EPath [(id_core, []); (id_num, []); (id_NonZero, []); (id_new_unchecked, [])]) [(EPath [(id_value, [])])])) None
      (ECall (EPath [(id_Result, []); (id_Ok, [])]) [(EPath [(id_this, [])])])))]))).

(* oct/src/decode/decode/mod.rs:861 *)
Definition src_Decode_NonZero_usize : impl :=
  Impl [] [] [] (Some [(id_oct, []); (id_decode, []); (id_Decode, [])]) (YPath [(id_core, []); (id_num, []); (id_NonZero, [(YPath [(id_usize, [])])])])
    [] [(id_Error, (YPath [(id_oct, []); (id_error, []); (id_NonZeroDecodeError, [])]))] [src_Decode_NonZero_usize_decode].

(* oct/src/decode/decode/mod.rs:895 *)
Definition src_Decode_AtomicBool_decode : fn := Fn id_decode [] [((PVar id_input), (YRef true (YPath [(id_oct, []); (id_decode, []); (id_Input, [])])))] (YPath [(id_core, []); (id_result, []); (id_Result, [(YPath [(id_Self, [])]); (YPath [(id_Self, []); (id_Error, [])])])])
    (ELet (PVar id_value) None (Some (ETry (ECall (EHole 0 [(id_oct, []); (id_decode, []); (id_Decode, []); (id_decode, [])]) [(EPath [(id_input, [])])]))) None
      (ELet (PVar id_this) None (Some (ECall (EPath [(id_Self, []); (id_new, [])]) [(EPath [(id_value, [])])])) None
      (ECall (EPath [(id_core, []); (id_result, []); (id_Result, []); (id_Ok, [])]) [(EPath [(id_this, [])])]))).

(* oct/src/decode/decode/mod.rs:891 *)
Definition src_Decode_AtomicBool : impl :=
  Impl [] [] [] (Some [(id_oct, []); (id_decode, []); (id_Decode, [])]) (YPath [(id_std, []); (id_sync, []); (id_atomic, []); (id_AtomicBool, [])])
    [] [(id_Error, (YQual (YPath [(id_bool, [])]) [(id_oct, []); (id_decode, []); (id_Decode, [])] [(id_Error, [])]))] [src_Decode_AtomicBool_decode].

(* oct/src/decode/decode/mod.rs:895 *)
Definition src_Decode_AtomicI16_decode : fn := Fn id_decode [] [((PVar id_input), (YRef true (YPath [(id_oct, []); (id_decode, []); (id_Input, [])])))] (YPath [(id_core, []); (id_result, []); (id_Result, [(YPath [(id_Self, [])]); (YPath [(id_Self, []); (id_Error, [])])])])
    (ELet (PVar id_value) None (Some (ETry (ECall (EHole 0 [(id_oct, []); (id_decode, []); (id_Decode, []); (id_decode, [])]) [(EPath [(id_input, [])])]))) None
      (ELet (PVar id_this) None (Some (ECall (EPath [(id_Self, []); (id_new, [])]) [(EPath [(id_value, [])])])) None
      (ECall (EPath [(id_core, []); (id_result, []); (id_Result, []); (id_Ok, [])]) [(EPath [(id_this, [])])]))).

(* oct/src/decode/decode/mod.rs:891 *)
Definition src_Decode_AtomicI16 : impl :=
  Impl [] [] [] (Some [(id_oct, []); (id_decode, []); (id_Decode, [])]) (YPath [(id_std, []); (id_sync, []); (id_atomic, []); (id_AtomicI16, [])])
    [] [(id_Error, (YQual (YPath [(id_i16, [])]) [(id_oct, []); (id_decode, []); (id_Decode, [])] [(id_Error, [])]))] [src_Decode_AtomicI16_decode].

(* oct/src/decode/decode/mod.rs:895 *)
Definition src_Decode_AtomicI32_decode : fn := Fn id_decode [] [((PVar id_input), (YRef true (YPath [(id_oct, []); (id_decode, []); (id_Input, [])])))] (YPath [(id_core, []); (id_result, []); (id_Result, [(YPath [(id_Self, [])]); (YPath [(id_Self, []); (id_Error, [])])])])
    (ELet (PVar id_value) None (Some (ETry (ECall (EHole 0 [(id_oct, []); (id_decode, []); (id_Decode, []); (id_decode, [])]) [(EPath [(id_input, [])])]))) None
      (ELet (PVar id_this) None (Some (ECall (EPath [(id_Self, []); (id_new, [])]) [(EPath [(id_value, [])])])) None
      (ECall (EPath [(id_core, []); (id_result, []); (id_Result, []); (id_Ok, [])]) [(EPath [(id_this, [])])]))).

(* oct/src/decode/decode/mod.rs:891 *)
Definition src_Decode_AtomicI32 : impl :=
  Impl [] [] [] (Some [(id_oct, []); (id_decode, []); (id_Decode, [])]) (YPath [(id_std, []); (id_sync, []); (id_atomic, []); (id_AtomicI32, [])])
    [] [(id_Error, (YQual (YPath [(id_i32, [])]) [(id_oct, []); (id_decode, []); (id_Decode, [])] [(id_Error, [])]))] [src_Decode_AtomicI32_decode].

(* oct/src/decode/decode/mod.rs:895 *)
Definition src_Decode_AtomicI64_decode : fn := Fn id_decode [] [((PVar id_input), (YRef true (YPath [(id_oct, []); (id_decode, []); (id_Input, [])])))] (YPath [(id_core, []); (id_result, []); (id_Result, [(YPath [(id_Self, [])]); (YPath [(id_Self, []); (id_Error, [])])])])
    (ELet (PVar id_value) None (Some (ETry (ECall (EHole 0 [(id_oct, []); (id_decode, []); (id_Decode, []); (id_decode, [])]) [(EPath [(id_input, [])])]))) None
      (ELet (PVar id_this) None (Some (ECall (EPath [(id_Self, []); (id_new, [])]) [(EPath [(id_value, [])])])) None
      (ECall (EPath [(id_core, []); (id_result, []); (id_Result, []); (id_Ok, [])]) [(EPath [(id_this, [])])]))).

(* oct/src/decode/decode/mod.rs:891 *)
Definition src_Decode_AtomicI64 : impl :=
  Impl [] [] [] (Some [(id_oct, []); (id_decode, []); (id_Decode, [])]) (YPath [(id_std, []); (id_sync, []); (id_atomic, []); (id_AtomicI64, [])])
    [] [(id_Error, (YQual (YPath [(id_i64, [])]) [(id_oct, []); (id_decode, []); (id_Decode, [])] [(id_Error, [])]))] [src_Decode_AtomicI64_decode].

(* oct/src/decode/decode/mod.rs:895 *)
Definition src_Decode_AtomicI8_decode : fn := Fn id_decode [] [((PVar id_input), (YRef true (YPath [(id_oct, []); (id_decode, []); (id_Input, [])])))] (YPath [(id_core, []); (id_result, []); (id_Result, [(YPath [(id_Self, [])]); (YPath [(id_Self, []); (id_Error, [])])])])
    (ELet (PVar id_value) None (Some (ETry (ECall (EHole 0 [(id_oct, []); (id_decode, []); (id_Decode, []); (id_decode, [])]) [(EPath [(id_input, [])])]))) None
      (ELet (PVar id_this) None (Some (ECall (EPath [(id_Self, []); (id_new, [])]) [(EPath [(id_value, [])])])) None
      (ECall (EPath [(id_core, []); (id_result, []); (id_Result, []); (id_Ok, [])]) [(EPath [(id_this, [])])]))).

(* oct/src/decode/decode/mod.rs:891 *)
Definition src_Decode_AtomicI8 : impl :=
  Impl [] [] [] (Some [(id_oct, []); (id_decode, []); (id_Decode, [])]) (YPath [(id_std, []); (id_sync, []); (id_atomic, []); (id_AtomicI8, [])])
    [] [(id_Error, (YQual (YPath [(id_i8, [])]) [(id_oct, []); (id_decode, []); (id_Decode, [])] [(id_Error, [])]))] [src_Decode_AtomicI8_decode].

(* oct/src/decode/decode/mod.rs:895 *)
Definition src_Decode_AtomicIsize_decode : fn := Fn id_decode [] [((PVar id_input), (YRef true (YPath [(id_oct, []); (id_decode, []); (id_Input, [])])))] (YPath [(id_core, []); (id_result, []); (id_Result, [(YPath [(id_Self, [])]); (YPath [(id_Self, []); (id_Error, [])])])])
    (ELet (PVar id_value) None (Some (ETry (ECall (EHole 0 [(id_oct, []); (id_decode, []); (id_Decode, []); (id_decode, [])]) [(EPath [(id_input, [])])]))) None
      (ELet (PVar id_this) None (Some (ECall (EPath [(id_Self, []); (id_new, [])]) [(EPath [(id_value, [])])])) None
      (ECall (EPath [(id_core, []); (id_result, []); (id_Result, []); (id_Ok, [])]) [(EPath [(id_this, [])])]))).

(* oct/src/decode/decode/mod.rs:891 *)
Definition src_Decode_AtomicIsize : impl :=
  Impl [] [] [] (Some [(id_oct, []); (id_decode, []); (id_Decode, [])]) (YPath [(id_std, []); (id_sync, []); (id_atomic, []); (id_AtomicIsize, [])])
    [] [(id_Error, (YQual (YPath [(id_isize, [])]) [(id_oct, []); (id_decode, []); (id_Decode, [])] [(id_Error, [])]))] [src_Decode_AtomicIsize_decode].

(* oct/src/decode/decode/mod.rs:895 *)
Definition src_Decode_AtomicU16_decode : fn := Fn id_decode [] [((PVar id_input), (YRef true (YPath [(id_oct, []); (id_decode, []); (id_Input, [])])))] (YPath [(id_core, []); (id_result, []); (id_Result, [(YPath [(id_Self, [])]); (YPath [(id_Self, []); (id_Error, [])])])])
    (ELet (PVar id_value) None (Some (ETry (ECall (EHole 0 [(id_oct, []); (id_decode, []); (id_Decode, []); (id_decode, [])]) [(EPath [(id_input, [])])]))) None
      (ELet (PVar id_this) None (Some (ECall (EPath [(id_Self, []); (id_new, [])]) [(EPath [(id_value, [])])])) None
      (ECall (EPath [(id_core, []); (id_result, []); (id_Result, []); (id_Ok, [])]) [(EPath [(id_this, [])])]))).

(* oct/src/decode/decode/mod.rs:891 *)
Definition src_Decode_AtomicU16 : impl :=
  Impl [] [] [] (Some [(id_oct, []); (id_decode, []); (id_Decode, [])]) (YPath [(id_std, []); (id_sync, []); (id_atomic, []); (id_AtomicU16, [])])
    [] [(id_Error, (YQual (YPath [(id_u16, [])]) [(id_oct, []); (id_decode, []); (id_Decode, [])] [(id_Error, [])]))] [src_Decode_AtomicU16_decode].

(* oct/src/decode/decode/mod.rs:895 *)
Definition src_Decode_AtomicU32_decode : fn := Fn id_decode [] [((PVar id_input), (YRef true (YPath [(id_oct, []); (id_decode, []); (id_Input, [])])))] (YPath [(id_core, []); (id_result, []); (id_Result, [(YPath [(id_Self, [])]); (YPath [(id_Self, []); (id_Error, [])])])])
    (ELet (PVar id_value) None (Some (ETry (ECall (EHole 0 [(id_oct, []); (id_decode, []); (id_Decode, []); (id_decode, [])]) [(EPath [(id_input, [])])]))) None
      (ELet (PVar id_this) None (Some (ECall (EPath [(id_Self, []); (id_new, [])]) [(EPath [(id_value, [])])])) None
      (ECall (EPath [(id_core, []); (id_result, []); (id_Result, []); (id_Ok, [])]) [(EPath [(id_this, [])])]))).

(* oct/src/decode/decode/mod.rs:891 *)
Definition src_Decode_AtomicU32 : impl :=
  Impl [] [] [] (Some [(id_oct, []); (id_decode, []); (id_Decode, [])]) (YPath [(id_std, []); (id_sync, []); (id_atomic, []); (id_AtomicU32, [])])
    [] [(id_Error, (YQual (YPath [(id_u32, [])]) [(id_oct, []); (id_decode, []); (id_Decode, [])] [(id_Error, [])]))] [src_Decode_AtomicU32_decode].

(* oct/src/decode/decode/mod.rs:895 *)
Definition src_Decode_AtomicU64_decode : fn := Fn id_decode [] [((PVar id_input), (YRef true (YPath [(id_oct, []); (id_decode, []); (id_Input, [])])))] (YPath [(id_core, []); (id_result, []); (id_Result, [(YPath [(id_Self, [])]); (YPath [(id_Self, []); (id_Error, [])])])])
    (ELet (PVar id_value) None (Some (ETry (ECall (EHole 0 [(id_oct, []); (id_decode, []); (id_Decode, []); (id_decode, [])]) [(EPath [(id_input, [])])]))) None
      (ELet (PVar id_this) None (Some (ECall (EPath [(id_Self, []); (id_new, [])]) [(EPath [(id_value, [])])])) None
      (ECall (EPath [(id_core, []); (id_result, []); (id_Result, []); (id_Ok, [])]) [(EPath [(id_this, [])])]))).

(* oct/src/decode/decode/mod.rs:891 *)
Definition src_Decode_AtomicU64 : impl :=
  Impl [] [] [] (Some [(id_oct, []); (id_decode, []); (id_Decode, [])]) (YPath [(id_std, []); (id_sync, []); (id_atomic, []); (id_AtomicU64, [])])
    [] [(id_Error, (YQual (YPath [(id_u64, [])]) [(id_oct, []); (id_decode, []); (id_Decode, [])] [(id_Error, [])]))] [src_Decode_AtomicU64_decode].

(* oct/src/decode/decode/mod.rs:895 *)
Definition src_Decode_AtomicU8_decode : fn := Fn id_decode [] [((PVar id_input), (YRef true (YPath [(id_oct, []); (id_decode, []); (id_Input, [])])))] (YPath [(id_core, []); (id_result, []); (id_Result, [(YPath [(id_Self, [])]); (YPath [(id_Self, []); (id_Error, [])])])])
    (ELet (PVar id_value) None (Some (ETry (ECall (EHole 0 [(id_oct, []); (id_decode, []); (id_Decode, []); (id_decode, [])]) [(EPath [(id_input, [])])]))) None
      (ELet (PVar id_this) None (Some (ECall (EPath [(id_Self, []); (id_new, [])]) [(EPath [(id_value, [])])])) None
      (ECall (EPath [(id_core, []); (id_result, []); (id_Result, []); (id_Ok, [])]) [(EPath [(id_this, [])])]))).

(* oct/src/decode/decode/mod.rs:891 *)
Definition src_Decode_AtomicU8 : impl :=
  Impl [] [] [] (Some [(id_oct, []); (id_decode, []); (id_Decode, [])]) (YPath [(id_std, []); (id_sync, []); (id_atomic, []); (id_AtomicU8, [])])
    [] [(id_Error, (YQual (YPath [(id_u8, [])]) [(id_oct, []); (id_decode, []); (id_Decode, [])] [(id_Error, [])]))] [src_Decode_AtomicU8_decode].

(* oct/src/decode/decode/mod.rs:895 *)
Definition src_Decode_AtomicUsize_decode : fn := Fn id_decode [] [((PVar id_input), (YRef true (YPath [(id_oct, []); (id_decode, []); (id_Input, [])])))] (YPath [(id_core, []); (id_result, []); (id_Result, [(YPath [(id_Self, [])]); (YPath [(id_Self, []); (id_Error, [])])])])
    (ELet (PVar id_value) None (Some (ETry (ECall (EHole 0 [(id_oct, []); (id_decode, []); (id_Decode, []); (id_decode, [])]) [(EPath [(id_input, [])])]))) None
      (ELet (PVar id_this) None (Some (ECall (EPath [(id_Self, []); (id_new, [])]) [(EPath [(id_value, [])])])) None
      (ECall (EPath [(id_core, []); (id_result, []); (id_Result, []); (id_Ok, [])]) [(EPath [(id_this, [])])]))).

(* oct/src/decode/decode/mod.rs:891 *)
Definition src_Decode_AtomicUsize : impl :=
  Impl [] [] [] (Some [(id_oct, []); (id_decode, []); (id_Decode, [])]) (YPath [(id_std, []); (id_sync, []); (id_atomic, []); (id_AtomicUsize, [])])
    [] [(id_Error, (YQual (YPath [(id_usize, [])]) [(id_oct, []); (id_decode, []); (id_Decode, [])] [(id_Error, [])]))] [src_Decode_AtomicUsize_decode].

(* oct/src/sized_slice/code.rs:33, a loop in it *)
Definition src_Decode_SizedSlice_T_N_decode_loop0 : expr :=
    (ELet (PVar id_v) None (Some (ETry (EMethod (ECall (EHole 1 [(id_Decode, []); (id_decode, [])]) [(EPath [(id_input, [])])]) id_map_err [] [(EClosure [(PVar id_e)] (ECall (EPath [(id_CollectionDecodeError, []); (id_BadItem, [])]) [(ERec [(id_ItemDecodeError, [])] [(id_index, (EPath [(id_i, [])])); (id_error, (EPath [(id_e, [])]))])]))]))) None
      (ESeq (EMethod (EPath [(id_slot, [])]) id_write [] [(EPath [(id_v, [])])]) EUnit)).

(* oct/src/sized_slice/code.rs:33 *)
Definition src_Decode_SizedSlice_T_N_decode : fn := Fn id_decode [] [((PVar id_input), (YRef true (YPath [(id_Input, [])])))] (YPath [(id_Result, [(YPath [(id_Self, [])]); (YPath [(id_Self, []); (id_Error, [])])])])
    (ELet (PVar id_len) None (Some (EMethod (ECall (EHole 0 [(id_Decode, []); (id_decode, [])]) [(EPath [(id_input, [])])]) id_unwrap [] [])) None
      (ESeq (EIf (EBin OGt (EPath [(id_len, [])]) (EPath [(id_N, [])])) (EReturn (ECall (EPath [(id_Err, [])]) [(ECall (EPath [(id_CollectionDecodeError, []); (id_BadLength, [])]) [(ERec [(id_LengthError, [])] [(id_capacity, (EPath [(id_N, [])])); (id_len, (EPath [(id_len, [])]))])])])) EUnit) (ELet (PVar id_buf) None (Some (ERepeat (ECall (EPath [(id_MaybeUninit, [(YPath [(id_T, [])])]); (id_uninit, [])]) []) (EPath [(id_N, [])]))) None
      (ESeq (EFor (PTup [(PVar id_i); (PVar id_slot)]) (EMethod (EMethod (EPath [(id_buf, [])]) id_iter_mut [] []) id_enumerate [] []) src_Decode_SizedSlice_T_N_decode_loop0) (ECall (EPath [(id_Ok, [])]) [(ERec [(id_Self, [])] [(id_buf, (EPath [(id_buf, [])])); (id_len, (EPath [(id_len, [])]))])]))))).

(* oct/src/sized_slice/code.rs:29 *)
Definition src_Decode_SizedSlice_T_N : impl :=
  Impl [id_T] [id_N] [((YPath [(id_T, [])]), [(id_Decode, [])])] (Some [(id_Decode, [])]) (YPath [(id_SizedSlice, [(YPath [(id_T, [])]); (YPath [(id_N, [])])])])
    [] [(id_Error, (YPath [(id_CollectionDecodeError, [(YPath [(id_LengthError, [])]); (YPath [(id_ItemDecodeError, [(YPath [(id_usize, [])]); (YPath [(id_T, []); (id_Error, [])])])])])]))] [src_Decode_SizedSlice_T_N_decode].

(* oct/src/sized_str/code.rs:31 *)
Definition src_Decode_SizedStr_N_decode : fn := Fn id_decode [] [((PVar id_input), (YRef true (YPath [(id_Input, [])])))] (YPath [(id_Result, [(YPath [(id_Self, [])]); (YPath [(id_Self, []); (id_Error, [])])])])
    (ELet (PVar id_len) None (Some (EMethod (ECall (EHole 0 [(id_Decode, []); (id_decode, [])]) [(EPath [(id_input, [])])]) id_unwrap [] [])) None
      (ELet (PVar id_data) None (Some (EMethod (EMethod (EPath [(id_input, [])]) id_read [] [(EPath [(id_len, [])])]) id_unwrap [] [])) None
      (EMethod (ECall (EPath [(id_Self, []); (id_from_utf8, [])]) [(EPath [(id_data, [])])]) id_map_err [] [(EClosure [(PVar id_e)] (EMatch (EPath [(id_e, [])]) [((PCon [(id_StringError, []); (id_BadUtf8, [])] [(PVar id_e)]), (ECall (EPath [(id_CollectionDecodeError, []); (id_BadItem, [])]) [(EPath [(id_e, [])])])); ((PCon [(id_StringError, []); (id_SmallBuffer, [])] [(PVar id_e)]), (ECall (EPath [(id_CollectionDecodeError, []); (id_BadLength, [])]) [(EPath [(id_e, [])])])); (PAny, (EMacro id_unreachable []))]))]))).

(* oct/src/sized_str/code.rs:27 *)
Definition src_Decode_SizedStr_N : impl :=
  Impl [] [id_N] [] (Some [(id_Decode, [])]) (YPath [(id_SizedStr, [(YPath [(id_N, [])])])])
    [] [(id_Error, (YPath [(id_CollectionDecodeError, [(YPath [(id_LengthError, [])]); (YPath [(id_Utf8Error, [])])])]))] [src_Decode_SizedStr_N_decode].

(* all of them, in the order of the files *)
Definition src_decode_impls : list impl := [src_Decode_tuple1; src_Decode_array; src_Decode_Arc_T; src_Decode_bool; src_Decode_Bound_T; src_Decode_Box_T; src_Decode_Cell_T; src_Decode_char; src_Decode_Cow_B; src_Decode_CString; src_Decode_Duration; src_Decode_HashMap_K_V_S; src_Decode_HashSet_K_S; src_Decode_Infallible; src_Decode_IpAddr; src_Decode_Ipv4Addr; src_Decode_Ipv6Addr; src_Decode_isize; src_Decode_LinkedList_T; src_Decode_Mutex_T; src_Decode_Option_T; src_Decode_PhantomData_T; src_Decode_PhantomPinned; src_Decode_Range_T; src_Decode_RangeFrom_T; src_Decode_RangeFull; src_Decode_RangeInclusive_T; src_Decode_RangeTo_T; src_Decode_RangeToInclusive_T; src_Decode_Rc_T; src_Decode_RefCell_T; src_Decode_Result_T_E; src_Decode_RwLock_T; src_Decode_Saturating_T; src_Decode_SocketAddr; src_Decode_SocketAddrV4; src_Decode_SocketAddrV6; src_Decode_String; src_Decode_SystemTime; src_Decode_tuple0; src_Decode_usize; src_Decode_Vec_T; src_Decode_Wrapping_T; src_Decode_f32; src_Decode_f64; src_Decode_i128; src_Decode_i16; src_Decode_i32; src_Decode_i64; src_Decode_i8; src_Decode_u128; src_Decode_u16; src_Decode_u32; src_Decode_u64; src_Decode_u8; src_Decode_tuple2; src_Decode_tuple3; src_Decode_tuple4; src_Decode_tuple5; src_Decode_tuple6; src_Decode_tuple7; src_Decode_tuple8; src_Decode_tuple9; src_Decode_tuple10; src_Decode_tuple11; src_Decode_tuple12; src_Decode_NonZero_i128; src_Decode_NonZero_i16; src_Decode_NonZero_i32; src_Decode_NonZero_i64; src_Decode_NonZero_i8; src_Decode_NonZero_isize; src_Decode_NonZero_u128; src_Decode_NonZero_u16; src_Decode_NonZero_u32; src_Decode_NonZero_u64; src_Decode_NonZero_u8; src_Decode_NonZero_usize; src_Decode_AtomicBool; src_Decode_AtomicI16; src_Decode_AtomicI32; src_Decode_AtomicI64; src_Decode_AtomicI8; src_Decode_AtomicIsize; src_Decode_AtomicU16; src_Decode_AtomicU32; src_Decode_AtomicU64; src_Decode_AtomicU8; src_Decode_AtomicUsize; src_Decode_SizedSlice_T_N; src_Decode_SizedStr_N].
