(* Generated by tools/rust2v.py from oct/src/encode/encode/mod.rs, oct/src/sized_slice/code.rs, oct/src/sized_str/code.rs. Do not edit. *)
From Coq Require Import String.
From Verif Require Import Base SourceNames SourceSyntax.
Local Open Scope list_scope.

(* oct/src/encode/encode/mod.rs:153 *)
Definition src_Encode_ref_encode : fn := Fn id_encode [] [((PVar id_self), (YPath [(id_Self, [])])); ((PVar id_output), (YRef true (YPath [(id_Output, [])])))] (YPath [(id_Result, [(YTup []); (YPath [(id_Self, []); (id_Error, [])])])])
    (ECall (EPath [(id_T, []); (id_encode, [])]) [(EPath [(id_self, [])]); (EPath [(id_output, [])])]).

(* oct/src/encode/encode/mod.rs:149 *)
Definition src_Encode_ref : impl :=
  Impl [id_T] [] [((YPath [(id_T, [])]), [(id_Encode, [])])] (Some [(id_Encode, [])]) (YRef false (YPath [(id_T, [])]))
    [] [(id_Error, (YPath [(id_T, []); (id_Error, [])]))] [src_Encode_ref_encode].

(* oct/src/encode/encode/mod.rs:162 *)
Definition src_Encode_ref_mut_encode : fn := Fn id_encode [] [((PVar id_self), (YPath [(id_Self, [])])); ((PVar id_output), (YRef true (YPath [(id_Output, [])])))] (YPath [(id_Result, [(YTup []); (YPath [(id_Self, []); (id_Error, [])])])])
    (ECall (EPath [(id_T, []); (id_encode, [])]) [(EPath [(id_self, [])]); (EPath [(id_output, [])])]).

(* oct/src/encode/encode/mod.rs:158 *)
Definition src_Encode_ref_mut : impl :=
  Impl [id_T] [] [((YPath [(id_T, [])]), [(id_Encode, [])])] (Some [(id_Encode, [])]) (YRef true (YPath [(id_T, [])]))
    [] [(id_Error, (YPath [(id_T, []); (id_Error, [])]))] [src_Encode_ref_mut_encode].

(* oct/src/encode/encode/mod.rs:173 *)
Definition src_Encode_tuple1_encode : fn := Fn id_encode [] [((PVar id_self), (YPath [(id_Self, [])])); ((PVar id_output), (YRef true (YPath [(id_Output, [])])))] (YPath [(id_Result, [(YTup []); (YPath [(id_Self, []); (id_Error, [])])])])
    (EMethod (EIdx (EPath [(id_self, [])]) 0) id_encode [] [(EPath [(id_output, [])])]).

(* oct/src/encode/encode/mod.rs:169 *)
Definition src_Encode_tuple1 : impl :=
  Impl [id_T] [] [((YPath [(id_T, [])]), [(id_Encode, [])])] (Some [(id_Encode, [])]) (YTup [(YPath [(id_T, [])])])
    [] [(id_Error, (YPath [(id_T, []); (id_Error, [])]))] [src_Encode_tuple1_encode].

(* oct/src/encode/encode/mod.rs:185, a loop in it *)
Definition src_Encode_array_encode_loop0 : expr :=
    (ESeq (ETry (EMethod (EMethod (EPath [(id_v, [])]) id_encode [] [(EPath [(id_output, [])])]) id_map_err [] [(EClosure [(PVar id_e)] (ECall (EPath [(id_CollectionEncodeError, []); (id_BadItem, [])]) [(ERec [(id_ItemEncodeError, [])] [(id_index, (EPath [(id_i, [])])); (id_error, (EPath [(id_e, [])]))])]))])) EUnit).

(* oct/src/encode/encode/mod.rs:185 *)
Definition src_Encode_array_encode : fn := Fn id_encode [] [((PVar id_self), (YPath [(id_Self, [])])); ((PVar id_output), (YRef true (YPath [(id_Output, [])])))] (YPath [(id_Result, [(YTup []); (YPath [(id_Self, []); (id_Error, [])])])])
    (ESeq (EFor (PTup [(PVar id_i); (PVar id_v)]) (EMethod (EMethod (EPath [(id_self, [])]) id_iter [] []) id_enumerate [] []) src_Encode_array_encode_loop0) (ECall (EPath [(id_Result, []); (id_Ok, [])]) [(ETuple [])])).

(* oct/src/encode/encode/mod.rs:178 *)
Definition src_Encode_array : impl :=
  Impl [id_T] [id_N] [((YPath [(id_T, [])]), [(id_Encode, [])])] (Some [(id_Encode, [])]) (YArr (YPath [(id_T, [])]) (YPath [(id_N, [])]))
    [] [(id_Error, (YPath [(id_CollectionEncodeError, [(YPath [(id_Infallible, [])]); (YPath [(id_ItemEncodeError, [(YPath [(id_usize, [])]); (YPath [(id_T, []); (id_Error, [])])])])])]))] [src_Encode_array_encode].

(* oct/src/encode/encode/mod.rs:201, a loop in it *)
Definition src_Encode_slice_encode_loop0 : expr :=
    (ESeq (ETry (EMethod (EMethod (EPath [(id_v, [])]) id_encode [] [(EPath [(id_output, [])])]) id_map_err [] [(EClosure [(PVar id_e)] (ECall (EPath [(id_CollectionEncodeError, []); (id_BadItem, [])]) [(ERec [(id_ItemEncodeError, [])] [(id_index, (EPath [(id_i, [])])); (id_error, (EPath [(id_e, [])]))])]))])) EUnit).

(* oct/src/encode/encode/mod.rs:201 *)
Definition src_Encode_slice_encode : fn := Fn id_encode [] [((PVar id_self), (YPath [(id_Self, [])])); ((PVar id_output), (YRef true (YPath [(id_Output, [])])))] (YPath [(id_Result, [(YTup []); (YPath [(id_Self, []); (id_Error, [])])])])
    (ESeq (ETry (EMethod (EMethod (EMethod (EPath [(id_self, [])]) id_len [] []) id_encode [] [(EPath [(id_output, [])])]) id_map_err [] [(EPath [(id_CollectionEncodeError, []); (id_BadLength, [])])])) (ESeq (EFor (PTup [(PVar id_i); (PVar id_v)]) (EMethod (EMethod (EPath [(id_self, [])]) id_iter [] []) id_enumerate [] []) src_Encode_slice_encode_loop0) (ECall (EPath [(id_Result, []); (id_Ok, [])]) [(ETuple [])]))).

(* oct/src/encode/encode/mod.rs:196 *)
Definition src_Encode_slice : impl :=
  Impl [id_T] [] [((YPath [(id_T, [])]), [(id_Encode, [])])] (Some [(id_Encode, [])]) (YSlice (YPath [(id_T, [])]))
    [] [(id_Error, (YPath [(id_CollectionEncodeError, [(YPath [(id_UsizeEncodeError, [])]); (YPath [(id_ItemEncodeError, [(YPath [(id_usize, [])]); (YPath [(id_T, []); (id_Error, [])])])])])]))] [src_Encode_slice_encode].

(* oct/src/encode/encode/mod.rs:223 *)
Definition src_Encode_Arc_T_encode : fn := Fn id_encode [] [((PVar id_self), (YPath [(id_Self, [])])); ((PVar id_output), (YRef true (YPath [(id_Output, [])])))] (YPath [(id_Result, [(YTup []); (YPath [(id_Self, []); (id_Error, [])])])])
    (ECall (EPath [(id_T, []); (id_encode, [])]) [(EPath [(id_self, [])]); (EPath [(id_output, [])])]).

(* oct/src/encode/encode/mod.rs:219 *)
Definition src_Encode_Arc_T : impl :=
  Impl [id_T] [] [((YPath [(id_T, [])]), [(id_Encode, [])])] (Some [(id_Encode, [])]) (YPath [(id_Arc, [(YPath [(id_T, [])])])])
    [] [(id_Error, (YPath [(id_T, []); (id_Error, [])]))] [src_Encode_Arc_T_encode].

(* oct/src/encode/encode/mod.rs:233 *)
Definition src_Encode_bool_encode : fn := Fn id_encode [] [((PVar id_self), (YPath [(id_Self, [])])); ((PVar id_output), (YRef true (YPath [(id_Output, [])])))] (YPath [(id_Result, [(YTup []); (YPath [(id_Self, []); (id_Error, [])])])])
    (EMethod (ECall (EPath [(id_u8, []); (id_from, [])]) [(EDeref (EPath [(id_self, [])]))]) id_encode [] [(EPath [(id_output, [])])]).

(* oct/src/encode/encode/mod.rs:228 *)
Definition src_Encode_bool : impl :=
  Impl [] [] [] (Some [(id_Encode, [])]) (YPath [(id_bool, [])])
    [] [(id_Error, (YQual (YPath [(id_u8, [])]) [(id_Encode, [])] [(id_Error, [])]))] [src_Encode_bool_encode].

(* oct/src/encode/encode/mod.rs:242 *)
Definition src_Encode_Bound_T_encode : fn := Fn id_encode [] [((PVar id_self), (YPath [(id_Self, [])])); ((PVar id_output), (YRef true (YPath [(id_Output, [])])))] (YPath [(id_Result, [(YTup []); (YPath [(id_Self, []); (id_Error, [])])])])
    (ESeq (EMatch (EDeref (EPath [(id_self, [])])) [((PCon [(id_Self, []); (id_Included, [])] [(PVar id_bound)]), (ELet (PCon [(id_Ok, [])] [PAny]) None (Some (EMethod (EInt (0)%Z (Some id_u8)) id_encode [] [(EPath [(id_output, [])])])) None
      (ESeq (ETry (EMethod (EMethod (EPath [(id_bound, [])]) id_encode [] [(EPath [(id_output, [])])]) id_map_err [] [(EPath [(id_EnumEncodeError, []); (id_BadField, [])])])) EUnit))); ((PCon [(id_Self, []); (id_Excluded, [])] [(PVar id_bound)]), (ELet (PCon [(id_Ok, [])] [PAny]) None (Some (EMethod (EInt (1)%Z (Some id_u8)) id_encode [] [(EPath [(id_output, [])])])) None
      (ESeq (ETry (EMethod (EMethod (EPath [(id_bound, [])]) id_encode [] [(EPath [(id_output, [])])]) id_map_err [] [(EPath [(id_EnumEncodeError, []); (id_BadField, [])])])) EUnit))); ((PCon [(id_Self, []); (id_Unbounded, [])] []), (ELet (PCon [(id_Ok, [])] [PAny]) None (Some (EMethod (EInt (2)%Z (Some id_u8)) id_encode [] [(EPath [(id_output, [])])])) None
      EUnit))]) (ECall (EPath [(id_Result, []); (id_Ok, [])]) [(ETuple [])])).

(* oct/src/encode/encode/mod.rs:238 *)
Definition src_Encode_Bound_T : impl :=
  Impl [id_T] [] [((YPath [(id_T, [])]), [(id_Encode, [])])] (Some [(id_Encode, [])]) (YPath [(id_Bound, [(YPath [(id_T, [])])])])
    [] [(id_Error, (YPath [(id_EnumEncodeError, [(YPath [(id_u8, [])]); (YPath [(id_T, []); (id_Error, [])])])]))] [src_Encode_Bound_T_encode].

(* oct/src/encode/encode/mod.rs:269 *)
Definition src_Encode_Box_T_encode : fn := Fn id_encode [] [((PVar id_self), (YPath [(id_Self, [])])); ((PVar id_output), (YRef true (YPath [(id_Output, [])])))] (YPath [(id_Result, [(YTup []); (YPath [(id_Self, []); (id_Error, [])])])])
    (ECall (EPath [(id_T, []); (id_encode, [])]) [(EPath [(id_self, [])]); (EPath [(id_output, [])])]).

(* oct/src/encode/encode/mod.rs:265 *)
Definition src_Encode_Box_T : impl :=
  Impl [id_T] [] [((YPath [(id_T, [])]), [(id_Encode, [])])] (Some [(id_Encode, [])]) (YPath [(id_Box, [(YPath [(id_T, [])])])])
    [] [(id_Error, (YPath [(id_T, []); (id_Error, [])]))] [src_Encode_Box_T_encode].

(* oct/src/encode/encode/mod.rs:278 *)
Definition src_Encode_Cell_T_encode : fn := Fn id_encode [] [((PVar id_self), (YPath [(id_Self, [])])); ((PVar id_output), (YRef true (YPath [(id_Output, [])])))] (YPath [(id_Result, [(YTup []); (YPath [(id_Self, []); (id_Error, [])])])])
    (EMethod (EMethod (EPath [(id_self, [])]) id_get [] []) id_encode [] [(EPath [(id_output, [])])]).

(* oct/src/encode/encode/mod.rs:274 *)
Definition src_Encode_Cell_T : impl :=
  Impl [id_T] [] [((YPath [(id_T, [])]), [(id_Copy, [])]); ((YPath [(id_T, [])]), [(id_Encode, [])])] (Some [(id_Encode, [])]) (YPath [(id_Cell, [(YPath [(id_T, [])])])])
    [] [(id_Error, (YPath [(id_T, []); (id_Error, [])]))] [src_Encode_Cell_T_encode].

(* oct/src/encode/encode/mod.rs:287 *)
Definition src_Encode_char_encode : fn := Fn id_encode [] [((PVar id_self), (YPath [(id_Self, [])])); ((PVar id_output), (YRef true (YPath [(id_Output, [])])))] (YPath [(id_Result, [(YTup []); (YPath [(id_Self, []); (id_Error, [])])])])
    (EMethod (ECall (EPath [(id_u32, []); (id_from, [])]) [(EDeref (EPath [(id_self, [])]))]) id_encode [] [(EPath [(id_output, [])])]).

(* oct/src/encode/encode/mod.rs:283 *)
Definition src_Encode_char : impl :=
  Impl [] [] [] (Some [(id_Encode, [])]) (YPath [(id_char, [])])
    [] [(id_Error, (YQual (YPath [(id_u32, [])]) [(id_Encode, [])] [(id_Error, [])]))] [src_Encode_char_encode].

(* oct/src/encode/encode/mod.rs:298 *)
Definition src_Encode_Cow_T_encode : fn := Fn id_encode [] [((PVar id_self), (YPath [(id_Self, [])])); ((PVar id_output), (YRef true (YPath [(id_Output, [])])))] (YPath [(id_Result, [(YTup []); (YPath [(id_Self, []); (id_Error, [])])])])
    (ECall (EPath [(id_T, []); (id_encode, [])]) [(EPath [(id_self, [])]); (EPath [(id_output, [])])]).

(* oct/src/encode/encode/mod.rs:294 *)
Definition src_Encode_Cow_T : impl :=
  Impl [id_T] [] [((YPath [(id_T, [])]), [(id_Encode, [])]); ((YPath [(id_T, [])]), [(id_ToOwned, [])])] (Some [(id_Encode, [])]) (YPath [(id_Cow, [(YPath [(id_T, [])])])])
    [] [(id_Error, (YPath [(id_T, []); (id_Error, [])]))] [src_Encode_Cow_T_encode].

(* oct/src/encode/encode/mod.rs:308 *)
Definition src_Encode_CStr_encode : fn := Fn id_encode [] [((PVar id_self), (YPath [(id_Self, [])])); ((PVar id_output), (YRef true (YPath [(id_Output, [])])))] (YPath [(id_Result, [(YTup []); (YPath [(id_Self, []); (id_Error, [])])])])
    (EMethod (EMethod (EPath [(id_self, [])]) id_to_bytes [] []) id_encode [] [(EPath [(id_output, [])])]).

(* oct/src/encode/encode/mod.rs:303 *)
Definition src_Encode_CStr : impl :=
  Impl [] [] [] (Some [(id_Encode, [])]) (YPath [(id_CStr, [])])
    [] [(id_Error, (YQual (YSlice (YPath [(id_u8, [])])) [(id_Encode, [])] [(id_Error, [])]))] [src_Encode_CStr_encode].

(* oct/src/encode/encode/mod.rs:320 *)
Definition src_Encode_CString_encode : fn := Fn id_encode [] [((PVar id_self), (YPath [(id_Self, [])])); ((PVar id_output), (YRef true (YPath [(id_Output, [])])))] (YPath [(id_Result, [(YTup []); (YPath [(id_Self, []); (id_Error, [])])])])
    (EMethod (EMethod (EPath [(id_self, [])]) id_as_c_str [] []) id_encode [] [(EPath [(id_output, [])])]).

(* oct/src/encode/encode/mod.rs:315 *)
Definition src_Encode_CString : impl :=
  Impl [] [] [] (Some [(id_Encode, [])]) (YPath [(id_CString, [])])
    [] [(id_Error, (YQual (YPath [(id_CStr, [])]) [(id_Encode, [])] [(id_Error, [])]))] [src_Encode_CString_encode].

(* oct/src/encode/encode/mod.rs:330 *)
Definition src_Encode_Duration_encode : fn := Fn id_encode [] [((PVar id_self), (YPath [(id_Self, [])])); ((PVar id_output), (YRef true (YPath [(id_Output, [])])))] (YPath [(id_Result, [(YTup []); (YPath [(id_Self, []); (id_Error, [])])])])
    (ESeq (ETry (EMethod (EMethod (EPath [(id_self, [])]) id_as_secs [] []) id_encode [] [(EPath [(id_output, [])])])) (ESeq (ETry (EMethod (EMethod (EPath [(id_self, [])]) id_subsec_nanos [] []) id_encode [] [(EPath [(id_output, [])])])) (ECall (EPath [(id_Result, []); (id_Ok, [])]) [(ETuple [])]))).

(* oct/src/encode/encode/mod.rs:325 *)
Definition src_Encode_Duration : impl :=
  Impl [] [] [] (Some [(id_Encode, [])]) (YPath [(id_Duration, [])])
    [] [(id_Error, (YPath [(id_Infallible, [])]))] [src_Encode_Duration_encode].

(* oct/src/encode/encode/mod.rs:349, a loop in it *)
Definition src_Encode_HashMap_K_V_S_encode_loop0 : expr :=
    (ESeq (ETry (EMethod (EPath [(id_key, [])]) id_encode [] [(EPath [(id_output, [])])])) (ESeq (ETry (EMethod (EPath [(id_value, [])]) id_encode [] [(EPath [(id_output, [])])])) EUnit)).

(* oct/src/encode/encode/mod.rs:349 *)
Definition src_Encode_HashMap_K_V_S_encode : fn := Fn id_encode [] [((PVar id_self), (YPath [(id_Self, [])])); ((PVar id_output), (YRef true (YPath [(id_Output, [])])))] (YPath [(id_Result, [(YTup []); (YPath [(id_Self, []); (id_Error, [])])])])
    (ESeq (EFor (PTup [(PVar id_key); (PVar id_value)]) (EPath [(id_self, [])]) src_Encode_HashMap_K_V_S_encode_loop0) (ECall (EPath [(id_Result, []); (id_Ok, [])]) [(ETuple [])])).

(* oct/src/encode/encode/mod.rs:340 *)
Definition src_Encode_HashMap_K_V_S : impl :=
  Impl [id_K; id_V; id_S; id_E] [] [((YPath [(id_K, [])]), [(id_Encode, [(YAssoc id_Error (YPath [(id_E, [])]))])]); ((YPath [(id_V, [])]), [(id_Encode, [(YAssoc id_Error (YPath [(id_E, [])]))])]); ((YPath [(id_S, [])]), [(id_BuildHasher, [])])] (Some [(id_Encode, [])]) (YPath [(id_HashMap, [(YPath [(id_K, [])]); (YPath [(id_V, [])]); (YPath [(id_S, [])])])])
    [] [(id_Error, (YPath [(id_E, [])]))] [src_Encode_HashMap_K_V_S_encode].

(* oct/src/encode/encode/mod.rs:369, a loop in it *)
Definition src_Encode_HashSet_K_S_encode_loop0 : expr :=
    (ESeq (ETry (EMethod (EPath [(id_key, [])]) id_encode [] [(EPath [(id_output, [])])])) EUnit).

(* oct/src/encode/encode/mod.rs:369 *)
Definition src_Encode_HashSet_K_S_encode : fn := Fn id_encode [] [((PVar id_self), (YPath [(id_Self, [])])); ((PVar id_output), (YRef true (YPath [(id_Output, [])])))] (YPath [(id_Result, [(YTup []); (YPath [(id_Self, []); (id_Error, [])])])])
    (ESeq (EFor (PVar id_key) (EPath [(id_self, [])]) src_Encode_HashSet_K_S_encode_loop0) (ECall (EPath [(id_Result, []); (id_Ok, [])]) [(ETuple [])])).

(* oct/src/encode/encode/mod.rs:361 *)
Definition src_Encode_HashSet_K_S : impl :=
  Impl [id_K; id_S] [] [((YPath [(id_K, [])]), [(id_Encode, [])]); ((YPath [(id_S, [])]), [(id_BuildHasher, [])])] (Some [(id_Encode, [])]) (YPath [(id_HashSet, [(YPath [(id_K, [])]); (YPath [(id_S, [])])])])
    [] [(id_Error, (YPath [(id_K, []); (id_Error, [])]))] [src_Encode_HashSet_K_S_encode].

(* oct/src/encode/encode/mod.rs:384 *)
Definition src_Encode_Infallible_encode : fn := Fn id_encode [] [((PVar id_self), (YPath [(id_Self, [])])); ((PVar id__output), (YRef true (YPath [(id_Output, [])])))] (YPath [(id_Result, [(YTup []); (YPath [(id_Self, []); (id_Error, [])])])])
    (ECall (EPath [(id_unreachable_unchecked, [])]) []).

(* oct/src/encode/encode/mod.rs:380 *)
Definition src_Encode_Infallible : impl :=
  Impl [] [] [] (Some [(id_Encode, [])]) (YPath [(id_Infallible, [])])
    [] [(id_Error, (YPath [(id_Self, [])]))] [src_Encode_Infallible_encode].

(* oct/src/encode/encode/mod.rs:398 *)
Definition src_Encode_IpAddr_encode : fn := Fn id_encode [] [((PVar id_self), (YPath [(id_Self, [])])); ((PVar id_output), (YRef true (YPath [(id_Output, [])])))] (YPath [(id_Result, [(YTup []); (YPath [(id_Self, []); (id_Error, [])])])])
    (ESeq (EMatch (EDeref (EPath [(id_self, [])])) [((PCon [(id_Self, []); (id_V4, [])] [(PVar id_addr)]), (ESeq (ETry (EMethod (EMethod (EInt (4)%Z (Some id_u8)) id_encode [] [(EPath [(id_output, [])])]) id_map_err [] [(EPath [(id_EnumEncodeError, []); (id_BadDiscriminant, [])])])) (ESeq (ETry (EMethod (EMethod (EPath [(id_addr, [])]) id_encode [] [(EPath [(id_output, [])])]) id_map_err [] [(EPath [(id_EnumEncodeError, []); (id_BadField, [])])])) EUnit))); ((PCon [(id_Self, []); (id_V6, [])] [(PVar id_addr)]), (ESeq (ETry (EMethod (EMethod (EInt (6)%Z (Some id_u8)) id_encode [] [(EPath [(id_output, [])])]) id_map_err [] [(EPath [(id_EnumEncodeError, []); (id_BadDiscriminant, [])])])) (ESeq (ETry (EMethod (EMethod (EPath [(id_addr, [])]) id_encode [] [(EPath [(id_output, [])])]) id_map_err [] [(EPath [(id_EnumEncodeError, []); (id_BadField, [])])])) EUnit)))]) (ECall (EPath [(id_Result, []); (id_Ok, [])]) [(ETuple [])])).

(* oct/src/encode/encode/mod.rs:391 *)
Definition src_Encode_IpAddr : impl :=
  Impl [] [] [] (Some [(id_Encode, [])]) (YPath [(id_IpAddr, [])])
    [] [(id_Error, (YPath [(id_EnumEncodeError, [(YPath [(id_u8, [])]); (YPath [(id_Infallible, [])])])]))] [src_Encode_IpAddr_encode].

(* oct/src/encode/encode/mod.rs:422 *)
Definition src_Encode_Ipv4Addr_encode : fn := Fn id_encode [] [((PVar id_self), (YPath [(id_Self, [])])); ((PVar id_output), (YRef true (YPath [(id_Output, [])])))] (YPath [(id_Result, [(YTup []); (YPath [(id_Self, []); (id_Error, [])])])])
    (ELet (PVar id_value) None (Some (EMethod (EPath [(id_self, [])]) id_to_bits [] [])) None
      (EMethod (EPath [(id_value, [])]) id_encode [] [(EPath [(id_output, [])])])).

(* oct/src/encode/encode/mod.rs:417 *)
Definition src_Encode_Ipv4Addr : impl :=
  Impl [] [] [] (Some [(id_Encode, [])]) (YPath [(id_Ipv4Addr, [])])
    [] [(id_Error, (YPath [(id_Infallible, [])]))] [src_Encode_Ipv4Addr_encode].

(* oct/src/encode/encode/mod.rs:433 *)
Definition src_Encode_Ipv6Addr_encode : fn := Fn id_encode [] [((PVar id_self), (YPath [(id_Self, [])])); ((PVar id_output), (YRef true (YPath [(id_Output, [])])))] (YPath [(id_Result, [(YTup []); (YPath [(id_Self, []); (id_Error, [])])])])
    (ELet (PVar id_value) None (Some (EMethod (EPath [(id_self, [])]) id_to_bits [] [])) None
      (EMethod (EPath [(id_value, [])]) id_encode [] [(EPath [(id_output, [])])])).

(* oct/src/encode/encode/mod.rs:428 *)
Definition src_Encode_Ipv6Addr : impl :=
  Impl [] [] [] (Some [(id_Encode, [])]) (YPath [(id_Ipv6Addr, [])])
    [] [(id_Error, (YPath [(id_Infallible, [])]))] [src_Encode_Ipv6Addr_encode].

(* oct/src/encode/encode/mod.rs:444 *)
Definition src_Encode_isize_encode : fn := Fn id_encode [] [((PVar id_self), (YPath [(id_Self, [])])); ((PVar id_output), (YRef true (YPath [(id_Output, [])])))] (YPath [(id_Result, [(YTup []); (YPath [(id_Self, []); (id_Error, [])])])])
    (ELet (PVar id_value) None (Some (ETry (EMethod (ECall (EPath [(id_i16, []); (id_try_from, [])]) [(EDeref (EPath [(id_self, [])]))]) id_map_err [] [(EClosure [PAny] (ECall (EPath [(id_IsizeEncodeError, [])]) [(EDeref (EPath [(id_self, [])]))]))]))) None
      (ELet (PCon [(id_Ok, [])] [PAny]) None (Some (EMethod (EPath [(id_value, [])]) id_encode [] [(EPath [(id_output, [])])])) None
      (ECall (EPath [(id_Result, []); (id_Ok, [])]) [(ETuple [])]))).

(* oct/src/encode/encode/mod.rs:439 *)
Definition src_Encode_isize : impl :=
  Impl [] [] [] (Some [(id_Encode, [])]) (YPath [(id_isize, [])])
    [] [(id_Error, (YPath [(id_IsizeEncodeError, [])]))] [src_Encode_isize_encode].

(* oct/src/encode/encode/mod.rs:457 *)
Definition src_Encode_LazyCell_T_encode : fn := Fn id_encode [] [((PVar id_self), (YPath [(id_Self, [])])); ((PVar id_output), (YRef true (YPath [(id_Output, [])])))] (YPath [(id_Result, [(YTup []); (YPath [(id_Self, []); (id_Error, [])])])])
    (ECall (EPath [(id_T, []); (id_encode, [])]) [(EPath [(id_self, [])]); (EPath [(id_output, [])])]).

(* oct/src/encode/encode/mod.rs:453 *)
Definition src_Encode_LazyCell_T : impl :=
  Impl [id_T] [] [((YPath [(id_T, [])]), [(id_Encode, [])])] (Some [(id_Encode, [])]) (YPath [(id_LazyCell, [(YPath [(id_T, [])])])])
    [] [(id_Error, (YPath [(id_T, []); (id_Error, [])]))] [src_Encode_LazyCell_T_encode].

(* oct/src/encode/encode/mod.rs:468 *)
Definition src_Encode_LazyLock_T_encode : fn := Fn id_encode [] [((PVar id_self), (YPath [(id_Self, [])])); ((PVar id_output), (YRef true (YPath [(id_Output, [])])))] (YPath [(id_Result, [(YTup []); (YPath [(id_Self, []); (id_Error, [])])])])
    (ECall (EPath [(id_T, []); (id_encode, [])]) [(EPath [(id_self, [])]); (EPath [(id_output, [])])]).

(* oct/src/encode/encode/mod.rs:464 *)
Definition src_Encode_LazyLock_T : impl :=
  Impl [id_T] [] [((YPath [(id_T, [])]), [(id_Encode, [])])] (Some [(id_Encode, [])]) (YPath [(id_LazyLock, [(YPath [(id_T, [])])])])
    [] [(id_Error, (YPath [(id_T, []); (id_Error, [])]))] [src_Encode_LazyLock_T_encode].

(* oct/src/encode/encode/mod.rs:479, a loop in it *)
Definition src_Encode_LinkedList_T_encode_loop0 : expr :=
    (ESeq (ETry (EMethod (EMethod (EPath [(id_v, [])]) id_encode [] [(EPath [(id_output, [])])]) id_map_err [] [(EClosure [(PVar id_e)] (ECall (EPath [(id_CollectionEncodeError, []); (id_BadItem, [])]) [(ETuple [(EPath [(id_i, [])]); (EPath [(id_e, [])])])]))])) EUnit).

(* oct/src/encode/encode/mod.rs:479 *)
Definition src_Encode_LinkedList_T_encode : fn := Fn id_encode [] [((PVar id_self), (YPath [(id_Self, [])])); ((PVar id_output), (YRef true (YPath [(id_Output, [])])))] (YPath [(id_Result, [(YTup []); (YPath [(id_Self, []); (id_Error, [])])])])
    (ESeq (ETry (EMethod (EMethod (EMethod (EPath [(id_self, [])]) id_len [] []) id_encode [] [(EPath [(id_output, [])])]) id_map_err [] [(EPath [(id_CollectionEncodeError, []); (id_BadLength, [])])])) (ESeq (EFor (PTup [(PVar id_i); (PVar id_v)]) (EMethod (EMethod (EPath [(id_self, [])]) id_iter [] []) id_enumerate [] []) src_Encode_LinkedList_T_encode_loop0) (ECall (EPath [(id_Result, []); (id_Ok, [])]) [(ETuple [])]))).

(* oct/src/encode/encode/mod.rs:475 *)
Definition src_Encode_LinkedList_T : impl :=
  Impl [id_T; id_E] [] [((YPath [(id_T, [])]), [(id_Encode, [(YAssoc id_Error (YPath [(id_E, [])]))])])] (Some [(id_Encode, [])]) (YPath [(id_LinkedList, [(YPath [(id_T, [])])])])
    [] [(id_Error, (YPath [(id_CollectionEncodeError, [(YPath [(id_UsizeEncodeError, [])]); (YTup [(YPath [(id_usize, [])]); (YPath [(id_E, [])])])])]))] [src_Encode_LinkedList_T_encode].

(* oct/src/encode/encode/mod.rs:501 *)
Definition src_Encode_Mutex_T_encode : fn := Fn id_encode [] [((PVar id_self), (YPath [(id_Self, [])])); ((PVar id_output), (YRef true (YPath [(id_Output, [])])))] (YPath [(id_Result, [(YTup []); (YPath [(id_Self, []); (id_Error, [])])])])
    (EMethod (EMethod (EMethod (EPath [(id_self, [])]) id_lock [] []) id_unwrap_or_else [] [(EPath [(id_std, []); (id_sync, []); (id_PoisonError, []); (id_into_inner, [])])]) id_encode [] [(EPath [(id_output, [])])]).

(* oct/src/encode/encode/mod.rs:497 *)
Definition src_Encode_Mutex_T : impl :=
  Impl [id_T] [] [((YPath [(id_T, [])]), [(id_Encode, [])])] (Some [(id_Encode, [])]) (YPath [(id_Mutex, [(YPath [(id_T, [])])])])
    [] [(id_Error, (YPath [(id_T, []); (id_Error, [])]))] [src_Encode_Mutex_T_encode].

(* oct/src/encode/encode/mod.rs:516 *)
Definition src_Encode_Option_T_encode : fn := Fn id_encode [] [((PVar id_self), (YPath [(id_Self, [])])); ((PVar id_output), (YRef true (YPath [(id_Output, [])])))] (YPath [(id_Result, [(YTup []); (YPath [(id_Self, []); (id_Error, [])])])])
    (ESeq (EMatch (EDeref (EPath [(id_self, [])])) [((PCon [(id_None, [])] []), (ESeq (ETry (EMethod (EMethod (EBool false) id_encode [] [(EPath [(id_output, [])])]) id_map_err [(YPath [(id_Self, []); (id_Error, [])]); YInfer] [(EClosure [(PVar id__v)] (EMacro id_unreachable []))])) EUnit)); ((PCon [(id_Some, [])] [(PVar id_v)]), (ESeq (ETry (EMethod (EMethod (EBool true) id_encode [] [(EPath [(id_output, [])])]) id_map_err [(YPath [(id_Self, []); (id_Error, [])]); YInfer] [(EClosure [(PVar id__v)] (EMacro id_unreachable []))])) (ESeq (ETry (EMethod (EPath [(id_v, [])]) id_encode [] [(EPath [(id_output, [])])])) EUnit)))]) (ECall (EPath [(id_Result, []); (id_Ok, [])]) [(ETuple [])])).

(* oct/src/encode/encode/mod.rs:509 *)
Definition src_Encode_Option_T : impl :=
  Impl [id_T] [] [((YPath [(id_T, [])]), [(id_Encode, [])])] (Some [(id_Encode, [])]) (YPath [(id_Option, [(YPath [(id_T, [])])])])
    [] [(id_Error, (YPath [(id_T, []); (id_Error, [])]))] [src_Encode_Option_T_encode].

(* oct/src/encode/encode/mod.rs:541 *)
Definition src_Encode_PhantomData_T_encode : fn := Fn id_encode [] [((PVar id_self), (YPath [(id_Self, [])])); ((PVar id__output), (YRef true (YPath [(id_Output, [])])))] (YPath [(id_Result, [(YTup []); (YPath [(id_Self, []); (id_Error, [])])])])
    (ECall (EPath [(id_Result, []); (id_Ok, [])]) [(ETuple [])]).

(* oct/src/encode/encode/mod.rs:537 *)
Definition src_Encode_PhantomData_T : impl :=
  Impl [id_T] [] [] (Some [(id_Encode, [])]) (YPath [(id_PhantomData, [(YPath [(id_T, [])])])])
    [] [(id_Error, (YPath [(id_Infallible, [])]))] [src_Encode_PhantomData_T_encode].

(* oct/src/encode/encode/mod.rs:550 *)
Definition src_Encode_PhantomPinned_encode : fn := Fn id_encode [] [((PVar id_self), (YPath [(id_Self, [])])); ((PVar id__output), (YRef true (YPath [(id_Output, [])])))] (YPath [(id_Result, [(YTup []); (YPath [(id_Self, []); (id_Error, [])])])])
    (ECall (EPath [(id_Result, []); (id_Ok, [])]) [(ETuple [])]).

(* oct/src/encode/encode/mod.rs:546 *)
Definition src_Encode_PhantomPinned : impl :=
  Impl [] [] [] (Some [(id_Encode, [])]) (YPath [(id_PhantomPinned, [])])
    [] [(id_Error, (YPath [(id_Infallible, [])]))] [src_Encode_PhantomPinned_encode].

(* oct/src/encode/encode/mod.rs:559 *)
Definition src_Encode_Range_T_encode : fn := Fn id_encode [] [((PVar id_self), (YPath [(id_Self, [])])); ((PVar id_output), (YRef true (YPath [(id_Output, [])])))] (YPath [(id_Result, [(YTup []); (YPath [(id_Self, []); (id_Error, [])])])])
    (ESeq (ETry (EMethod (EField (EPath [(id_self, [])]) id_start) id_encode [] [(EPath [(id_output, [])])])) (ESeq (ETry (EMethod (EField (EPath [(id_self, [])]) id_end) id_encode [] [(EPath [(id_output, [])])])) (ECall (EPath [(id_Result, []); (id_Ok, [])]) [(ETuple [])]))).

(* oct/src/encode/encode/mod.rs:555 *)
Definition src_Encode_Range_T : impl :=
  Impl [id_T] [] [((YPath [(id_T, [])]), [(id_Encode, [])])] (Some [(id_Encode, [])]) (YPath [(id_Range, [(YPath [(id_T, [])])])])
    [] [(id_Error, (YPath [(id_T, []); (id_Error, [])]))] [src_Encode_Range_T_encode].

(* oct/src/encode/encode/mod.rs:571 *)
Definition src_Encode_RangeFrom_T_encode : fn := Fn id_encode [] [((PVar id_self), (YPath [(id_Self, [])])); ((PVar id_output), (YRef true (YPath [(id_Output, [])])))] (YPath [(id_Result, [(YTup []); (YPath [(id_Self, []); (id_Error, [])])])])
    (EMethod (EField (EPath [(id_self, [])]) id_start) id_encode [] [(EPath [(id_output, [])])]).

(* oct/src/encode/encode/mod.rs:567 *)
Definition src_Encode_RangeFrom_T : impl :=
  Impl [id_T] [] [((YPath [(id_T, [])]), [(id_Encode, [])])] (Some [(id_Encode, [])]) (YPath [(id_RangeFrom, [(YPath [(id_T, [])])])])
    [] [(id_Error, (YPath [(id_T, []); (id_Error, [])]))] [src_Encode_RangeFrom_T_encode].

(* oct/src/encode/encode/mod.rs:580 *)
Definition src_Encode_RangeFull_encode : fn := Fn id_encode [] [((PVar id_self), (YPath [(id_Self, [])])); ((PVar id__output), (YRef true (YPath [(id_Output, [])])))] (YPath [(id_Result, [(YTup []); (YPath [(id_Self, []); (id_Error, [])])])])
    (ECall (EPath [(id_Result, []); (id_Ok, [])]) [(ETuple [])]).

(* oct/src/encode/encode/mod.rs:576 *)
Definition src_Encode_RangeFull : impl :=
  Impl [] [] [] (Some [(id_Encode, [])]) (YPath [(id_RangeFull, [])])
    [] [(id_Error, (YPath [(id_Infallible, [])]))] [src_Encode_RangeFull_encode].

(* oct/src/encode/encode/mod.rs:589 *)
Definition src_Encode_RangeInclusive_T_encode : fn := Fn id_encode [] [((PVar id_self), (YPath [(id_Self, [])])); ((PVar id_output), (YRef true (YPath [(id_Output, [])])))] (YPath [(id_Result, [(YTup []); (YPath [(id_Self, []); (id_Error, [])])])])
    (ESeq (ETry (EMethod (EMethod (EPath [(id_self, [])]) id_start [] []) id_encode [] [(EPath [(id_output, [])])])) (ESeq (ETry (EMethod (EMethod (EPath [(id_self, [])]) id_end [] []) id_encode [] [(EPath [(id_output, [])])])) (ECall (EPath [(id_Result, []); (id_Ok, [])]) [(ETuple [])]))).

(* oct/src/encode/encode/mod.rs:585 *)
Definition src_Encode_RangeInclusive_T : impl :=
  Impl [id_T] [] [((YPath [(id_T, [])]), [(id_Encode, [])])] (Some [(id_Encode, [])]) (YPath [(id_RangeInclusive, [(YPath [(id_T, [])])])])
    [] [(id_Error, (YPath [(id_T, []); (id_Error, [])]))] [src_Encode_RangeInclusive_T_encode].

(* oct/src/encode/encode/mod.rs:601 *)
Definition src_Encode_RangeTo_T_encode : fn := Fn id_encode [] [((PVar id_self), (YPath [(id_Self, [])])); ((PVar id_output), (YRef true (YPath [(id_Output, [])])))] (YPath [(id_Result, [(YTup []); (YPath [(id_Self, []); (id_Error, [])])])])
    (EMethod (EField (EPath [(id_self, [])]) id_end) id_encode [] [(EPath [(id_output, [])])]).

(* oct/src/encode/encode/mod.rs:597 *)
Definition src_Encode_RangeTo_T : impl :=
  Impl [id_T] [] [((YPath [(id_T, [])]), [(id_Encode, [])])] (Some [(id_Encode, [])]) (YPath [(id_RangeTo, [(YPath [(id_T, [])])])])
    [] [(id_Error, (YPath [(id_T, []); (id_Error, [])]))] [src_Encode_RangeTo_T_encode].

(* oct/src/encode/encode/mod.rs:610 *)
Definition src_Encode_RangeToInclusive_T_encode : fn := Fn id_encode [] [((PVar id_self), (YPath [(id_Self, [])])); ((PVar id_output), (YRef true (YPath [(id_Output, [])])))] (YPath [(id_Result, [(YTup []); (YPath [(id_Self, []); (id_Error, [])])])])
    (EMethod (EField (EPath [(id_self, [])]) id_end) id_encode [] [(EPath [(id_output, [])])]).

(* oct/src/encode/encode/mod.rs:606 *)
Definition src_Encode_RangeToInclusive_T : impl :=
  Impl [id_T] [] [((YPath [(id_T, [])]), [(id_Encode, [])])] (Some [(id_Encode, [])]) (YPath [(id_RangeToInclusive, [(YPath [(id_T, [])])])])
    [] [(id_Error, (YPath [(id_T, []); (id_Error, [])]))] [src_Encode_RangeToInclusive_T_encode].

(* oct/src/encode/encode/mod.rs:621 *)
Definition src_Encode_Rc_T_encode : fn := Fn id_encode [] [((PVar id_self), (YPath [(id_Self, [])])); ((PVar id_output), (YRef true (YPath [(id_Output, [])])))] (YPath [(id_Result, [(YTup []); (YPath [(id_Self, []); (id_Error, [])])])])
    (ECall (EPath [(id_T, []); (id_encode, [])]) [(EPath [(id_self, [])]); (EPath [(id_output, [])])]).

(* oct/src/encode/encode/mod.rs:617 *)
Definition src_Encode_Rc_T : impl :=
  Impl [id_T] [] [((YPath [(id_T, [])]), [(id_Encode, [])])] (Some [(id_Encode, [])]) (YPath [(id_Rc, [(YPath [(id_T, [])])])])
    [] [(id_Error, (YPath [(id_T, []); (id_Error, [])]))] [src_Encode_Rc_T_encode].

(* oct/src/encode/encode/mod.rs:630 *)
Definition src_Encode_RefCell_T_encode : fn := Fn id_encode [] [((PVar id_self), (YPath [(id_Self, [])])); ((PVar id_output), (YRef true (YPath [(id_Output, [])])))] (YPath [(id_Result, [(YTup []); (YPath [(id_Self, []); (id_Error, [])])])])
    (ELet (PVar id_value) None (Some (ETry (EMethod (EMethod (EPath [(id_self, [])]) id_try_borrow [] []) id_map_err [] [(EPath [(id_RefCellEncodeError, []); (id_BadBorrow, [])])]))) None
      (ESeq (ETry (EMethod (ECall (EPath [(id_T, []); (id_encode, [])]) [(ERef (EPath [(id_value, [])])); (EPath [(id_output, [])])]) id_map_err [] [(EPath [(id_RefCellEncodeError, []); (id_BadValue, [])])])) (ECall (EPath [(id_Result, []); (id_Ok, [])]) [(ETuple [])]))).

(* oct/src/encode/encode/mod.rs:626 *)
Definition src_Encode_RefCell_T : impl :=
  Impl [id_T] [] [((YPath [(id_T, [])]), [(id_Encode, [])])] (Some [(id_Encode, [])]) (YPath [(id_RefCell, [(YPath [(id_T, [])])])])
    [] [(id_Error, (YPath [(id_RefCellEncodeError, [(YPath [(id_T, []); (id_Error, [])])])]))] [src_Encode_RefCell_T_encode].

(* oct/src/encode/encode/mod.rs:654 *)
Definition src_Encode_Result_T_E_encode : fn := Fn id_encode [] [((PVar id_self), (YPath [(id_Self, [])])); ((PVar id_output), (YRef true (YPath [(id_Output, [])])))] (YPath [(id_Result, [(YTup []); (YPath [(id_Self, []); (id_Error, [])])])])
    (ESeq (EMatch (EDeref (EPath [(id_self, [])])) [((PCon [(id_Ok, [])] [(PVar id_v)]), (ELet (PCon [(id_Ok, [])] [PAny]) None (Some (EMethod (EBool false) id_encode [] [(EPath [(id_output, [])])])) None
      (ESeq (ETry (EMethod (EPath [(id_v, [])]) id_encode [] [(EPath [(id_output, [])])])) EUnit))); ((PCon [(id_Err, [])] [(PVar id_e)]), (ELet (PCon [(id_Ok, [])] [PAny]) None (Some (EMethod (EBool true) id_encode [] [(EPath [(id_output, [])])])) None
      (ESeq (ETry (EMethod (EMethod (EPath [(id_e, [])]) id_encode [] [(EPath [(id_output, [])])]) id_map_err [] [(EPath [(id_Into, []); (id_into, [])])])) EUnit)))]) (ECall (EPath [(id_Result, []); (id_Ok, [])]) [(ETuple [])])).

(* oct/src/encode/encode/mod.rs:642 *)
Definition src_Encode_Result_T_E : impl :=
  Impl [id_T; id_E; id_Err] [] [((YPath [(id_T, [])]), [(id_Encode, [(YAssoc id_Error (YPath [(id_Err, [])]))])]); ((YPath [(id_E, [])]), [(id_Encode, [])]); ((YPath [(id_E, []); (id_Error, [])]), [(id_Into, [(YPath [(id_Err, [])])])])] (Some [(id_Encode, [])]) (YPath [(id_Result, [(YPath [(id_T, [])]); (YPath [(id_E, [])])])])
    [] [(id_Error, (YPath [(id_Err, [])]))] [src_Encode_Result_T_E_encode].

(* oct/src/encode/encode/mod.rs:682 *)
Definition src_Encode_RwLock_T_encode : fn := Fn id_encode [] [((PVar id_self), (YPath [(id_Self, [])])); ((PVar id_output), (YRef true (YPath [(id_Output, [])])))] (YPath [(id_Result, [(YTup []); (YPath [(id_Self, []); (id_Error, [])])])])
    (EMethod (ETry (EMethod (EMethod (EPath [(id_self, [])]) id_read [] []) id_or_else [] [(EClosure [(PVar id_e)] (ECall (EPath [(id_Ok, [])]) [(EMethod (EPath [(id_e, [])]) id_into_inner [] [])]))])) id_encode [] [(EPath [(id_output, [])])]).

(* oct/src/encode/encode/mod.rs:678 *)
Definition src_Encode_RwLock_T : impl :=
  Impl [id_T] [] [((YPath [(id_T, [])]), [(id_Encode, [])])] (Some [(id_Encode, [])]) (YPath [(id_RwLock, [(YPath [(id_T, [])])])])
    [] [(id_Error, (YPath [(id_T, []); (id_Error, [])]))] [src_Encode_RwLock_T_encode].

(* oct/src/encode/encode/mod.rs:694 *)
Definition src_Encode_Saturating_T_encode : fn := Fn id_encode [] [((PVar id_self), (YPath [(id_Self, [])])); ((PVar id_output), (YRef true (YPath [(id_Output, [])])))] (YPath [(id_Result, [(YTup []); (YPath [(id_Self, []); (id_Error, [])])])])
    (EMethod (EIdx (EPath [(id_self, [])]) 0) id_encode [] [(EPath [(id_output, [])])]).

(* oct/src/encode/encode/mod.rs:690 *)
Definition src_Encode_Saturating_T : impl :=
  Impl [id_T] [] [((YPath [(id_T, [])]), [(id_Encode, [])])] (Some [(id_Encode, [])]) (YPath [(id_Saturating, [(YPath [(id_T, [])])])])
    [] [(id_Error, (YPath [(id_T, []); (id_Error, [])]))] [src_Encode_Saturating_T_encode].

(* oct/src/encode/encode/mod.rs:705 *)
Definition src_Encode_SocketAddr_encode : fn := Fn id_encode [] [((PVar id_self), (YPath [(id_Self, [])])); ((PVar id_output), (YRef true (YPath [(id_Output, [])])))] (YPath [(id_Result, [(YTup []); (YPath [(id_Self, []); (id_Error, [])])])])
    (ESeq (EMatch (EDeref (EPath [(id_self, [])])) [((PCon [(id_Self, []); (id_V4, [])] [(PVar id_addr)]), (ELet (PCon [(id_Ok, [])] [PAny]) None (Some (EMethod (EInt (4)%Z (Some id_u8)) id_encode [] [(EPath [(id_output, [])])])) None
      (ELet (PCon [(id_Ok, [])] [PAny]) None (Some (EMethod (EPath [(id_addr, [])]) id_encode [] [(EPath [(id_output, [])])])) None
      EUnit))); ((PCon [(id_Self, []); (id_V6, [])] [(PVar id_addr)]), (ELet (PCon [(id_Ok, [])] [PAny]) None (Some (EMethod (EInt (6)%Z (Some id_u8)) id_encode [] [(EPath [(id_output, [])])])) None
      (ELet (PCon [(id_Ok, [])] [PAny]) None (Some (EMethod (EPath [(id_addr, [])]) id_encode [] [(EPath [(id_output, [])])])) None
      EUnit)))]) (ECall (EPath [(id_Result, []); (id_Ok, [])]) [(ETuple [])])).

(* oct/src/encode/encode/mod.rs:699 *)
Definition src_Encode_SocketAddr : impl :=
  Impl [] [] [] (Some [(id_Encode, [])]) (YPath [(id_SocketAddr, [])])
    [] [(id_Error, (YPath [(id_Infallible, [])]))] [src_Encode_SocketAddr_encode].

(* oct/src/encode/encode/mod.rs:729 *)
Definition src_Encode_SocketAddrV4_encode : fn := Fn id_encode [] [((PVar id_self), (YPath [(id_Self, [])])); ((PVar id_output), (YRef true (YPath [(id_Output, [])])))] (YPath [(id_Result, [(YTup []); (YPath [(id_Self, []); (id_Error, [])])])])
    (ESeq (ETry (EMethod (EMethod (EPath [(id_self, [])]) id_ip [] []) id_encode [] [(EPath [(id_output, [])])])) (ESeq (ETry (EMethod (EMethod (EPath [(id_self, [])]) id_port [] []) id_encode [] [(EPath [(id_output, [])])])) (ECall (EPath [(id_Result, []); (id_Ok, [])]) [(ETuple [])]))).

(* oct/src/encode/encode/mod.rs:724 *)
Definition src_Encode_SocketAddrV4 : impl :=
  Impl [] [] [] (Some [(id_Encode, [])]) (YPath [(id_SocketAddrV4, [])])
    [] [(id_Error, (YPath [(id_Infallible, [])]))] [src_Encode_SocketAddrV4_encode].

(* oct/src/encode/encode/mod.rs:742 *)
Definition src_Encode_SocketAddrV6_encode : fn := Fn id_encode [] [((PVar id_self), (YPath [(id_Self, [])])); ((PVar id_output), (YRef true (YPath [(id_Output, [])])))] (YPath [(id_Result, [(YTup []); (YPath [(id_Self, []); (id_Error, [])])])])
    (ESeq (ETry (EMethod (EMethod (EPath [(id_self, [])]) id_ip [] []) id_encode [] [(EPath [(id_output, [])])])) (ESeq (ETry (EMethod (EMethod (EPath [(id_self, [])]) id_port [] []) id_encode [] [(EPath [(id_output, [])])])) (ESeq (ETry (EMethod (EMethod (EPath [(id_self, [])]) id_flowinfo [] []) id_encode [] [(EPath [(id_output, [])])])) (ESeq (ETry (EMethod (EMethod (EPath [(id_self, [])]) id_scope_id [] []) id_encode [] [(EPath [(id_output, [])])])) (ECall (EPath [(id_Result, []); (id_Ok, [])]) [(ETuple [])]))))).

(* oct/src/encode/encode/mod.rs:737 *)
Definition src_Encode_SocketAddrV6 : impl :=
  Impl [] [] [] (Some [(id_Encode, [])]) (YPath [(id_SocketAddrV6, [])])
    [] [(id_Error, (YPath [(id_Infallible, [])]))] [src_Encode_SocketAddrV6_encode].

(* oct/src/encode/encode/mod.rs:757 *)
Definition src_Encode_str_encode : fn := Fn id_encode [] [((PVar id_self), (YPath [(id_Self, [])])); ((PVar id_output), (YRef true (YPath [(id_Output, [])])))] (YPath [(id_Result, [(YTup []); (YPath [(id_Self, []); (id_Error, [])])])])
    (EMethod (EMethod (EPath [(id_self, [])]) id_as_bytes [] []) id_encode [] [(EPath [(id_output, [])])]).

(* oct/src/encode/encode/mod.rs:752 *)
Definition src_Encode_str : impl :=
  Impl [] [] [] (Some [(id_Encode, [])]) (YPath [(id_str, [])])
    [] [(id_Error, (YQual (YSlice (YPath [(id_u8, [])])) [(id_Encode, [])] [(id_Error, [])]))] [src_Encode_str_encode].

(* oct/src/encode/encode/mod.rs:769 *)
Definition src_Encode_String_encode : fn := Fn id_encode [] [((PVar id_self), (YPath [(id_Self, [])])); ((PVar id_output), (YRef true (YPath [(id_Output, [])])))] (YPath [(id_Result, [(YTup []); (YPath [(id_Self, []); (id_Error, [])])])])
    (EMethod (EMethod (EPath [(id_self, [])]) id_as_str [] []) id_encode [] [(EPath [(id_output, [])])]).

(* oct/src/encode/encode/mod.rs:764 *)
Definition src_Encode_String : impl :=
  Impl [] [] [] (Some [(id_Encode, [])]) (YPath [(id_String, [])])
    [] [(id_Error, (YQual (YPath [(id_str, [])]) [(id_Encode, [])] [(id_Error, [])]))] [src_Encode_String_encode].

(* oct/src/encode/encode/mod.rs:791 *)
Definition src_Encode_SystemTime_encode : fn := Fn id_encode [] [((PVar id_self), (YPath [(id_Self, [])])); ((PVar id_output), (YRef true (YPath [(id_Output, [])])))] (YPath [(id_Result, [(YTup []); (YPath [(id_Self, []); (id_Error, [])])])])
    (ELet (PVar id_time) None (Some (EIf (EBin OGe (EDeref (EPath [(id_self, [])])) (EPath [(id_UNIX_EPOCH, [])])) (ELet (PVar id_duration) None (Some (EMethod (EMethod (EPath [(id_self, [])]) id_duration_since [] [(EPath [(id_UNIX_EPOCH, [])])]) id_expect [] [(EStr (txt "cannot compute duration since the epoch"))])) None
      (ECast (EMethod (EPath [(id_duration, [])]) id_as_secs [] []) (YPath [(id_i64, [])]))) (ELet (PVar id_duration) None (Some (EMethod (EMethod (EPath [(id_UNIX_EPOCH, [])]) id_duration_since [] [(EDeref (EPath [(id_self, [])]))]) id_expect [] [(EStr (txt "cannot compute duration until the epoch"))])) None
      (EBin OSub (EInt (0)%Z None) (ECast (EMethod (EPath [(id_duration, [])]) id_as_secs [] []) (YPath [(id_i64, [])])))))) None
      (ESeq (ETry (EMethod (EPath [(id_time, [])]) id_encode [] [(EPath [(id_output, [])])])) (ECall (EPath [(id_Result, []); (id_Ok, [])]) [(ETuple [])]))).

(* oct/src/encode/encode/mod.rs:776 *)
Definition src_Encode_SystemTime : impl :=
  Impl [] [] [] (Some [(id_Encode, [])]) (YPath [(id_SystemTime, [])])
    [] [(id_Error, (YPath [(id_Infallible, [])]))] [src_Encode_SystemTime_encode].

(* oct/src/encode/encode/mod.rs:815 *)
Definition src_Encode_tuple0_encode : fn := Fn id_encode [] [((PVar id_self), (YPath [(id_Self, [])])); ((PVar id__output), (YRef true (YPath [(id_Output, [])])))] (YPath [(id_Result, [(YTup []); (YPath [(id_Self, []); (id_Error, [])])])])
    (ECall (EPath [(id_Result, []); (id_Ok, [])]) [(ETuple [])]).

(* oct/src/encode/encode/mod.rs:811 *)
Definition src_Encode_tuple0 : impl :=
  Impl [] [] [] (Some [(id_Encode, [])]) (YTup [])
    [] [(id_Error, (YPath [(id_Infallible, [])]))] [src_Encode_tuple0_encode].

(* oct/src/encode/encode/mod.rs:825 *)
Definition src_Encode_usize_encode : fn := Fn id_encode [] [((PVar id_self), (YPath [(id_Self, [])])); ((PVar id_output), (YRef true (YPath [(id_Output, [])])))] (YPath [(id_Result, [(YTup []); (YPath [(id_Self, []); (id_Error, [])])])])
    (ELet (PVar id_value) None (Some (ETry (EMethod (ECall (EPath [(id_u16, []); (id_try_from, [])]) [(EDeref (EPath [(id_self, [])]))]) id_map_err [] [(EClosure [(PVar id__e)] (ECall (EPath [(id_UsizeEncodeError, [])]) [(EDeref (EPath [(id_self, [])]))]))]))) None
      (ELet (PCon [(id_Ok, [])] [PAny]) None (Some (EMethod (EPath [(id_value, [])]) id_encode [] [(EPath [(id_output, [])])])) None
      (ECall (EPath [(id_Result, []); (id_Ok, [])]) [(ETuple [])]))).

(* oct/src/encode/encode/mod.rs:820 *)
Definition src_Encode_usize : impl :=
  Impl [] [] [] (Some [(id_Encode, [])]) (YPath [(id_usize, [])])
    [] [(id_Error, (YPath [(id_UsizeEncodeError, [])]))] [src_Encode_usize_encode].

(* oct/src/encode/encode/mod.rs:840 *)
Definition src_Encode_Vec_T_encode : fn := Fn id_encode [] [((PVar id_self), (YPath [(id_Self, [])])); ((PVar id_output), (YRef true (YPath [(id_Output, [])])))] (YPath [(id_Result, [(YTup []); (YPath [(id_Self, []); (id_Error, [])])])])
    (EMethod (EMethod (EPath [(id_self, [])]) id_as_slice [] []) id_encode [] [(EPath [(id_output, [])])]).

(* oct/src/encode/encode/mod.rs:836 *)
Definition src_Encode_Vec_T : impl :=
  Impl [id_T] [] [((YPath [(id_T, [])]), [(id_Encode, [])])] (Some [(id_Encode, [])]) (YPath [(id_Vec, [(YPath [(id_T, [])])])])
    [] [(id_Error, (YQual (YSlice (YPath [(id_T, [])])) [(id_Encode, [])] [(id_Error, [])]))] [src_Encode_Vec_T_encode].

(* oct/src/encode/encode/mod.rs:849 *)
Definition src_Encode_Wrapping_T_encode : fn := Fn id_encode [] [((PVar id_self), (YPath [(id_Self, [])])); ((PVar id_output), (YRef true (YPath [(id_Output, [])])))] (YPath [(id_Result, [(YTup []); (YPath [(id_Self, []); (id_Error, [])])])])
    (EMethod (EIdx (EPath [(id_self, [])]) 0) id_encode [] [(EPath [(id_output, [])])]).

(* oct/src/encode/encode/mod.rs:845 *)
Definition src_Encode_Wrapping_T : impl :=
  Impl [id_T] [] [((YPath [(id_T, [])]), [(id_Encode, [])])] (Some [(id_Encode, [])]) (YPath [(id_Wrapping, [(YPath [(id_T, [])])])])
    [] [(id_Error, (YPath [(id_T, []); (id_Error, [])]))] [src_Encode_Wrapping_T_encode].

(* oct/src/encode/encode/mod.rs:860 *)
Definition src_Encode_f32_encode : fn := Fn id_encode [] [((PVar id_self), (YPath [(id_Self, [])])); ((PVar id_output), (YRef true (YPath [(id_Output, [])])))] (YPath [(id_core, []); (id_result, []); (id_Result, [(YTup []); (YPath [(id_Self, []); (id_Error, [])])])])
    (ESeq (EMethod (EMethod (EPath [(id_output, [])]) id_write [] [(ERef (EMethod (EPath [(id_self, [])]) id_to_le_bytes [] []))]) id_unwrap [] []) (ECall (EPath [(id_Result, []); (id_Ok, [])]) [(ETuple [])])).

(* oct/src/encode/encode/mod.rs:856 *)
Definition src_Encode_f32 : impl :=
  Impl [] [] [] (Some [(id_oct, []); (id_encode, []); (id_Encode, [])]) (YPath [(id_f32, [])])
    [] [(id_Error, (YPath [(id_core, []); (id_convert, []); (id_Infallible, [])]))] [src_Encode_f32_encode].

(* oct/src/encode/encode/mod.rs:860 *)
Definition src_Encode_f64_encode : fn := Fn id_encode [] [((PVar id_self), (YPath [(id_Self, [])])); ((PVar id_output), (YRef true (YPath [(id_Output, [])])))] (YPath [(id_core, []); (id_result, []); (id_Result, [(YTup []); (YPath [(id_Self, []); (id_Error, [])])])])
    (ESeq (EMethod (EMethod (EPath [(id_output, [])]) id_write [] [(ERef (EMethod (EPath [(id_self, [])]) id_to_le_bytes [] []))]) id_unwrap [] []) (ECall (EPath [(id_Result, []); (id_Ok, [])]) [(ETuple [])])).

(* oct/src/encode/encode/mod.rs:856 *)
Definition src_Encode_f64 : impl :=
  Impl [] [] [] (Some [(id_oct, []); (id_encode, []); (id_Encode, [])]) (YPath [(id_f64, [])])
    [] [(id_Error, (YPath [(id_core, []); (id_convert, []); (id_Infallible, [])]))] [src_Encode_f64_encode].

(* oct/src/encode/encode/mod.rs:860 *)
Definition src_Encode_i128_encode : fn := Fn id_encode [] [((PVar id_self), (YPath [(id_Self, [])])); ((PVar id_output), (YRef true (YPath [(id_Output, [])])))] (YPath [(id_core, []); (id_result, []); (id_Result, [(YTup []); (YPath [(id_Self, []); (id_Error, [])])])])
    (ESeq (EMethod (EMethod (EPath [(id_output, [])]) id_write [] [(ERef (EMethod (EPath [(id_self, [])]) id_to_le_bytes [] []))]) id_unwrap [] []) (ECall (EPath [(id_Result, []); (id_Ok, [])]) [(ETuple [])])).

(* oct/src/encode/encode/mod.rs:856 *)
Definition src_Encode_i128 : impl :=
  Impl [] [] [] (Some [(id_oct, []); (id_encode, []); (id_Encode, [])]) (YPath [(id_i128, [])])
    [] [(id_Error, (YPath [(id_core, []); (id_convert, []); (id_Infallible, [])]))] [src_Encode_i128_encode].

(* oct/src/encode/encode/mod.rs:860 *)
Definition src_Encode_i16_encode : fn := Fn id_encode [] [((PVar id_self), (YPath [(id_Self, [])])); ((PVar id_output), (YRef true (YPath [(id_Output, [])])))] (YPath [(id_core, []); (id_result, []); (id_Result, [(YTup []); (YPath [(id_Self, []); (id_Error, [])])])])
    (ESeq (EMethod (EMethod (EPath [(id_output, [])]) id_write [] [(ERef (EMethod (EPath [(id_self, [])]) id_to_le_bytes [] []))]) id_unwrap [] []) (ECall (EPath [(id_Result, []); (id_Ok, [])]) [(ETuple [])])).

(* oct/src/encode/encode/mod.rs:856 *)
Definition src_Encode_i16 : impl :=
  Impl [] [] [] (Some [(id_oct, []); (id_encode, []); (id_Encode, [])]) (YPath [(id_i16, [])])
    [] [(id_Error, (YPath [(id_core, []); (id_convert, []); (id_Infallible, [])]))] [src_Encode_i16_encode].

(* oct/src/encode/encode/mod.rs:860 *)
Definition src_Encode_i32_encode : fn := Fn id_encode [] [((PVar id_self), (YPath [(id_Self, [])])); ((PVar id_output), (YRef true (YPath [(id_Output, [])])))] (YPath [(id_core, []); (id_result, []); (id_Result, [(YTup []); (YPath [(id_Self, []); (id_Error, [])])])])
    (ESeq (EMethod (EMethod (EPath [(id_output, [])]) id_write [] [(ERef (EMethod (EPath [(id_self, [])]) id_to_le_bytes [] []))]) id_unwrap [] []) (ECall (EPath [(id_Result, []); (id_Ok, [])]) [(ETuple [])])).

(* oct/src/encode/encode/mod.rs:856 *)
Definition src_Encode_i32 : impl :=
  Impl [] [] [] (Some [(id_oct, []); (id_encode, []); (id_Encode, [])]) (YPath [(id_i32, [])])
    [] [(id_Error, (YPath [(id_core, []); (id_convert, []); (id_Infallible, [])]))] [src_Encode_i32_encode].

(* oct/src/encode/encode/mod.rs:860 *)
Definition src_Encode_i64_encode : fn := Fn id_encode [] [((PVar id_self), (YPath [(id_Self, [])])); ((PVar id_output), (YRef true (YPath [(id_Output, [])])))] (YPath [(id_core, []); (id_result, []); (id_Result, [(YTup []); (YPath [(id_Self, []); (id_Error, [])])])])
    (ESeq (EMethod (EMethod (EPath [(id_output, [])]) id_write [] [(ERef (EMethod (EPath [(id_self, [])]) id_to_le_bytes [] []))]) id_unwrap [] []) (ECall (EPath [(id_Result, []); (id_Ok, [])]) [(ETuple [])])).

(* oct/src/encode/encode/mod.rs:856 *)
Definition src_Encode_i64 : impl :=
  Impl [] [] [] (Some [(id_oct, []); (id_encode, []); (id_Encode, [])]) (YPath [(id_i64, [])])
    [] [(id_Error, (YPath [(id_core, []); (id_convert, []); (id_Infallible, [])]))] [src_Encode_i64_encode].

(* oct/src/encode/encode/mod.rs:860 *)
Definition src_Encode_i8_encode : fn := Fn id_encode [] [((PVar id_self), (YPath [(id_Self, [])])); ((PVar id_output), (YRef true (YPath [(id_Output, [])])))] (YPath [(id_core, []); (id_result, []); (id_Result, [(YTup []); (YPath [(id_Self, []); (id_Error, [])])])])
    (ESeq (EMethod (EMethod (EPath [(id_output, [])]) id_write [] [(ERef (EMethod (EPath [(id_self, [])]) id_to_le_bytes [] []))]) id_unwrap [] []) (ECall (EPath [(id_Result, []); (id_Ok, [])]) [(ETuple [])])).

(* oct/src/encode/encode/mod.rs:856 *)
Definition src_Encode_i8 : impl :=
  Impl [] [] [] (Some [(id_oct, []); (id_encode, []); (id_Encode, [])]) (YPath [(id_i8, [])])
    [] [(id_Error, (YPath [(id_core, []); (id_convert, []); (id_Infallible, [])]))] [src_Encode_i8_encode].

(* oct/src/encode/encode/mod.rs:860 *)
Definition src_Encode_u128_encode : fn := Fn id_encode [] [((PVar id_self), (YPath [(id_Self, [])])); ((PVar id_output), (YRef true (YPath [(id_Output, [])])))] (YPath [(id_core, []); (id_result, []); (id_Result, [(YTup []); (YPath [(id_Self, []); (id_Error, [])])])])
    (ESeq (EMethod (EMethod (EPath [(id_output, [])]) id_write [] [(ERef (EMethod (EPath [(id_self, [])]) id_to_le_bytes [] []))]) id_unwrap [] []) (ECall (EPath [(id_Result, []); (id_Ok, [])]) [(ETuple [])])).

(* oct/src/encode/encode/mod.rs:856 *)
Definition src_Encode_u128 : impl :=
  Impl [] [] [] (Some [(id_oct, []); (id_encode, []); (id_Encode, [])]) (YPath [(id_u128, [])])
    [] [(id_Error, (YPath [(id_core, []); (id_convert, []); (id_Infallible, [])]))] [src_Encode_u128_encode].

(* oct/src/encode/encode/mod.rs:860 *)
Definition src_Encode_u16_encode : fn := Fn id_encode [] [((PVar id_self), (YPath [(id_Self, [])])); ((PVar id_output), (YRef true (YPath [(id_Output, [])])))] (YPath [(id_core, []); (id_result, []); (id_Result, [(YTup []); (YPath [(id_Self, []); (id_Error, [])])])])
    (ESeq (EMethod (EMethod (EPath [(id_output, [])]) id_write [] [(ERef (EMethod (EPath [(id_self, [])]) id_to_le_bytes [] []))]) id_unwrap [] []) (ECall (EPath [(id_Result, []); (id_Ok, [])]) [(ETuple [])])).

(* oct/src/encode/encode/mod.rs:856 *)
Definition src_Encode_u16 : impl :=
  Impl [] [] [] (Some [(id_oct, []); (id_encode, []); (id_Encode, [])]) (YPath [(id_u16, [])])
    [] [(id_Error, (YPath [(id_core, []); (id_convert, []); (id_Infallible, [])]))] [src_Encode_u16_encode].

(* oct/src/encode/encode/mod.rs:860 *)
Definition src_Encode_u32_encode : fn := Fn id_encode [] [((PVar id_self), (YPath [(id_Self, [])])); ((PVar id_output), (YRef true (YPath [(id_Output, [])])))] (YPath [(id_core, []); (id_result, []); (id_Result, [(YTup []); (YPath [(id_Self, []); (id_Error, [])])])])
    (ESeq (EMethod (EMethod (EPath [(id_output, [])]) id_write [] [(ERef (EMethod (EPath [(id_self, [])]) id_to_le_bytes [] []))]) id_unwrap [] []) (ECall (EPath [(id_Result, []); (id_Ok, [])]) [(ETuple [])])).

(* oct/src/encode/encode/mod.rs:856 *)
Definition src_Encode_u32 : impl :=
  Impl [] [] [] (Some [(id_oct, []); (id_encode, []); (id_Encode, [])]) (YPath [(id_u32, [])])
    [] [(id_Error, (YPath [(id_core, []); (id_convert, []); (id_Infallible, [])]))] [src_Encode_u32_encode].

(* oct/src/encode/encode/mod.rs:860 *)
Definition src_Encode_u64_encode : fn := Fn id_encode [] [((PVar id_self), (YPath [(id_Self, [])])); ((PVar id_output), (YRef true (YPath [(id_Output, [])])))] (YPath [(id_core, []); (id_result, []); (id_Result, [(YTup []); (YPath [(id_Self, []); (id_Error, [])])])])
    (ESeq (EMethod (EMethod (EPath [(id_output, [])]) id_write [] [(ERef (EMethod (EPath [(id_self, [])]) id_to_le_bytes [] []))]) id_unwrap [] []) (ECall (EPath [(id_Result, []); (id_Ok, [])]) [(ETuple [])])).

(* oct/src/encode/encode/mod.rs:856 *)
Definition src_Encode_u64 : impl :=
  Impl [] [] [] (Some [(id_oct, []); (id_encode, []); (id_Encode, [])]) (YPath [(id_u64, [])])
    [] [(id_Error, (YPath [(id_core, []); (id_convert, []); (id_Infallible, [])]))] [src_Encode_u64_encode].

(* oct/src/encode/encode/mod.rs:860 *)
Definition src_Encode_u8_encode : fn := Fn id_encode [] [((PVar id_self), (YPath [(id_Self, [])])); ((PVar id_output), (YRef true (YPath [(id_Output, [])])))] (YPath [(id_core, []); (id_result, []); (id_Result, [(YTup []); (YPath [(id_Self, []); (id_Error, [])])])])
    (ESeq (EMethod (EMethod (EPath [(id_output, [])]) id_write [] [(ERef (EMethod (EPath [(id_self, [])]) id_to_le_bytes [] []))]) id_unwrap [] []) (ECall (EPath [(id_Result, []); (id_Ok, [])]) [(ETuple [])])).

(* oct/src/encode/encode/mod.rs:856 *)
Definition src_Encode_u8 : impl :=
  Impl [] [] [] (Some [(id_oct, []); (id_encode, []); (id_Encode, [])]) (YPath [(id_u8, [])])
    [] [(id_Error, (YPath [(id_core, []); (id_convert, []); (id_Infallible, [])]))] [src_Encode_u8_encode].

(* oct/src/encode/encode/mod.rs:880 *)
Definition src_Encode_tuple2_encode : fn := Fn id_encode [] [((PVar id_self), (YPath [(id_Self, [])])); ((PVar id_output), (YRef true (YPath [(id_oct, []); (id_encode, []); (id_Output, [])])))] (YPath [(id_core, []); (id_result, []); (id_Result, [(YTup []); (YPath [(id_Self, []); (id_Error, [])])])])
    (ELet (PTup [(PVar id_value0); (PVar id_value1)]) None (Some (EDeref (EPath [(id_self, [])]))) None
      (ESeq (ETry (EMethod (EPath [(id_value0, [])]) id_encode [] [(EPath [(id_output, [])])])) (ESeq (ETry (EMethod (EPath [(id_value1, [])]) id_encode [] [(EPath [(id_output, [])])])) (ECall (EPath [(id_Result, []); (id_Ok, [])]) [(ETuple [])])))).

(* oct/src/encode/encode/mod.rs:874 *)
Definition src_Encode_tuple2 : impl :=
  Impl [id_T0; id_T1; id_E] [] [((YPath [(id_T0, [])]), [(id_Encode, [(YAssoc id_Error (YPath [(id_E, [])]))])]); ((YPath [(id_T1, [])]), [(id_Encode, [(YAssoc id_Error (YPath [(id_E, [])]))])])] (Some [(id_oct, []); (id_encode, []); (id_Encode, [])]) (YTup [(YPath [(id_T0, [])]); (YPath [(id_T1, [])])])
    [] [(id_Error, (YPath [(id_E, [])]))] [src_Encode_tuple2_encode].

(* oct/src/encode/encode/mod.rs:880 *)
Definition src_Encode_tuple3_encode : fn := Fn id_encode [] [((PVar id_self), (YPath [(id_Self, [])])); ((PVar id_output), (YRef true (YPath [(id_oct, []); (id_encode, []); (id_Output, [])])))] (YPath [(id_core, []); (id_result, []); (id_Result, [(YTup []); (YPath [(id_Self, []); (id_Error, [])])])])
    (ELet (PTup [(PVar id_value0); (PVar id_value1); (PVar id_value2)]) None (Some (EDeref (EPath [(id_self, [])]))) None
      (ESeq (ETry (EMethod (EPath [(id_value0, [])]) id_encode [] [(EPath [(id_output, [])])])) (ESeq (ETry (EMethod (EPath [(id_value1, [])]) id_encode [] [(EPath [(id_output, [])])])) (ESeq (ETry (EMethod (EPath [(id_value2, [])]) id_encode [] [(EPath [(id_output, [])])])) (ECall (EPath [(id_Result, []); (id_Ok, [])]) [(ETuple [])]))))).

(* oct/src/encode/encode/mod.rs:874 *)
Definition src_Encode_tuple3 : impl :=
  Impl [id_T0; id_T1; id_T2; id_E] [] [((YPath [(id_T0, [])]), [(id_Encode, [(YAssoc id_Error (YPath [(id_E, [])]))])]); ((YPath [(id_T1, [])]), [(id_Encode, [(YAssoc id_Error (YPath [(id_E, [])]))])]); ((YPath [(id_T2, [])]), [(id_Encode, [(YAssoc id_Error (YPath [(id_E, [])]))])])] (Some [(id_oct, []); (id_encode, []); (id_Encode, [])]) (YTup [(YPath [(id_T0, [])]); (YPath [(id_T1, [])]); (YPath [(id_T2, [])])])
    [] [(id_Error, (YPath [(id_E, [])]))] [src_Encode_tuple3_encode].

(* oct/src/encode/encode/mod.rs:880 *)
Definition src_Encode_tuple4_encode : fn := Fn id_encode [] [((PVar id_self), (YPath [(id_Self, [])])); ((PVar id_output), (YRef true (YPath [(id_oct, []); (id_encode, []); (id_Output, [])])))] (YPath [(id_core, []); (id_result, []); (id_Result, [(YTup []); (YPath [(id_Self, []); (id_Error, [])])])])
    (ELet (PTup [(PVar id_value0); (PVar id_value1); (PVar id_value2); (PVar id_value3)]) None (Some (EDeref (EPath [(id_self, [])]))) None
      (ESeq (ETry (EMethod (EPath [(id_value0, [])]) id_encode [] [(EPath [(id_output, [])])])) (ESeq (ETry (EMethod (EPath [(id_value1, [])]) id_encode [] [(EPath [(id_output, [])])])) (ESeq (ETry (EMethod (EPath [(id_value2, [])]) id_encode [] [(EPath [(id_output, [])])])) (ESeq (ETry (EMethod (EPath [(id_value3, [])]) id_encode [] [(EPath [(id_output, [])])])) (ECall (EPath [(id_Result, []); (id_Ok, [])]) [(ETuple [])])))))).

(* oct/src/encode/encode/mod.rs:874 *)
Definition src_Encode_tuple4 : impl :=
  Impl [id_T0; id_T1; id_T2; id_T3; id_E] [] [((YPath [(id_T0, [])]), [(id_Encode, [(YAssoc id_Error (YPath [(id_E, [])]))])]); ((YPath [(id_T1, [])]), [(id_Encode, [(YAssoc id_Error (YPath [(id_E, [])]))])]); ((YPath [(id_T2, [])]), [(id_Encode, [(YAssoc id_Error (YPath [(id_E, [])]))])]); ((YPath [(id_T3, [])]), [(id_Encode, [(YAssoc id_Error (YPath [(id_E, [])]))])])] (Some [(id_oct, []); (id_encode, []); (id_Encode, [])]) (YTup [(YPath [(id_T0, [])]); (YPath [(id_T1, [])]); (YPath [(id_T2, [])]); (YPath [(id_T3, [])])])
    [] [(id_Error, (YPath [(id_E, [])]))] [src_Encode_tuple4_encode].

(* oct/src/encode/encode/mod.rs:880 *)
Definition src_Encode_tuple5_encode : fn := Fn id_encode [] [((PVar id_self), (YPath [(id_Self, [])])); ((PVar id_output), (YRef true (YPath [(id_oct, []); (id_encode, []); (id_Output, [])])))] (YPath [(id_core, []); (id_result, []); (id_Result, [(YTup []); (YPath [(id_Self, []); (id_Error, [])])])])
    (ELet (PTup [(PVar id_value0); (PVar id_value1); (PVar id_value2); (PVar id_value3); (PVar id_value4)]) None (Some (EDeref (EPath [(id_self, [])]))) None
      (ESeq (ETry (EMethod (EPath [(id_value0, [])]) id_encode [] [(EPath [(id_output, [])])])) (ESeq (ETry (EMethod (EPath [(id_value1, [])]) id_encode [] [(EPath [(id_output, [])])])) (ESeq (ETry (EMethod (EPath [(id_value2, [])]) id_encode [] [(EPath [(id_output, [])])])) (ESeq (ETry (EMethod (EPath [(id_value3, [])]) id_encode [] [(EPath [(id_output, [])])])) (ESeq (ETry (EMethod (EPath [(id_value4, [])]) id_encode [] [(EPath [(id_output, [])])])) (ECall (EPath [(id_Result, []); (id_Ok, [])]) [(ETuple [])]))))))).

(* oct/src/encode/encode/mod.rs:874 *)
Definition src_Encode_tuple5 : impl :=
  Impl [id_T0; id_T1; id_T2; id_T3; id_T4; id_E] [] [((YPath [(id_T0, [])]), [(id_Encode, [(YAssoc id_Error (YPath [(id_E, [])]))])]); ((YPath [(id_T1, [])]), [(id_Encode, [(YAssoc id_Error (YPath [(id_E, [])]))])]); ((YPath [(id_T2, [])]), [(id_Encode, [(YAssoc id_Error (YPath [(id_E, [])]))])]); ((YPath [(id_T3, [])]), [(id_Encode, [(YAssoc id_Error (YPath [(id_E, [])]))])]); ((YPath [(id_T4, [])]), [(id_Encode, [(YAssoc id_Error (YPath [(id_E, [])]))])])] (Some [(id_oct, []); (id_encode, []); (id_Encode, [])]) (YTup [(YPath [(id_T0, [])]); (YPath [(id_T1, [])]); (YPath [(id_T2, [])]); (YPath [(id_T3, [])]); (YPath [(id_T4, [])])])
    [] [(id_Error, (YPath [(id_E, [])]))] [src_Encode_tuple5_encode].

(* oct/src/encode/encode/mod.rs:880 *)
Definition src_Encode_tuple6_encode : fn := Fn id_encode [] [((PVar id_self), (YPath [(id_Self, [])])); ((PVar id_output), (YRef true (YPath [(id_oct, []); (id_encode, []); (id_Output, [])])))] (YPath [(id_core, []); (id_result, []); (id_Result, [(YTup []); (YPath [(id_Self, []); (id_Error, [])])])])
    (ELet (PTup [(PVar id_value0); (PVar id_value1); (PVar id_value2); (PVar id_value3); (PVar id_value4); (PVar id_value5)]) None (Some (EDeref (EPath [(id_self, [])]))) None
      (ESeq (ETry (EMethod (EPath [(id_value0, [])]) id_encode [] [(EPath [(id_output, [])])])) (ESeq (ETry (EMethod (EPath [(id_value1, [])]) id_encode [] [(EPath [(id_output, [])])])) (ESeq (ETry (EMethod (EPath [(id_value2, [])]) id_encode [] [(EPath [(id_output, [])])])) (ESeq (ETry (EMethod (EPath [(id_value3, [])]) id_encode [] [(EPath [(id_output, [])])])) (ESeq (ETry (EMethod (EPath [(id_value4, [])]) id_encode [] [(EPath [(id_output, [])])])) (ESeq (ETry (EMethod (EPath [(id_value5, [])]) id_encode [] [(EPath [(id_output, [])])])) (ECall (EPath [(id_Result, []); (id_Ok, [])]) [(ETuple [])])))))))).

(* oct/src/encode/encode/mod.rs:874 *)
Definition src_Encode_tuple6 : impl :=
  Impl [id_T0; id_T1; id_T2; id_T3; id_T4; id_T5; id_E] [] [((YPath [(id_T0, [])]), [(id_Encode, [(YAssoc id_Error (YPath [(id_E, [])]))])]); ((YPath [(id_T1, [])]), [(id_Encode, [(YAssoc id_Error (YPath [(id_E, [])]))])]); ((YPath [(id_T2, [])]), [(id_Encode, [(YAssoc id_Error (YPath [(id_E, [])]))])]); ((YPath [(id_T3, [])]), [(id_Encode, [(YAssoc id_Error (YPath [(id_E, [])]))])]); ((YPath [(id_T4, [])]), [(id_Encode, [(YAssoc id_Error (YPath [(id_E, [])]))])]); ((YPath [(id_T5, [])]), [(id_Encode, [(YAssoc id_Error (YPath [(id_E, [])]))])])] (Some [(id_oct, []); (id_encode, []); (id_Encode, [])]) (YTup [(YPath [(id_T0, [])]); (YPath [(id_T1, [])]); (YPath [(id_T2, [])]); (YPath [(id_T3, [])]); (YPath [(id_T4, [])]); (YPath [(id_T5, [])])])
    [] [(id_Error, (YPath [(id_E, [])]))] [src_Encode_tuple6_encode].

(* oct/src/encode/encode/mod.rs:880 *)
Definition src_Encode_tuple7_encode : fn := Fn id_encode [] [((PVar id_self), (YPath [(id_Self, [])])); ((PVar id_output), (YRef true (YPath [(id_oct, []); (id_encode, []); (id_Output, [])])))] (YPath [(id_core, []); (id_result, []); (id_Result, [(YTup []); (YPath [(id_Self, []); (id_Error, [])])])])
    (ELet (PTup [(PVar id_value0); (PVar id_value1); (PVar id_value2); (PVar id_value3); (PVar id_value4); (PVar id_value5); (PVar id_value6)]) None (Some (EDeref (EPath [(id_self, [])]))) None
      (ESeq (ETry (EMethod (EPath [(id_value0, [])]) id_encode [] [(EPath [(id_output, [])])])) (ESeq (ETry (EMethod (EPath [(id_value1, [])]) id_encode [] [(EPath [(id_output, [])])])) (ESeq (ETry (EMethod (EPath [(id_value2, [])]) id_encode [] [(EPath [(id_output, [])])])) (ESeq (ETry (EMethod (EPath [(id_value3, [])]) id_encode [] [(EPath [(id_output, [])])])) (ESeq (ETry (EMethod (EPath [(id_value4, [])]) id_encode [] [(EPath [(id_output, [])])])) (ESeq (ETry (EMethod (EPath [(id_value5, [])]) id_encode [] [(EPath [(id_output, [])])])) (ESeq (ETry (EMethod (EPath [(id_value6, [])]) id_encode [] [(EPath [(id_output, [])])])) (ECall (EPath [(id_Result, []); (id_Ok, [])]) [(ETuple [])]))))))))).

(* oct/src/encode/encode/mod.rs:874 *)
Definition src_Encode_tuple7 : impl :=
  Impl [id_T0; id_T1; id_T2; id_T3; id_T4; id_T5; id_T6; id_E] [] [((YPath [(id_T0, [])]), [(id_Encode, [(YAssoc id_Error (YPath [(id_E, [])]))])]); ((YPath [(id_T1, [])]), [(id_Encode, [(YAssoc id_Error (YPath [(id_E, [])]))])]); ((YPath [(id_T2, [])]), [(id_Encode, [(YAssoc id_Error (YPath [(id_E, [])]))])]); ((YPath [(id_T3, [])]), [(id_Encode, [(YAssoc id_Error (YPath [(id_E, [])]))])]); ((YPath [(id_T4, [])]), [(id_Encode, [(YAssoc id_Error (YPath [(id_E, [])]))])]); ((YPath [(id_T5, [])]), [(id_Encode, [(YAssoc id_Error (YPath [(id_E, [])]))])]); ((YPath [(id_T6, [])]), [(id_Encode, [(YAssoc id_Error (YPath [(id_E, [])]))])])] (Some [(id_oct, []); (id_encode, []); (id_Encode, [])]) (YTup [(YPath [(id_T0, [])]); (YPath [(id_T1, [])]); (YPath [(id_T2, [])]); (YPath [(id_T3, [])]); (YPath [(id_T4, [])]); (YPath [(id_T5, [])]); (YPath [(id_T6, [])])])
    [] [(id_Error, (YPath [(id_E, [])]))] [src_Encode_tuple7_encode].

(* oct/src/encode/encode/mod.rs:880 *)
Definition src_Encode_tuple8_encode : fn := Fn id_encode [] [((PVar id_self), (YPath [(id_Self, [])])); ((PVar id_output), (YRef true (YPath [(id_oct, []); (id_encode, []); (id_Output, [])])))] (YPath [(id_core, []); (id_result, []); (id_Result, [(YTup []); (YPath [(id_Self, []); (id_Error, [])])])])
    (ELet (PTup [(PVar id_value0); (PVar id_value1); (PVar id_value2); (PVar id_value3); (PVar id_value4); (PVar id_value5); (PVar id_value6); (PVar id_value7)]) None (Some (EDeref (EPath [(id_self, [])]))) None
      (ESeq (ETry (EMethod (EPath [(id_value0, [])]) id_encode [] [(EPath [(id_output, [])])])) (ESeq (ETry (EMethod (EPath [(id_value1, [])]) id_encode [] [(EPath [(id_output, [])])])) (ESeq (ETry (EMethod (EPath [(id_value2, [])]) id_encode [] [(EPath [(id_output, [])])])) (ESeq (ETry (EMethod (EPath [(id_value3, [])]) id_encode [] [(EPath [(id_output, [])])])) (ESeq (ETry (EMethod (EPath [(id_value4, [])]) id_encode [] [(EPath [(id_output, [])])])) (ESeq (ETry (EMethod (EPath [(id_value5, [])]) id_encode [] [(EPath [(id_output, [])])])) (ESeq (ETry (EMethod (EPath [(id_value6, [])]) id_encode [] [(EPath [(id_output, [])])])) (ESeq (ETry (EMethod (EPath [(id_value7, [])]) id_encode [] [(EPath [(id_output, [])])])) (ECall (EPath [(id_Result, []); (id_Ok, [])]) [(ETuple [])])))))))))).

(* oct/src/encode/encode/mod.rs:874 *)
Definition src_Encode_tuple8 : impl :=
  Impl [id_T0; id_T1; id_T2; id_T3; id_T4; id_T5; id_T6; id_T7; id_E] [] [((YPath [(id_T0, [])]), [(id_Encode, [(YAssoc id_Error (YPath [(id_E, [])]))])]); ((YPath [(id_T1, [])]), [(id_Encode, [(YAssoc id_Error (YPath [(id_E, [])]))])]); ((YPath [(id_T2, [])]), [(id_Encode, [(YAssoc id_Error (YPath [(id_E, [])]))])]); ((YPath [(id_T3, [])]), [(id_Encode, [(YAssoc id_Error (YPath [(id_E, [])]))])]); ((YPath [(id_T4, [])]), [(id_Encode, [(YAssoc id_Error (YPath [(id_E, [])]))])]); ((YPath [(id_T5, [])]), [(id_Encode, [(YAssoc id_Error (YPath [(id_E, [])]))])]); ((YPath [(id_T6, [])]), [(id_Encode, [(YAssoc id_Error (YPath [(id_E, [])]))])]); ((YPath [(id_T7, [])]), [(id_Encode, [(YAssoc id_Error (YPath [(id_E, [])]))])])] (Some [(id_oct, []); (id_encode, []); (id_Encode, [])]) (YTup [(YPath [(id_T0, [])]); (YPath [(id_T1, [])]); (YPath [(id_T2, [])]); (YPath [(id_T3, [])]); (YPath [(id_T4, [])]); (YPath [(id_T5, [])]); (YPath [(id_T6, [])]); (YPath [(id_T7, [])])])
    [] [(id_Error, (YPath [(id_E, [])]))] [src_Encode_tuple8_encode].

(* oct/src/encode/encode/mod.rs:880 *)
Definition src_Encode_tuple9_encode : fn := Fn id_encode [] [((PVar id_self), (YPath [(id_Self, [])])); ((PVar id_output), (YRef true (YPath [(id_oct, []); (id_encode, []); (id_Output, [])])))] (YPath [(id_core, []); (id_result, []); (id_Result, [(YTup []); (YPath [(id_Self, []); (id_Error, [])])])])
    (ELet (PTup [(PVar id_value0); (PVar id_value1); (PVar id_value2); (PVar id_value3); (PVar id_value4); (PVar id_value5); (PVar id_value6); (PVar id_value7); (PVar id_value8)]) None (Some (EDeref (EPath [(id_self, [])]))) None
      (ESeq (ETry (EMethod (EPath [(id_value0, [])]) id_encode [] [(EPath [(id_output, [])])])) (ESeq (ETry (EMethod (EPath [(id_value1, [])]) id_encode [] [(EPath [(id_output, [])])])) (ESeq (ETry (EMethod (EPath [(id_value2, [])]) id_encode [] [(EPath [(id_output, [])])])) (ESeq (ETry (EMethod (EPath [(id_value3, [])]) id_encode [] [(EPath [(id_output, [])])])) (ESeq (ETry (EMethod (EPath [(id_value4, [])]) id_encode [] [(EPath [(id_output, [])])])) (ESeq (ETry (EMethod (EPath [(id_value5, [])]) id_encode [] [(EPath [(id_output, [])])])) (ESeq (ETry (EMethod (EPath [(id_value6, [])]) id_encode [] [(EPath [(id_output, [])])])) (ESeq (ETry (EMethod (EPath [(id_value7, [])]) id_encode [] [(EPath [(id_output, [])])])) (ESeq (ETry (EMethod (EPath [(id_value8, [])]) id_encode [] [(EPath [(id_output, [])])])) (ECall (EPath [(id_Result, []); (id_Ok, [])]) [(ETuple [])]))))))))))).

(* oct/src/encode/encode/mod.rs:874 *)
Definition src_Encode_tuple9 : impl :=
  Impl [id_T0; id_T1; id_T2; id_T3; id_T4; id_T5; id_T6; id_T7; id_T8; id_E] [] [((YPath [(id_T0, [])]), [(id_Encode, [(YAssoc id_Error (YPath [(id_E, [])]))])]); ((YPath [(id_T1, [])]), [(id_Encode, [(YAssoc id_Error (YPath [(id_E, [])]))])]); ((YPath [(id_T2, [])]), [(id_Encode, [(YAssoc id_Error (YPath [(id_E, [])]))])]); ((YPath [(id_T3, [])]), [(id_Encode, [(YAssoc id_Error (YPath [(id_E, [])]))])]); ((YPath [(id_T4, [])]), [(id_Encode, [(YAssoc id_Error (YPath [(id_E, [])]))])]); ((YPath [(id_T5, [])]), [(id_Encode, [(YAssoc id_Error (YPath [(id_E, [])]))])]); ((YPath [(id_T6, [])]), [(id_Encode, [(YAssoc id_Error (YPath [(id_E, [])]))])]); ((YPath [(id_T7, [])]), [(id_Encode, [(YAssoc id_Error (YPath [(id_E, [])]))])]); ((YPath [(id_T8, [])]), [(id_Encode, [(YAssoc id_Error (YPath [(id_E, [])]))])])] (Some [(id_oct, []); (id_encode, []); (id_Encode, [])]) (YTup [(YPath [(id_T0, [])]); (YPath [(id_T1, [])]); (YPath [(id_T2, [])]); (YPath [(id_T3, [])]); (YPath [(id_T4, [])]); (YPath [(id_T5, [])]); (YPath [(id_T6, [])]); (YPath [(id_T7, [])]); (YPath [(id_T8, [])])])
    [] [(id_Error, (YPath [(id_E, [])]))] [src_Encode_tuple9_encode].

(* oct/src/encode/encode/mod.rs:880 *)
Definition src_Encode_tuple10_encode : fn := Fn id_encode [] [((PVar id_self), (YPath [(id_Self, [])])); ((PVar id_output), (YRef true (YPath [(id_oct, []); (id_encode, []); (id_Output, [])])))] (YPath [(id_core, []); (id_result, []); (id_Result, [(YTup []); (YPath [(id_Self, []); (id_Error, [])])])])
    (ELet (PTup [(PVar id_value0); (PVar id_value1); (PVar id_value2); (PVar id_value3); (PVar id_value4); (PVar id_value5); (PVar id_value6); (PVar id_value7); (PVar id_value8); (PVar id_value9)]) None (Some (EDeref (EPath [(id_self, [])]))) None
      (ESeq (ETry (EMethod (EPath [(id_value0, [])]) id_encode [] [(EPath [(id_output, [])])])) (ESeq (ETry (EMethod (EPath [(id_value1, [])]) id_encode [] [(EPath [(id_output, [])])])) (ESeq (ETry (EMethod (EPath [(id_value2, [])]) id_encode [] [(EPath [(id_output, [])])])) (ESeq (ETry (EMethod (EPath [(id_value3, [])]) id_encode [] [(EPath [(id_output, [])])])) (ESeq (ETry (EMethod (EPath [(id_value4, [])]) id_encode [] [(EPath [(id_output, [])])])) (ESeq (ETry (EMethod (EPath [(id_value5, [])]) id_encode [] [(EPath [(id_output, [])])])) (ESeq (ETry (EMethod (EPath [(id_value6, [])]) id_encode [] [(EPath [(id_output, [])])])) (ESeq (ETry (EMethod (EPath [(id_value7, [])]) id_encode [] [(EPath [(id_output, [])])])) (ESeq (ETry (EMethod (EPath [(id_value8, [])]) id_encode [] [(EPath [(id_output, [])])])) (ESeq (ETry (EMethod (EPath [(id_value9, [])]) id_encode [] [(EPath [(id_output, [])])])) (ECall (EPath [(id_Result, []); (id_Ok, [])]) [(ETuple [])])))))))))))).

(* oct/src/encode/encode/mod.rs:874 *)
Definition src_Encode_tuple10 : impl :=
  Impl [id_T0; id_T1; id_T2; id_T3; id_T4; id_T5; id_T6; id_T7; id_T8; id_T9; id_E] [] [((YPath [(id_T0, [])]), [(id_Encode, [(YAssoc id_Error (YPath [(id_E, [])]))])]); ((YPath [(id_T1, [])]), [(id_Encode, [(YAssoc id_Error (YPath [(id_E, [])]))])]); ((YPath [(id_T2, [])]), [(id_Encode, [(YAssoc id_Error (YPath [(id_E, [])]))])]); ((YPath [(id_T3, [])]), [(id_Encode, [(YAssoc id_Error (YPath [(id_E, [])]))])]); ((YPath [(id_T4, [])]), [(id_Encode, [(YAssoc id_Error (YPath [(id_E, [])]))])]); ((YPath [(id_T5, [])]), [(id_Encode, [(YAssoc id_Error (YPath [(id_E, [])]))])]); ((YPath [(id_T6, [])]), [(id_Encode, [(YAssoc id_Error (YPath [(id_E, [])]))])]); ((YPath [(id_T7, [])]), [(id_Encode, [(YAssoc id_Error (YPath [(id_E, [])]))])]); ((YPath [(id_T8, [])]), [(id_Encode, [(YAssoc id_Error (YPath [(id_E, [])]))])]); ((YPath [(id_T9, [])]), [(id_Encode, [(YAssoc id_Error (YPath [(id_E, [])]))])])] (Some [(id_oct, []); (id_encode, []); (id_Encode, [])]) (YTup [(YPath [(id_T0, [])]); (YPath [(id_T1, [])]); (YPath [(id_T2, [])]); (YPath [(id_T3, [])]); (YPath [(id_T4, [])]); (YPath [(id_T5, [])]); (YPath [(id_T6, [])]); (YPath [(id_T7, [])]); (YPath [(id_T8, [])]); (YPath [(id_T9, [])])])
    [] [(id_Error, (YPath [(id_E, [])]))] [src_Encode_tuple10_encode].

(* oct/src/encode/encode/mod.rs:880 *)
Definition src_Encode_tuple11_encode : fn := Fn id_encode [] [((PVar id_self), (YPath [(id_Self, [])])); ((PVar id_output), (YRef true (YPath [(id_oct, []); (id_encode, []); (id_Output, [])])))] (YPath [(id_core, []); (id_result, []); (id_Result, [(YTup []); (YPath [(id_Self, []); (id_Error, [])])])])
    (ELet (PTup [(PVar id_value0); (PVar id_value1); (PVar id_value2); (PVar id_value3); (PVar id_value4); (PVar id_value5); (PVar id_value6); (PVar id_value7); (PVar id_value8); (PVar id_value9); (PVar id_value10)]) None (Some (EDeref (EPath [(id_self, [])]))) None
      (ESeq (ETry (EMethod (EPath [(id_value0, [])]) id_encode [] [(EPath [(id_output, [])])])) (ESeq (ETry (EMethod (EPath [(id_value1, [])]) id_encode [] [(EPath [(id_output, [])])])) (ESeq (ETry (EMethod (EPath [(id_value2, [])]) id_encode [] [(EPath [(id_output, [])])])) (ESeq (ETry (EMethod (EPath [(id_value3, [])]) id_encode [] [(EPath [(id_output, [])])])) (ESeq (ETry (EMethod (EPath [(id_value4, [])]) id_encode [] [(EPath [(id_output, [])])])) (ESeq (ETry (EMethod (EPath [(id_value5, [])]) id_encode [] [(EPath [(id_output, [])])])) (ESeq (ETry (EMethod (EPath [(id_value6, [])]) id_encode [] [(EPath [(id_output, [])])])) (ESeq (ETry (EMethod (EPath [(id_value7, [])]) id_encode [] [(EPath [(id_output, [])])])) (ESeq (ETry (EMethod (EPath [(id_value8, [])]) id_encode [] [(EPath [(id_output, [])])])) (ESeq (ETry (EMethod (EPath [(id_value9, [])]) id_encode [] [(EPath [(id_output, [])])])) (ESeq (ETry (EMethod (EPath [(id_value10, [])]) id_encode [] [(EPath [(id_output, [])])])) (ECall (EPath [(id_Result, []); (id_Ok, [])]) [(ETuple [])]))))))))))))).

(* oct/src/encode/encode/mod.rs:874 *)
Definition src_Encode_tuple11 : impl :=
  Impl [id_T0; id_T1; id_T2; id_T3; id_T4; id_T5; id_T6; id_T7; id_T8; id_T9; id_T10; id_E] [] [((YPath [(id_T0, [])]), [(id_Encode, [(YAssoc id_Error (YPath [(id_E, [])]))])]); ((YPath [(id_T1, [])]), [(id_Encode, [(YAssoc id_Error (YPath [(id_E, [])]))])]); ((YPath [(id_T2, [])]), [(id_Encode, [(YAssoc id_Error (YPath [(id_E, [])]))])]); ((YPath [(id_T3, [])]), [(id_Encode, [(YAssoc id_Error (YPath [(id_E, [])]))])]); ((YPath [(id_T4, [])]), [(id_Encode, [(YAssoc id_Error (YPath [(id_E, [])]))])]); ((YPath [(id_T5, [])]), [(id_Encode, [(YAssoc id_Error (YPath [(id_E, [])]))])]); ((YPath [(id_T6, [])]), [(id_Encode, [(YAssoc id_Error (YPath [(id_E, [])]))])]); ((YPath [(id_T7, [])]), [(id_Encode, [(YAssoc id_Error (YPath [(id_E, [])]))])]); ((YPath [(id_T8, [])]), [(id_Encode, [(YAssoc id_Error (YPath [(id_E, [])]))])]); ((YPath [(id_T9, [])]), [(id_Encode, [(YAssoc id_Error (YPath [(id_E, [])]))])]); ((YPath [(id_T10, [])]), [(id_Encode, [(YAssoc id_Error (YPath [(id_E, [])]))])])] (Some [(id_oct, []); (id_encode, []); (id_Encode, [])]) (YTup [(YPath [(id_T0, [])]); (YPath [(id_T1, [])]); (YPath [(id_T2, [])]); (YPath [(id_T3, [])]); (YPath [(id_T4, [])]); (YPath [(id_T5, [])]); (YPath [(id_T6, [])]); (YPath [(id_T7, [])]); (YPath [(id_T8, [])]); (YPath [(id_T9, [])]); (YPath [(id_T10, [])])])
    [] [(id_Error, (YPath [(id_E, [])]))] [src_Encode_tuple11_encode].

(* oct/src/encode/encode/mod.rs:880 *)
Definition src_Encode_tuple12_encode : fn := Fn id_encode [] [((PVar id_self), (YPath [(id_Self, [])])); ((PVar id_output), (YRef true (YPath [(id_oct, []); (id_encode, []); (id_Output, [])])))] (YPath [(id_core, []); (id_result, []); (id_Result, [(YTup []); (YPath [(id_Self, []); (id_Error, [])])])])
    (ELet (PTup [(PVar id_value0); (PVar id_value1); (PVar id_value2); (PVar id_value3); (PVar id_value4); (PVar id_value5); (PVar id_value6); (PVar id_value7); (PVar id_value8); (PVar id_value9); (PVar id_value10); (PVar id_value11)]) None (Some (EDeref (EPath [(id_self, [])]))) None
      (ESeq (ETry (EMethod (EPath [(id_value0, [])]) id_encode [] [(EPath [(id_output, [])])])) (ESeq (ETry (EMethod (EPath [(id_value1, [])]) id_encode [] [(EPath [(id_output, [])])])) (ESeq (ETry (EMethod (EPath [(id_value2, [])]) id_encode [] [(EPath [(id_output, [])])])) (ESeq (ETry (EMethod (EPath [(id_value3, [])]) id_encode [] [(EPath [(id_output, [])])])) (ESeq (ETry (EMethod (EPath [(id_value4, [])]) id_encode [] [(EPath [(id_output, [])])])) (ESeq (ETry (EMethod (EPath [(id_value5, [])]) id_encode [] [(EPath [(id_output, [])])])) (ESeq (ETry (EMethod (EPath [(id_value6, [])]) id_encode [] [(EPath [(id_output, [])])])) (ESeq (ETry (EMethod (EPath [(id_value7, [])]) id_encode [] [(EPath [(id_output, [])])])) (ESeq (ETry (EMethod (EPath [(id_value8, [])]) id_encode [] [(EPath [(id_output, [])])])) (ESeq (ETry (EMethod (EPath [(id_value9, [])]) id_encode [] [(EPath [(id_output, [])])])) (ESeq (ETry (EMethod (EPath [(id_value10, [])]) id_encode [] [(EPath [(id_output, [])])])) (ESeq (ETry (EMethod (EPath [(id_value11, [])]) id_encode [] [(EPath [(id_output, [])])])) (ECall (EPath [(id_Result, []); (id_Ok, [])]) [(ETuple [])])))))))))))))).

(* oct/src/encode/encode/mod.rs:874 *)
Definition src_Encode_tuple12 : impl :=
  Impl [id_T0; id_T1; id_T2; id_T3; id_T4; id_T5; id_T6; id_T7; id_T8; id_T9; id_T10; id_T11; id_E] [] [((YPath [(id_T0, [])]), [(id_Encode, [(YAssoc id_Error (YPath [(id_E, [])]))])]); ((YPath [(id_T1, [])]), [(id_Encode, [(YAssoc id_Error (YPath [(id_E, [])]))])]); ((YPath [(id_T2, [])]), [(id_Encode, [(YAssoc id_Error (YPath [(id_E, [])]))])]); ((YPath [(id_T3, [])]), [(id_Encode, [(YAssoc id_Error (YPath [(id_E, [])]))])]); ((YPath [(id_T4, [])]), [(id_Encode, [(YAssoc id_Error (YPath [(id_E, [])]))])]); ((YPath [(id_T5, [])]), [(id_Encode, [(YAssoc id_Error (YPath [(id_E, [])]))])]); ((YPath [(id_T6, [])]), [(id_Encode, [(YAssoc id_Error (YPath [(id_E, [])]))])]); ((YPath [(id_T7, [])]), [(id_Encode, [(YAssoc id_Error (YPath [(id_E, [])]))])]); ((YPath [(id_T8, [])]), [(id_Encode, [(YAssoc id_Error (YPath [(id_E, [])]))])]); ((YPath [(id_T9, [])]), [(id_Encode, [(YAssoc id_Error (YPath [(id_E, [])]))])]); ((YPath [(id_T10, [])]), [(id_Encode, [(YAssoc id_Error (YPath [(id_E, [])]))])]); ((YPath [(id_T11, [])]), [(id_Encode, [(YAssoc id_Error (YPath [(id_E, [])]))])])] (Some [(id_oct, []); (id_encode, []); (id_Encode, [])]) (YTup [(YPath [(id_T0, [])]); (YPath [(id_T1, [])]); (YPath [(id_T2, [])]); (YPath [(id_T3, [])]); (YPath [(id_T4, [])]); (YPath [(id_T5, [])]); (YPath [(id_T6, [])]); (YPath [(id_T7, [])]); (YPath [(id_T8, [])]); (YPath [(id_T9, [])]); (YPath [(id_T10, [])]); (YPath [(id_T11, [])])])
    [] [(id_Error, (YPath [(id_E, [])]))] [src_Encode_tuple12_encode].

(* oct/src/encode/encode/mod.rs:899 *)
Definition src_Encode_NonZero_i128_encode : fn := Fn id_encode [] [((PVar id_self), (YPath [(id_Self, [])])); ((PVar id_output), (YRef true (YPath [(id_oct, []); (id_encode, []); (id_Output, [])])))] (YPath [(id_core, []); (id_result, []); (id_Result, [(YTup []); (YPath [(id_Self, []); (id_Error, [])])])])
    (EMethod (EMethod (EPath [(id_self, [])]) id_get [] []) id_encode [] [(EPath [(id_output, [])])]).

(* oct/src/encode/encode/mod.rs:895 *)
Definition src_Encode_NonZero_i128 : impl :=
  Impl [] [] [] (Some [(id_oct, []); (id_encode, []); (id_Encode, [])]) (YPath [(id_core, []); (id_num, []); (id_NonZero, [(YPath [(id_i128, [])])])])
    [] [(id_Error, (YQual (YPath [(id_i128, [])]) [(id_oct, []); (id_encode, []); (id_Encode, [])] [(id_Error, [])]))] [src_Encode_NonZero_i128_encode].

(* oct/src/encode/encode/mod.rs:899 *)
Definition src_Encode_NonZero_i16_encode : fn := Fn id_encode [] [((PVar id_self), (YPath [(id_Self, [])])); ((PVar id_output), (YRef true (YPath [(id_oct, []); (id_encode, []); (id_Output, [])])))] (YPath [(id_core, []); (id_result, []); (id_Result, [(YTup []); (YPath [(id_Self, []); (id_Error, [])])])])
    (EMethod (EMethod (EPath [(id_self, [])]) id_get [] []) id_encode [] [(EPath [(id_output, [])])]).

(* oct/src/encode/encode/mod.rs:895 *)
Definition src_Encode_NonZero_i16 : impl :=
  Impl [] [] [] (Some [(id_oct, []); (id_encode, []); (id_Encode, [])]) (YPath [(id_core, []); (id_num, []); (id_NonZero, [(YPath [(id_i16, [])])])])
    [] [(id_Error, (YQual (YPath [(id_i16, [])]) [(id_oct, []); (id_encode, []); (id_Encode, [])] [(id_Error, [])]))] [src_Encode_NonZero_i16_encode].

(* oct/src/encode/encode/mod.rs:899 *)
Definition src_Encode_NonZero_i32_encode : fn := Fn id_encode [] [((PVar id_self), (YPath [(id_Self, [])])); ((PVar id_output), (YRef true (YPath [(id_oct, []); (id_encode, []); (id_Output, [])])))] (YPath [(id_core, []); (id_result, []); (id_Result, [(YTup []); (YPath [(id_Self, []); (id_Error, [])])])])
    (EMethod (EMethod (EPath [(id_self, [])]) id_get [] []) id_encode [] [(EPath [(id_output, [])])]).

(* oct/src/encode/encode/mod.rs:895 *)
Definition src_Encode_NonZero_i32 : impl :=
  Impl [] [] [] (Some [(id_oct, []); (id_encode, []); (id_Encode, [])]) (YPath [(id_core, []); (id_num, []); (id_NonZero, [(YPath [(id_i32, [])])])])
    [] [(id_Error, (YQual (YPath [(id_i32, [])]) [(id_oct, []); (id_encode, []); (id_Encode, [])] [(id_Error, [])]))] [src_Encode_NonZero_i32_encode].

(* oct/src/encode/encode/mod.rs:899 *)
Definition src_Encode_NonZero_i64_encode : fn := Fn id_encode [] [((PVar id_self), (YPath [(id_Self, [])])); ((PVar id_output), (YRef true (YPath [(id_oct, []); (id_encode, []); (id_Output, [])])))] (YPath [(id_core, []); (id_result, []); (id_Result, [(YTup []); (YPath [(id_Self, []); (id_Error, [])])])])
    (EMethod (EMethod (EPath [(id_self, [])]) id_get [] []) id_encode [] [(EPath [(id_output, [])])]).

(* oct/src/encode/encode/mod.rs:895 *)
Definition src_Encode_NonZero_i64 : impl :=
  Impl [] [] [] (Some [(id_oct, []); (id_encode, []); (id_Encode, [])]) (YPath [(id_core, []); (id_num, []); (id_NonZero, [(YPath [(id_i64, [])])])])
    [] [(id_Error, (YQual (YPath [(id_i64, [])]) [(id_oct, []); (id_encode, []); (id_Encode, [])] [(id_Error, [])]))] [src_Encode_NonZero_i64_encode].

(* oct/src/encode/encode/mod.rs:899 *)
Definition src_Encode_NonZero_i8_encode : fn := Fn id_encode [] [((PVar id_self), (YPath [(id_Self, [])])); ((PVar id_output), (YRef true (YPath [(id_oct, []); (id_encode, []); (id_Output, [])])))] (YPath [(id_core, []); (id_result, []); (id_Result, [(YTup []); (YPath [(id_Self, []); (id_Error, [])])])])
    (EMethod (EMethod (EPath [(id_self, [])]) id_get [] []) id_encode [] [(EPath [(id_output, [])])]).

(* oct/src/encode/encode/mod.rs:895 *)
Definition src_Encode_NonZero_i8 : impl :=
  Impl [] [] [] (Some [(id_oct, []); (id_encode, []); (id_Encode, [])]) (YPath [(id_core, []); (id_num, []); (id_NonZero, [(YPath [(id_i8, [])])])])
    [] [(id_Error, (YQual (YPath [(id_i8, [])]) [(id_oct, []); (id_encode, []); (id_Encode, [])] [(id_Error, [])]))] [src_Encode_NonZero_i8_encode].

(* oct/src/encode/encode/mod.rs:899 *)
Definition src_Encode_NonZero_isize_encode : fn := Fn id_encode [] [((PVar id_self), (YPath [(id_Self, [])])); ((PVar id_output), (YRef true (YPath [(id_oct, []); (id_encode, []); (id_Output, [])])))] (YPath [(id_core, []); (id_result, []); (id_Result, [(YTup []); (YPath [(id_Self, []); (id_Error, [])])])])
    (EMethod (EMethod (EPath [(id_self, [])]) id_get [] []) id_encode [] [(EPath [(id_output, [])])]).

(* oct/src/encode/encode/mod.rs:895 *)
Definition src_Encode_NonZero_isize : impl :=
  Impl [] [] [] (Some [(id_oct, []); (id_encode, []); (id_Encode, [])]) (YPath [(id_core, []); (id_num, []); (id_NonZero, [(YPath [(id_isize, [])])])])
    [] [(id_Error, (YQual (YPath [(id_isize, [])]) [(id_oct, []); (id_encode, []); (id_Encode, [])] [(id_Error, [])]))] [src_Encode_NonZero_isize_encode].

(* oct/src/encode/encode/mod.rs:899 *)
Definition src_Encode_NonZero_u128_encode : fn := Fn id_encode [] [((PVar id_self), (YPath [(id_Self, [])])); ((PVar id_output), (YRef true (YPath [(id_oct, []); (id_encode, []); (id_Output, [])])))] (YPath [(id_core, []); (id_result, []); (id_Result, [(YTup []); (YPath [(id_Self, []); (id_Error, [])])])])
    (EMethod (EMethod (EPath [(id_self, [])]) id_get [] []) id_encode [] [(EPath [(id_output, [])])]).

(* oct/src/encode/encode/mod.rs:895 *)
Definition src_Encode_NonZero_u128 : impl :=
  Impl [] [] [] (Some [(id_oct, []); (id_encode, []); (id_Encode, [])]) (YPath [(id_core, []); (id_num, []); (id_NonZero, [(YPath [(id_u128, [])])])])
    [] [(id_Error, (YQual (YPath [(id_u128, [])]) [(id_oct, []); (id_encode, []); (id_Encode, [])] [(id_Error, [])]))] [src_Encode_NonZero_u128_encode].

(* oct/src/encode/encode/mod.rs:899 *)
Definition src_Encode_NonZero_u16_encode : fn := Fn id_encode [] [((PVar id_self), (YPath [(id_Self, [])])); ((PVar id_output), (YRef true (YPath [(id_oct, []); (id_encode, []); (id_Output, [])])))] (YPath [(id_core, []); (id_result, []); (id_Result, [(YTup []); (YPath [(id_Self, []); (id_Error, [])])])])
    (EMethod (EMethod (EPath [(id_self, [])]) id_get [] []) id_encode [] [(EPath [(id_output, [])])]).

(* oct/src/encode/encode/mod.rs:895 *)
Definition src_Encode_NonZero_u16 : impl :=
  Impl [] [] [] (Some [(id_oct, []); (id_encode, []); (id_Encode, [])]) (YPath [(id_core, []); (id_num, []); (id_NonZero, [(YPath [(id_u16, [])])])])
    [] [(id_Error, (YQual (YPath [(id_u16, [])]) [(id_oct, []); (id_encode, []); (id_Encode, [])] [(id_Error, [])]))] [src_Encode_NonZero_u16_encode].

(* oct/src/encode/encode/mod.rs:899 *)
Definition src_Encode_NonZero_u32_encode : fn := Fn id_encode [] [((PVar id_self), (YPath [(id_Self, [])])); ((PVar id_output), (YRef true (YPath [(id_oct, []); (id_encode, []); (id_Output, [])])))] (YPath [(id_core, []); (id_result, []); (id_Result, [(YTup []); (YPath [(id_Self, []); (id_Error, [])])])])
    (EMethod (EMethod (EPath [(id_self, [])]) id_get [] []) id_encode [] [(EPath [(id_output, [])])]).

(* oct/src/encode/encode/mod.rs:895 *)
Definition src_Encode_NonZero_u32 : impl :=
  Impl [] [] [] (Some [(id_oct, []); (id_encode, []); (id_Encode, [])]) (YPath [(id_core, []); (id_num, []); (id_NonZero, [(YPath [(id_u32, [])])])])
    [] [(id_Error, (YQual (YPath [(id_u32, [])]) [(id_oct, []); (id_encode, []); (id_Encode, [])] [(id_Error, [])]))] [src_Encode_NonZero_u32_encode].

(* oct/src/encode/encode/mod.rs:899 *)
Definition src_Encode_NonZero_u64_encode : fn := Fn id_encode [] [((PVar id_self), (YPath [(id_Self, [])])); ((PVar id_output), (YRef true (YPath [(id_oct, []); (id_encode, []); (id_Output, [])])))] (YPath [(id_core, []); (id_result, []); (id_Result, [(YTup []); (YPath [(id_Self, []); (id_Error, [])])])])
    (EMethod (EMethod (EPath [(id_self, [])]) id_get [] []) id_encode [] [(EPath [(id_output, [])])]).

(* oct/src/encode/encode/mod.rs:895 *)
Definition src_Encode_NonZero_u64 : impl :=
  Impl [] [] [] (Some [(id_oct, []); (id_encode, []); (id_Encode, [])]) (YPath [(id_core, []); (id_num, []); (id_NonZero, [(YPath [(id_u64, [])])])])
    [] [(id_Error, (YQual (YPath [(id_u64, [])]) [(id_oct, []); (id_encode, []); (id_Encode, [])] [(id_Error, [])]))] [src_Encode_NonZero_u64_encode].

(* oct/src/encode/encode/mod.rs:899 *)
Definition src_Encode_NonZero_u8_encode : fn := Fn id_encode [] [((PVar id_self), (YPath [(id_Self, [])])); ((PVar id_output), (YRef true (YPath [(id_oct, []); (id_encode, []); (id_Output, [])])))] (YPath [(id_core, []); (id_result, []); (id_Result, [(YTup []); (YPath [(id_Self, []); (id_Error, [])])])])
    (EMethod (EMethod (EPath [(id_self, [])]) id_get [] []) id_encode [] [(EPath [(id_output, [])])]).

(* oct/src/encode/encode/mod.rs:895 *)
Definition src_Encode_NonZero_u8 : impl :=
  Impl [] [] [] (Some [(id_oct, []); (id_encode, []); (id_Encode, [])]) (YPath [(id_core, []); (id_num, []); (id_NonZero, [(YPath [(id_u8, [])])])])
    [] [(id_Error, (YQual (YPath [(id_u8, [])]) [(id_oct, []); (id_encode, []); (id_Encode, [])] [(id_Error, [])]))] [src_Encode_NonZero_u8_encode].

(* oct/src/encode/encode/mod.rs:899 *)
Definition src_Encode_NonZero_usize_encode : fn := Fn id_encode [] [((PVar id_self), (YPath [(id_Self, [])])); ((PVar id_output), (YRef true (YPath [(id_oct, []); (id_encode, []); (id_Output, [])])))] (YPath [(id_core, []); (id_result, []); (id_Result, [(YTup []); (YPath [(id_Self, []); (id_Error, [])])])])
    (EMethod (EMethod (EPath [(id_self, [])]) id_get [] []) id_encode [] [(EPath [(id_output, [])])]).

(* oct/src/encode/encode/mod.rs:895 *)
Definition src_Encode_NonZero_usize : impl :=
  Impl [] [] [] (Some [(id_oct, []); (id_encode, []); (id_Encode, [])]) (YPath [(id_core, []); (id_num, []); (id_NonZero, [(YPath [(id_usize, [])])])])
    [] [(id_Error, (YQual (YPath [(id_usize, [])]) [(id_oct, []); (id_encode, []); (id_Encode, [])] [(id_Error, [])]))] [src_Encode_NonZero_usize_encode].

(* oct/src/encode/encode/mod.rs:921 *)
Definition src_Encode_AtomicBool_encode : fn := Fn id_encode [] [((PVar id_self), (YPath [(id_Self, [])])); ((PVar id_output), (YRef true (YPath [(id_oct, []); (id_encode, []); (id_Output, [])])))] (YPath [(id_core, []); (id_result, []); (id_Result, [(YTup []); (YPath [(id_Self, []); (id_Error, [])])])])
    (EUse id_Ordering [(id_std, []); (id_sync, []); (id_atomic, []); (id_Ordering, [])] (EMethod (EMethod (EPath [(id_self, [])]) id_load [] [(EPath [(id_Ordering, []); (id_Relaxed, [])])]) id_encode [] [(EPath [(id_output, [])])])).

(* oct/src/encode/encode/mod.rs:914 *)
Definition src_Encode_AtomicBool : impl :=
  Impl [] [] [] (Some [(id_oct, []); (id_encode, []); (id_Encode, [])]) (YPath [(id_std, []); (id_sync, []); (id_atomic, []); (id_AtomicBool, [])])
    [] [(id_Error, (YQual (YPath [(id_bool, [])]) [(id_oct, []); (id_encode, []); (id_Encode, [])] [(id_Error, [])]))] [src_Encode_AtomicBool_encode].

(* oct/src/encode/encode/mod.rs:921 *)
Definition src_Encode_AtomicI16_encode : fn := Fn id_encode [] [((PVar id_self), (YPath [(id_Self, [])])); ((PVar id_output), (YRef true (YPath [(id_oct, []); (id_encode, []); (id_Output, [])])))] (YPath [(id_core, []); (id_result, []); (id_Result, [(YTup []); (YPath [(id_Self, []); (id_Error, [])])])])
    (EUse id_Ordering [(id_std, []); (id_sync, []); (id_atomic, []); (id_Ordering, [])] (EMethod (EMethod (EPath [(id_self, [])]) id_load [] [(EPath [(id_Ordering, []); (id_Relaxed, [])])]) id_encode [] [(EPath [(id_output, [])])])).

(* oct/src/encode/encode/mod.rs:914 *)
Definition src_Encode_AtomicI16 : impl :=
  Impl [] [] [] (Some [(id_oct, []); (id_encode, []); (id_Encode, [])]) (YPath [(id_std, []); (id_sync, []); (id_atomic, []); (id_AtomicI16, [])])
    [] [(id_Error, (YQual (YPath [(id_i16, [])]) [(id_oct, []); (id_encode, []); (id_Encode, [])] [(id_Error, [])]))] [src_Encode_AtomicI16_encode].

(* oct/src/encode/encode/mod.rs:921 *)
Definition src_Encode_AtomicI32_encode : fn := Fn id_encode [] [((PVar id_self), (YPath [(id_Self, [])])); ((PVar id_output), (YRef true (YPath [(id_oct, []); (id_encode, []); (id_Output, [])])))] (YPath [(id_core, []); (id_result, []); (id_Result, [(YTup []); (YPath [(id_Self, []); (id_Error, [])])])])
    (EUse id_Ordering [(id_std, []); (id_sync, []); (id_atomic, []); (id_Ordering, [])] (EMethod (EMethod (EPath [(id_self, [])]) id_load [] [(EPath [(id_Ordering, []); (id_Relaxed, [])])]) id_encode [] [(EPath [(id_output, [])])])).

(* oct/src/encode/encode/mod.rs:914 *)
Definition src_Encode_AtomicI32 : impl :=
  Impl [] [] [] (Some [(id_oct, []); (id_encode, []); (id_Encode, [])]) (YPath [(id_std, []); (id_sync, []); (id_atomic, []); (id_AtomicI32, [])])
    [] [(id_Error, (YQual (YPath [(id_i32, [])]) [(id_oct, []); (id_encode, []); (id_Encode, [])] [(id_Error, [])]))] [src_Encode_AtomicI32_encode].

(* oct/src/encode/encode/mod.rs:921 *)
Definition src_Encode_AtomicI64_encode : fn := Fn id_encode [] [((PVar id_self), (YPath [(id_Self, [])])); ((PVar id_output), (YRef true (YPath [(id_oct, []); (id_encode, []); (id_Output, [])])))] (YPath [(id_core, []); (id_result, []); (id_Result, [(YTup []); (YPath [(id_Self, []); (id_Error, [])])])])
    (EUse id_Ordering [(id_std, []); (id_sync, []); (id_atomic, []); (id_Ordering, [])] (EMethod (EMethod (EPath [(id_self, [])]) id_load [] [(EPath [(id_Ordering, []); (id_Relaxed, [])])]) id_encode [] [(EPath [(id_output, [])])])).

(* oct/src/encode/encode/mod.rs:914 *)
Definition src_Encode_AtomicI64 : impl :=
  Impl [] [] [] (Some [(id_oct, []); (id_encode, []); (id_Encode, [])]) (YPath [(id_std, []); (id_sync, []); (id_atomic, []); (id_AtomicI64, [])])
    [] [(id_Error, (YQual (YPath [(id_i64, [])]) [(id_oct, []); (id_encode, []); (id_Encode, [])] [(id_Error, [])]))] [src_Encode_AtomicI64_encode].

(* oct/src/encode/encode/mod.rs:921 *)
Definition src_Encode_AtomicI8_encode : fn := Fn id_encode [] [((PVar id_self), (YPath [(id_Self, [])])); ((PVar id_output), (YRef true (YPath [(id_oct, []); (id_encode, []); (id_Output, [])])))] (YPath [(id_core, []); (id_result, []); (id_Result, [(YTup []); (YPath [(id_Self, []); (id_Error, [])])])])
    (EUse id_Ordering [(id_std, []); (id_sync, []); (id_atomic, []); (id_Ordering, [])] (EMethod (EMethod (EPath [(id_self, [])]) id_load [] [(EPath [(id_Ordering, []); (id_Relaxed, [])])]) id_encode [] [(EPath [(id_output, [])])])).

(* oct/src/encode/encode/mod.rs:914 *)
Definition src_Encode_AtomicI8 : impl :=
  Impl [] [] [] (Some [(id_oct, []); (id_encode, []); (id_Encode, [])]) (YPath [(id_std, []); (id_sync, []); (id_atomic, []); (id_AtomicI8, [])])
    [] [(id_Error, (YQual (YPath [(id_i8, [])]) [(id_oct, []); (id_encode, []); (id_Encode, [])] [(id_Error, [])]))] [src_Encode_AtomicI8_encode].

(* oct/src/encode/encode/mod.rs:921 *)
Definition src_Encode_AtomicIsize_encode : fn := Fn id_encode [] [((PVar id_self), (YPath [(id_Self, [])])); ((PVar id_output), (YRef true (YPath [(id_oct, []); (id_encode, []); (id_Output, [])])))] (YPath [(id_core, []); (id_result, []); (id_Result, [(YTup []); (YPath [(id_Self, []); (id_Error, [])])])])
    (EUse id_Ordering [(id_std, []); (id_sync, []); (id_atomic, []); (id_Ordering, [])] (EMethod (EMethod (EPath [(id_self, [])]) id_load [] [(EPath [(id_Ordering, []); (id_Relaxed, [])])]) id_encode [] [(EPath [(id_output, [])])])).

(* oct/src/encode/encode/mod.rs:914 *)
Definition src_Encode_AtomicIsize : impl :=
  Impl [] [] [] (Some [(id_oct, []); (id_encode, []); (id_Encode, [])]) (YPath [(id_std, []); (id_sync, []); (id_atomic, []); (id_AtomicIsize, [])])
    [] [(id_Error, (YQual (YPath [(id_isize, [])]) [(id_oct, []); (id_encode, []); (id_Encode, [])] [(id_Error, [])]))] [src_Encode_AtomicIsize_encode].

(* oct/src/encode/encode/mod.rs:921 *)
Definition src_Encode_AtomicU16_encode : fn := Fn id_encode [] [((PVar id_self), (YPath [(id_Self, [])])); ((PVar id_output), (YRef true (YPath [(id_oct, []); (id_encode, []); (id_Output, [])])))] (YPath [(id_core, []); (id_result, []); (id_Result, [(YTup []); (YPath [(id_Self, []); (id_Error, [])])])])
    (EUse id_Ordering [(id_std, []); (id_sync, []); (id_atomic, []); (id_Ordering, [])] (EMethod (EMethod (EPath [(id_self, [])]) id_load [] [(EPath [(id_Ordering, []); (id_Relaxed, [])])]) id_encode [] [(EPath [(id_output, [])])])).

(* oct/src/encode/encode/mod.rs:914 *)
Definition src_Encode_AtomicU16 : impl :=
  Impl [] [] [] (Some [(id_oct, []); (id_encode, []); (id_Encode, [])]) (YPath [(id_std, []); (id_sync, []); (id_atomic, []); (id_AtomicU16, [])])
    [] [(id_Error, (YQual (YPath [(id_u16, [])]) [(id_oct, []); (id_encode, []); (id_Encode, [])] [(id_Error, [])]))] [src_Encode_AtomicU16_encode].

(* oct/src/encode/encode/mod.rs:921 *)
Definition src_Encode_AtomicU32_encode : fn := Fn id_encode [] [((PVar id_self), (YPath [(id_Self, [])])); ((PVar id_output), (YRef true (YPath [(id_oct, []); (id_encode, []); (id_Output, [])])))] (YPath [(id_core, []); (id_result, []); (id_Result, [(YTup []); (YPath [(id_Self, []); (id_Error, [])])])])
    (EUse id_Ordering [(id_std, []); (id_sync, []); (id_atomic, []); (id_Ordering, [])] (EMethod (EMethod (EPath [(id_self, [])]) id_load [] [(EPath [(id_Ordering, []); (id_Relaxed, [])])]) id_encode [] [(EPath [(id_output, [])])])).

(* oct/src/encode/encode/mod.rs:914 *)
Definition src_Encode_AtomicU32 : impl :=
  Impl [] [] [] (Some [(id_oct, []); (id_encode, []); (id_Encode, [])]) (YPath [(id_std, []); (id_sync, []); (id_atomic, []); (id_AtomicU32, [])])
    [] [(id_Error, (YQual (YPath [(id_u32, [])]) [(id_oct, []); (id_encode, []); (id_Encode, [])] [(id_Error, [])]))] [src_Encode_AtomicU32_encode].

(* oct/src/encode/encode/mod.rs:921 *)
Definition src_Encode_AtomicU64_encode : fn := Fn id_encode [] [((PVar id_self), (YPath [(id_Self, [])])); ((PVar id_output), (YRef true (YPath [(id_oct, []); (id_encode, []); (id_Output, [])])))] (YPath [(id_core, []); (id_result, []); (id_Result, [(YTup []); (YPath [(id_Self, []); (id_Error, [])])])])
    (EUse id_Ordering [(id_std, []); (id_sync, []); (id_atomic, []); (id_Ordering, [])] (EMethod (EMethod (EPath [(id_self, [])]) id_load [] [(EPath [(id_Ordering, []); (id_Relaxed, [])])]) id_encode [] [(EPath [(id_output, [])])])).

(* oct/src/encode/encode/mod.rs:914 *)
Definition src_Encode_AtomicU64 : impl :=
  Impl [] [] [] (Some [(id_oct, []); (id_encode, []); (id_Encode, [])]) (YPath [(id_std, []); (id_sync, []); (id_atomic, []); (id_AtomicU64, [])])
    [] [(id_Error, (YQual (YPath [(id_u64, [])]) [(id_oct, []); (id_encode, []); (id_Encode, [])] [(id_Error, [])]))] [src_Encode_AtomicU64_encode].

(* oct/src/encode/encode/mod.rs:921 *)
Definition src_Encode_AtomicU8_encode : fn := Fn id_encode [] [((PVar id_self), (YPath [(id_Self, [])])); ((PVar id_output), (YRef true (YPath [(id_oct, []); (id_encode, []); (id_Output, [])])))] (YPath [(id_core, []); (id_result, []); (id_Result, [(YTup []); (YPath [(id_Self, []); (id_Error, [])])])])
    (EUse id_Ordering [(id_std, []); (id_sync, []); (id_atomic, []); (id_Ordering, [])] (EMethod (EMethod (EPath [(id_self, [])]) id_load [] [(EPath [(id_Ordering, []); (id_Relaxed, [])])]) id_encode [] [(EPath [(id_output, [])])])).

(* oct/src/encode/encode/mod.rs:914 *)
Definition src_Encode_AtomicU8 : impl :=
  Impl [] [] [] (Some [(id_oct, []); (id_encode, []); (id_Encode, [])]) (YPath [(id_std, []); (id_sync, []); (id_atomic, []); (id_AtomicU8, [])])
    [] [(id_Error, (YQual (YPath [(id_u8, [])]) [(id_oct, []); (id_encode, []); (id_Encode, [])] [(id_Error, [])]))] [src_Encode_AtomicU8_encode].

(* oct/src/encode/encode/mod.rs:921 *)
Definition src_Encode_AtomicUsize_encode : fn := Fn id_encode [] [((PVar id_self), (YPath [(id_Self, [])])); ((PVar id_output), (YRef true (YPath [(id_oct, []); (id_encode, []); (id_Output, [])])))] (YPath [(id_core, []); (id_result, []); (id_Result, [(YTup []); (YPath [(id_Self, []); (id_Error, [])])])])
    (EUse id_Ordering [(id_std, []); (id_sync, []); (id_atomic, []); (id_Ordering, [])] (EMethod (EMethod (EPath [(id_self, [])]) id_load [] [(EPath [(id_Ordering, []); (id_Relaxed, [])])]) id_encode [] [(EPath [(id_output, [])])])).

(* oct/src/encode/encode/mod.rs:914 *)
Definition src_Encode_AtomicUsize : impl :=
  Impl [] [] [] (Some [(id_oct, []); (id_encode, []); (id_Encode, [])]) (YPath [(id_std, []); (id_sync, []); (id_atomic, []); (id_AtomicUsize, [])])
    [] [(id_Error, (YQual (YPath [(id_usize, [])]) [(id_oct, []); (id_encode, []); (id_Encode, [])] [(id_Error, [])]))] [src_Encode_AtomicUsize_encode].

(* oct/src/sized_slice/code.rs:56 *)
Definition src_Encode_SizedSlice_T_N_encode : fn := Fn id_encode [] [((PVar id_self), (YPath [(id_Self, [])])); ((PVar id_output), (YRef true (YPath [(id_Output, [])])))] (YPath [(id_Result, [(YTup []); (YPath [(id_Self, []); (id_Error, [])])])])
    (EMethod (EMethod (EPath [(id_self, [])]) id_as_slice [] []) id_encode [] [(EPath [(id_output, [])])]).

(* oct/src/sized_slice/code.rs:52 *)
Definition src_Encode_SizedSlice_T_N : impl :=
  Impl [id_T] [id_N] [((YPath [(id_T, [])]), [(id_Encode, [])])] (Some [(id_Encode, [])]) (YPath [(id_SizedSlice, [(YPath [(id_T, [])]); (YPath [(id_N, [])])])])
    [] [(id_Error, (YQual (YSlice (YPath [(id_T, [])])) [(id_Encode, [])] [(id_Error, [])]))] [src_Encode_SizedSlice_T_N_encode].

(* oct/src/sized_str/code.rs:53 *)
Definition src_Encode_SizedStr_N_encode : fn := Fn id_encode [] [((PVar id_self), (YPath [(id_Self, [])])); ((PVar id_output), (YRef true (YPath [(id_Output, [])])))] (YPath [(id_Result, [(YTup []); (YPath [(id_Self, []); (id_Error, [])])])])
    (EMethod (EMethod (EPath [(id_self, [])]) id_as_str [] []) id_encode [] [(EPath [(id_output, [])])]).

(* oct/src/sized_str/code.rs:49 *)
Definition src_Encode_SizedStr_N : impl :=
  Impl [] [id_N] [] (Some [(id_Encode, [])]) (YPath [(id_SizedStr, [(YPath [(id_N, [])])])])
    [] [(id_Error, (YQual (YPath [(id_str, [])]) [(id_Encode, [])] [(id_Error, [])]))] [src_Encode_SizedStr_N_encode].

(* all of them, in the order of the files *)
Definition src_encode_impls : list impl := [src_Encode_ref; src_Encode_ref_mut; src_Encode_tuple1; src_Encode_array; src_Encode_slice; src_Encode_Arc_T; src_Encode_bool; src_Encode_Bound_T; src_Encode_Box_T; src_Encode_Cell_T; src_Encode_char; src_Encode_Cow_T; src_Encode_CStr; src_Encode_CString; src_Encode_Duration; src_Encode_HashMap_K_V_S; src_Encode_HashSet_K_S; src_Encode_Infallible; src_Encode_IpAddr; src_Encode_Ipv4Addr; src_Encode_Ipv6Addr; src_Encode_isize; src_Encode_LazyCell_T; src_Encode_LazyLock_T; src_Encode_LinkedList_T; src_Encode_Mutex_T; src_Encode_Option_T; src_Encode_PhantomData_T; src_Encode_PhantomPinned; src_Encode_Range_T; src_Encode_RangeFrom_T; src_Encode_RangeFull; src_Encode_RangeInclusive_T; src_Encode_RangeTo_T; src_Encode_RangeToInclusive_T; src_Encode_Rc_T; src_Encode_RefCell_T; src_Encode_Result_T_E; src_Encode_RwLock_T; src_Encode_Saturating_T; src_Encode_SocketAddr; src_Encode_SocketAddrV4; src_Encode_SocketAddrV6; src_Encode_str; src_Encode_String; src_Encode_SystemTime; src_Encode_tuple0; src_Encode_usize; src_Encode_Vec_T; src_Encode_Wrapping_T; src_Encode_f32; src_Encode_f64; src_Encode_i128; src_Encode_i16; src_Encode_i32; src_Encode_i64; src_Encode_i8; src_Encode_u128; src_Encode_u16; src_Encode_u32; src_Encode_u64; src_Encode_u8; src_Encode_tuple2; src_Encode_tuple3; src_Encode_tuple4; src_Encode_tuple5; src_Encode_tuple6; src_Encode_tuple7; src_Encode_tuple8; src_Encode_tuple9; src_Encode_tuple10; src_Encode_tuple11; src_Encode_tuple12; src_Encode_NonZero_i128; src_Encode_NonZero_i16; src_Encode_NonZero_i32; src_Encode_NonZero_i64; src_Encode_NonZero_i8; src_Encode_NonZero_isize; src_Encode_NonZero_u128; src_Encode_NonZero_u16; src_Encode_NonZero_u32; src_Encode_NonZero_u64; src_Encode_NonZero_u8; src_Encode_NonZero_usize; src_Encode_AtomicBool; src_Encode_AtomicI16; src_Encode_AtomicI32; src_Encode_AtomicI64; src_Encode_AtomicI8; src_Encode_AtomicIsize; src_Encode_AtomicU16; src_Encode_AtomicU32; src_Encode_AtomicU64; src_Encode_AtomicU8; src_Encode_AtomicUsize; src_Encode_SizedSlice_T_N; src_Encode_SizedStr_N].
