(* Generated by tools/rust2v.py from oct/src/sized_str/mod.rs, oct/src/sized_str/conv.rs, oct/src/sized_str/cmp.rs. Do not edit. *)
From Coq Require Import String.
From Verif Require Import Base SourceNames SourceSyntax.
Local Open Scope list_scope.

(* oct/src/sized_str/mod.rs:86 *)
Definition src_impl_SizedStr_N_new : fn := Fn id_new [] [((PVar id_s), (YRef false (YPath [(id_str, [])])))] (YPath [(id_Result, [(YPath [(id_Self, [])]); (YPath [(id_StringError, [])])])])
    (ESeq (EIf (EBin OGt (EMethod (EPath [(id_s, [])]) id_len [] []) (EPath [(id_N, [])])) (EReturn (ECall (EPath [(id_Err, [])]) [(ECall (EPath [(id_StringError, []); (id_SmallBuffer, [])]) [(ERec [(id_LengthError, [])] [(id_capacity, (EPath [(id_N, [])])); (id_len, (EMethod (EPath [(id_s, [])]) id_len [] []))])])])) EUnit) (ELet (PVar id_this) None (Some (ECall (EPath [(id_Self, []); (id_from_utf8_unchecked, [])]) [(EMethod (EPath [(id_s, [])]) id_as_bytes [] [])])) None
      (ECall (EPath [(id_Ok, [])]) [(EPath [(id_this, [])])]))).

(* oct/src/sized_str/mod.rs:98 *)
Definition src_impl_SizedStr_N_capacity : fn := Fn id_capacity [] [((PVar id_self), (YPath [(id_Self, [])]))] (YPath [(id_usize, [])])
    (EMethod (EIdx (EPath [(id_self, [])]) 0) id_capacity [] []).

(* oct/src/sized_str/mod.rs:107 *)
Definition src_impl_SizedStr_N_len : fn := Fn id_len [] [((PVar id_self), (YPath [(id_Self, [])]))] (YPath [(id_usize, [])])
    (EMethod (EIdx (EPath [(id_self, [])]) 0) id_len [] []).

(* oct/src/sized_str/mod.rs:114 *)
Definition src_impl_SizedStr_N_is_empty : fn := Fn id_is_empty [] [((PVar id_self), (YPath [(id_Self, [])]))] (YPath [(id_bool, [])])
    (EMethod (EIdx (EPath [(id_self, [])]) 0) id_is_empty [] []).

(* oct/src/sized_str/mod.rs:121 *)
Definition src_impl_SizedStr_N_is_full : fn := Fn id_is_full [] [((PVar id_self), (YPath [(id_Self, [])]))] (YPath [(id_bool, [])])
    (EMethod (EIdx (EPath [(id_self, [])]) 0) id_is_full [] []).

(* oct/src/sized_str/mod.rs:127 *)
Definition src_impl_SizedStr_N_chars : fn := Fn id_chars [] [((PVar id_self), (YPath [(id_Self, [])]))] (YPath [(id_Chars, [])])
    (EMethod (EMethod (EPath [(id_self, [])]) id_as_str [] []) id_chars [] []).

(* oct/src/sized_str/mod.rs:133 *)
Definition src_impl_SizedStr_N_char_indices : fn := Fn id_char_indices [] [((PVar id_self), (YPath [(id_Self, [])]))] (YPath [(id_CharIndices, [])])
    (EMethod (EMethod (EPath [(id_self, [])]) id_as_str [] []) id_char_indices [] []).

(* oct/src/sized_str/mod.rs:77 *)
Definition src_impl_SizedStr_N : impl :=
  Impl [] [id_N] [] None (YPath [(id_SizedStr, [(YPath [(id_N, [])])])])
    [] [] [src_impl_SizedStr_N_new; src_impl_SizedStr_N_capacity; src_impl_SizedStr_N_len; src_impl_SizedStr_N_is_empty; src_impl_SizedStr_N_is_full; src_impl_SizedStr_N_chars; src_impl_SizedStr_N_char_indices].

(* oct/src/sized_str/mod.rs:140 *)
Definition src_Debug_SizedStr_N_fmt : fn := Fn id_fmt [] [((PVar id_self), (YPath [(id_Self, [])])); ((PVar id_f), (YRef true (YPath [(id_Formatter, [])])))] (YPath [(id_fmt, []); (id_Result, [])])
    (ECall (EPath [(id_Debug, []); (id_fmt, [])]) [(EMethod (EPath [(id_self, [])]) id_as_str [] []); (EPath [(id_f, [])])]).

(* oct/src/sized_str/mod.rs:138 *)
Definition src_Debug_SizedStr_N : impl :=
  Impl [] [id_N] [] (Some [(id_Debug, [])]) (YPath [(id_SizedStr, [(YPath [(id_N, [])])])])
    [] [] [src_Debug_SizedStr_N_fmt].

(* oct/src/sized_str/mod.rs:147 *)
Definition src_Display_SizedStr_N_fmt : fn := Fn id_fmt [] [((PVar id_self), (YPath [(id_Self, [])])); ((PVar id_f), (YRef true (YPath [(id_Formatter, [])])))] (YPath [(id_fmt, []); (id_Result, [])])
    (ECall (EPath [(id_Display, []); (id_fmt, [])]) [(EMethod (EPath [(id_self, [])]) id_as_str [] []); (EPath [(id_f, [])])]).

(* oct/src/sized_str/mod.rs:145 *)
Definition src_Display_SizedStr_N : impl :=
  Impl [] [id_N] [] (Some [(id_Display, [])]) (YPath [(id_SizedStr, [(YPath [(id_N, [])])])])
    [] [] [src_Display_SizedStr_N_fmt].

(* oct/src/sized_str/mod.rs:152 *)
Definition src_Eq_SizedStr_N : impl :=
  Impl [] [id_N] [] (Some [(id_Eq, [])]) (YPath [(id_SizedStr, [(YPath [(id_N, [])])])])
    [] [] [].

(* oct/src/sized_str/mod.rs:156, a loop in it *)
Definition src_FromIterator_char_SizedStr_N_from_iter_loop0 : expr :=
    (ELet (PVar id_rem) None (Some (EBin OSub (EPath [(id_N, [])]) (EPath [(id_len, [])]))) None
      (ELet (PVar id_req) None (Some (EMethod (EPath [(id_c, [])]) id_len_utf8 [] [])) None
      (ESeq (EIf (EBin OLt (EPath [(id_rem, [])]) (EPath [(id_req, [])])) EBreak EUnit) (ELet (PVar id_start) None (Some (EPath [(id_len, [])])) None
      (ELet (PVar id_stop) None (Some (EBin OAdd (EPath [(id_start, [])]) (EPath [(id_req, [])]))) None
      (ESeq (EMethod (EPath [(id_c, [])]) id_encode_utf8 [] [(ERef (EIndex (EPath [(id_buf, [])]) (ERange (Some (EPath [(id_start, [])])) (Some (EPath [(id_stop, [])])) false)))]) (ESeq (EAssign (Some OAdd) (EPath [(id_len, [])]) (EPath [(id_req, [])])) EUnit))))))).

(* oct/src/sized_str/mod.rs:156 *)
Definition src_FromIterator_char_SizedStr_N_from_iter : fn := Fn id_from_iter [id_I] [((PVar id_iter), (YPath [(id_I, [])]))] (YPath [(id_Self, [])])
    (ELet (PVar id_buf) None (Some (ERepeat (EInt (0)%Z None) (EPath [(id_N, [])]))) None
      (ELet (PVar id_len) None (Some (EInt (0)%Z None)) None
      (ESeq (EFor (PVar id_c) (EPath [(id_iter, [])]) src_FromIterator_char_SizedStr_N_from_iter_loop0) (ECall (EPath [(id_Self, []); (id_from_raw_parts, [])]) [(EPath [(id_buf, [])]); (EPath [(id_len, [])])])))).

(* oct/src/sized_str/mod.rs:154 *)
Definition src_FromIterator_char_SizedStr_N : impl :=
  Impl [] [id_N] [] (Some [(id_FromIterator, [(YPath [(id_char, [])])])]) (YPath [(id_SizedStr, [(YPath [(id_N, [])])])])
    [] [] [src_FromIterator_char_SizedStr_N_from_iter].

(* oct/src/sized_str/mod.rs:182 *)
Definition src_Hash_SizedStr_N_hash : fn := Fn id_hash [id_H] [((PVar id_self), (YPath [(id_Self, [])])); ((PVar id_state), (YRef true (YPath [(id_H, [])])))] (YTup [])
    (EMethod (EMethod (EPath [(id_self, [])]) id_as_str [] []) id_hash [] [(EPath [(id_state, [])])]).

(* oct/src/sized_str/mod.rs:180 *)
Definition src_Hash_SizedStr_N : impl :=
  Impl [] [id_N] [] (Some [(id_Hash, [])]) (YPath [(id_SizedStr, [(YPath [(id_N, [])])])])
    [] [] [src_Hash_SizedStr_N_hash].

(* oct/src/sized_str/mod.rs:191 *)
Definition src_Index_I_SizedStr_N_index : fn := Fn id_index [] [((PVar id_self), (YPath [(id_Self, [])])); ((PVar id_index), (YPath [(id_I, [])]))] (YRef false (YPath [(id_Self, []); (id_Output, [])]))
    (EMethod (EMethod (EPath [(id_self, [])]) id_get [] [(EPath [(id_index, [])])]) id_unwrap [] []).

(* oct/src/sized_str/mod.rs:187 *)
Definition src_Index_I_SizedStr_N : impl :=
  Impl [id_I] [id_N] [((YPath [(id_I, [])]), [(id_SliceIndex, [(YPath [(id_str, [])])])])] (Some [(id_Index, [(YPath [(id_I, [])])])]) (YPath [(id_SizedStr, [(YPath [(id_N, [])])])])
    [] [(id_Output, (YPath [(id_I, []); (id_Output, [])]))] [src_Index_I_SizedStr_N_index].

(* oct/src/sized_str/mod.rs:198 *)
Definition src_IndexMut_I_SizedStr_N_index_mut : fn := Fn id_index_mut [] [((PVar id_self), (YPath [(id_Self, [])])); ((PVar id_index), (YPath [(id_I, [])]))] (YRef true (YPath [(id_Self, []); (id_Output, [])]))
    (EMethod (EMethod (EPath [(id_self, [])]) id_get_mut [] [(EPath [(id_index, [])])]) id_unwrap [] []).

(* oct/src/sized_str/mod.rs:196 *)
Definition src_IndexMut_I_SizedStr_N : impl :=
  Impl [id_I] [id_N] [((YPath [(id_I, [])]), [(id_SliceIndex, [(YPath [(id_str, [])])])])] (Some [(id_IndexMut, [(YPath [(id_I, [])])])]) (YPath [(id_SizedStr, [(YPath [(id_N, [])])])])
    [] [] [src_IndexMut_I_SizedStr_N_index_mut].

(* oct/src/sized_str/conv.rs:57 *)
Definition src_impl_SizedStr_N_2_from_utf8 : fn := Fn id_from_utf8 [] [((PVar id_s), (YRef false (YSlice (YPath [(id_u8, [])]))))] (YPath [(id_Result, [(YPath [(id_Self, [])]); (YPath [(id_StringError, [])])])])
    (ESeq (EIf (EBin OGt (EMethod (EPath [(id_s, [])]) id_len [] []) (EPath [(id_N, [])])) (EReturn (ECall (EPath [(id_Err, [])]) [(ECall (EPath [(id_StringError, []); (id_SmallBuffer, [])]) [(ERec [(id_LengthError, [])] [(id_capacity, (EPath [(id_N, [])])); (id_len, (EMethod (EPath [(id_s, [])]) id_len [] []))])])])) EUnit) (ELet (PVar id_s) None (Some (EMatch (ECall (EPath [(id_str, []); (id_from_utf8, [])]) [(EPath [(id_s, [])])]) [((PCon [(id_Ok, [])] [(PVar id_s)]), (EPath [(id_s, [])])); ((PCon [(id_Err, [])] [(PVar id_e)]), (ELet (PVar id_i) None (Some (EMethod (EPath [(id_e, [])]) id_valid_up_to [] [])) None
      (ELet (PVar id_c) None (Some (EIndex (EPath [(id_s, [])]) (EPath [(id_i, [])]))) None
      (ESeq (EReturn (ECall (EPath [(id_Err, [])]) [(ECall (EPath [(id_StringError, []); (id_BadUtf8, [])]) [(ERec [(id_Utf8Error, [])] [(id_value, (EPath [(id_c, [])])); (id_index, (EPath [(id_i, [])]))])])])) EUnit))))])) None
      (ELet (PVar id_this) None (Some (ECall (EPath [(id_Self, []); (id_from_utf8_unchecked, [])]) [(EMethod (EPath [(id_s, [])]) id_as_bytes [] [])])) None
      (ECall (EPath [(id_Ok, [])]) [(EPath [(id_this, [])])])))).

(* oct/src/sized_str/conv.rs:85 *)
Definition src_impl_SizedStr_N_2_from_utf8_unchecked : fn := Fn id_from_utf8_unchecked [] [((PVar id_s), (YRef false (YSlice (YPath [(id_u8, [])]))))] (YPath [(id_Self, [])])
    (ESeq (EMacro id_debug_assert [(EBin OLe (EMethod (EPath [(id_s, [])]) id_len [] []) (EPath [(id_N, [])])); (EStr (txt "cannot construct string from utf-8 sequence that is longer"))]) (ELet (PVar id_buf) None (Some (ERepeat (EInt (0)%Z None) (EPath [(id_N, [])]))) None
      (ESeq (ECall (EPath [(id_copy_nonoverlapping, [])]) [(EMethod (EPath [(id_s, [])]) id_as_ptr [] []); (EMethod (EPath [(id_buf, [])]) id_as_mut_ptr [] []); (EMethod (EPath [(id_s, [])]) id_len [] [])]) (ECall (EPath [(id_Self, []); (id_from_raw_parts, [])]) [(EPath [(id_buf, [])]); (EMethod (EPath [(id_s, [])]) id_len [] [])])))).

(* oct/src/sized_str/conv.rs:109 *)
Definition src_impl_SizedStr_N_2_from_raw_parts : fn := Fn id_from_raw_parts [] [((PVar id_buf), (YArr (YPath [(id_u8, [])]) (YPath [(id_N, [])]))); ((PVar id_len), (YPath [(id_usize, [])]))] (YPath [(id_Self, [])])
    (ESeq (EMacro id_debug_assert [(EBin OLe (EPath [(id_len, [])]) (EPath [(id_N, [])])); (EStr (txt "cannot construct string that is longer than its capacity"))]) (ELet (PVar id_buf) None (Some (EMethod (EMethod (EMethod (EPath [(id_buf, [])]) id_as_ptr [] []) id_cast [(YArr (YPath [(id_MaybeUninit, [(YPath [(id_u8, [])])])]) (YPath [(id_N, [])]))] []) id_read [] [])) None
      (ECall (EPath [(id_Self, [])]) [(ECall (EPath [(id_SizedSlice, []); (id_from_raw_parts, [])]) [(EPath [(id_buf, [])]); (EPath [(id_len, [])])])]))).

(* oct/src/sized_str/conv.rs:120 *)
Definition src_impl_SizedStr_N_2_as_ptr : fn := Fn id_as_ptr [] [((PVar id_self), (YPath [(id_Self, [])]))] (YPtr false (YPath [(id_u8, [])]))
    (EMethod (EIdx (EPath [(id_self, [])]) 0) id_as_ptr [] []).

(* oct/src/sized_str/conv.rs:131 *)
Definition src_impl_SizedStr_N_2_as_mut_ptr : fn := Fn id_as_mut_ptr [] [((PVar id_self), (YPath [(id_Self, [])]))] (YPtr true (YPath [(id_u8, [])]))
    (EMethod (EIdx (EPath [(id_self, [])]) 0) id_as_mut_ptr [] []).

(* oct/src/sized_str/conv.rs:140 *)
Definition src_impl_SizedStr_N_2_as_bytes : fn := Fn id_as_bytes [] [((PVar id_self), (YPath [(id_Self, [])]))] (YRef false (YSlice (YPath [(id_u8, [])])))
    (ELet (PVar id_ptr) None (Some (EMethod (EPath [(id_self, [])]) id_as_ptr [] [])) None
      (ELet (PVar id_len) None (Some (EMethod (EPath [(id_self, [])]) id_len [] [])) None
      (ECall (EPath [(id_slice, []); (id_from_raw_parts, [])]) [(EPath [(id_ptr, [])]); (EPath [(id_len, [])])]))).

(* oct/src/sized_str/conv.rs:155 *)
Definition src_impl_SizedStr_N_2_as_str : fn := Fn id_as_str [] [((PVar id_self), (YPath [(id_Self, [])]))] (YRef false (YPath [(id_str, [])]))
    (ECall (EPath [(id_core, []); (id_str, []); (id_from_utf8_unchecked, [])]) [(EMethod (EPath [(id_self, [])]) id_as_bytes [] [])]).

(* oct/src/sized_str/conv.rs:166 *)
Definition src_impl_SizedStr_N_2_as_mut_str : fn := Fn id_as_mut_str [] [((PVar id_self), (YPath [(id_Self, [])]))] (YRef true (YPath [(id_str, [])]))
    (ELet (PVar id_ptr) None (Some (EMethod (EPath [(id_self, [])]) id_as_mut_ptr [] [])) None
      (ELet (PVar id_len) None (Some (EMethod (EPath [(id_self, [])]) id_len [] [])) None
      (ELet (PVar id_data) None (Some (ECall (EPath [(id_slice, []); (id_from_raw_parts_mut, [])]) [(EPath [(id_ptr, [])]); (EPath [(id_len, [])])])) None
      (ECall (EPath [(id_core, []); (id_str, []); (id_from_utf8_unchecked_mut, [])]) [(EPath [(id_data, [])])])))).

(* oct/src/sized_str/conv.rs:186 *)
Definition src_impl_SizedStr_N_2_into_raw_parts : fn := Fn id_into_raw_parts [] [((PVar id_self), (YPath [(id_Self, [])]))] (YTup [(YArr (YPath [(id_u8, [])]) (YPath [(id_N, [])])); (YPath [(id_usize, [])])])
    (ELet (PCon [(id_Self, [])] [(PVar id_vec)]) None (Some (EPath [(id_self, [])])) None
      (ELet (PTup [(PVar id_buf); (PVar id_len)]) None (Some (EMethod (EPath [(id_vec, [])]) id_into_raw_parts [] [])) None
      (ELet (PVar id_init_buf) None (Some (ECall (EPath [(id_ManuallyDrop, []); (id_new, [])]) [(EPath [(id_buf, [])])])) None
      (ELet (PVar id_buf) None (Some (EMethod (EMethod (ERaw (EPath [(id_init_buf, [])])) id_cast [(YArr (YPath [(id_u8, [])]) (YPath [(id_N, [])]))] []) id_read [] [])) None
      (ETuple [(EPath [(id_buf, [])]); (EPath [(id_len, [])])]))))).

(* oct/src/sized_str/conv.rs:199 *)
Definition src_impl_SizedStr_N_2_into_bytes : fn := Fn id_into_bytes [] [((PVar id_self), (YPath [(id_Self, [])]))] (YPath [(id_SizedSlice, [(YPath [(id_u8, [])]); (YPath [(id_N, [])])])])
    (ELet (PCon [(id_Self, [])] [(PVar id_v)]) None (Some (EPath [(id_self, [])])) None
      (EPath [(id_v, [])])).

(* oct/src/sized_str/conv.rs:209 *)
Definition src_impl_SizedStr_N_2_into_boxed_str : fn := Fn id_into_boxed_str [] [((PVar id_self), (YPath [(id_Self, [])]))] (YPath [(id_Box, [(YPath [(id_str, [])])])])
    (ELet (PCon [(id_Self, [])] [(PVar id_v)]) None (Some (EPath [(id_self, [])])) None
      (ECall (EPath [(id_alloc, []); (id_str, []); (id_from_boxed_utf8_unchecked, [])]) [(EMethod (EPath [(id_v, [])]) id_into_boxed_slice [] [])])).

(* oct/src/sized_str/conv.rs:221 *)
Definition src_impl_SizedStr_N_2_into_string : fn := Fn id_into_string [] [((PVar id_self), (YPath [(id_Self, [])]))] (YPath [(id_String, [])])
    (EMethod (EMethod (EPath [(id_self, [])]) id_into_boxed_str [] []) id_into_string [] []).

(* oct/src/sized_str/conv.rs:47 *)
Definition src_impl_SizedStr_N_2 : impl :=
  Impl [] [id_N] [] None (YPath [(id_SizedStr, [(YPath [(id_N, [])])])])
    [] [] [src_impl_SizedStr_N_2_from_utf8; src_impl_SizedStr_N_2_from_utf8_unchecked; src_impl_SizedStr_N_2_from_raw_parts; src_impl_SizedStr_N_2_as_ptr; src_impl_SizedStr_N_2_as_mut_ptr; src_impl_SizedStr_N_2_as_bytes; src_impl_SizedStr_N_2_as_str; src_impl_SizedStr_N_2_as_mut_str; src_impl_SizedStr_N_2_into_raw_parts; src_impl_SizedStr_N_2_into_bytes; src_impl_SizedStr_N_2_into_boxed_str; src_impl_SizedStr_N_2_into_string].

(* oct/src/sized_str/conv.rs:228 *)
Definition src_AsMut_str_SizedStr_N_as_mut : fn := Fn id_as_mut [] [((PVar id_self), (YPath [(id_Self, [])]))] (YRef true (YPath [(id_str, [])]))
    (EMethod (EPath [(id_self, [])]) id_as_mut_str [] []).

(* oct/src/sized_str/conv.rs:226 *)
Definition src_AsMut_str_SizedStr_N : impl :=
  Impl [] [id_N] [] (Some [(id_AsMut, [(YPath [(id_str, [])])])]) (YPath [(id_SizedStr, [(YPath [(id_N, [])])])])
    [] [] [src_AsMut_str_SizedStr_N_as_mut].

(* oct/src/sized_str/conv.rs:237 *)
Definition src_AsRef_OsStr_SizedStr_N_as_ref : fn := Fn id_as_ref [] [((PVar id_self), (YPath [(id_Self, [])]))] (YRef false (YPath [(id_OsStr, [])]))
    (EMethod (EMethod (EPath [(id_self, [])]) id_as_str [] []) id_as_ref [] []).

(* oct/src/sized_str/conv.rs:235 *)
Definition src_AsRef_OsStr_SizedStr_N : impl :=
  Impl [] [id_N] [] (Some [(id_AsRef, [(YPath [(id_OsStr, [])])])]) (YPath [(id_SizedStr, [(YPath [(id_N, [])])])])
    [] [] [src_AsRef_OsStr_SizedStr_N_as_ref].

(* oct/src/sized_str/conv.rs:246 *)
Definition src_AsRef_Path_SizedStr_N_as_ref : fn := Fn id_as_ref [] [((PVar id_self), (YPath [(id_Self, [])]))] (YRef false (YPath [(id_Path, [])]))
    (EMethod (EMethod (EPath [(id_self, [])]) id_as_str [] []) id_as_ref [] []).

(* oct/src/sized_str/conv.rs:244 *)
Definition src_AsRef_Path_SizedStr_N : impl :=
  Impl [] [id_N] [] (Some [(id_AsRef, [(YPath [(id_Path, [])])])]) (YPath [(id_SizedStr, [(YPath [(id_N, [])])])])
    [] [] [src_AsRef_Path_SizedStr_N_as_ref].

(* oct/src/sized_str/conv.rs:253 *)
Definition src_AsRef_str_SizedStr_N_as_ref : fn := Fn id_as_ref [] [((PVar id_self), (YPath [(id_Self, [])]))] (YRef false (YPath [(id_str, [])]))
    (EMethod (EPath [(id_self, [])]) id_as_str [] []).

(* oct/src/sized_str/conv.rs:251 *)
Definition src_AsRef_str_SizedStr_N : impl :=
  Impl [] [id_N] [] (Some [(id_AsRef, [(YPath [(id_str, [])])])]) (YPath [(id_SizedStr, [(YPath [(id_N, [])])])])
    [] [] [src_AsRef_str_SizedStr_N_as_ref].

(* oct/src/sized_str/conv.rs:260 *)
Definition src_AsRef_slice_SizedStr_N_as_ref : fn := Fn id_as_ref [] [((PVar id_self), (YPath [(id_Self, [])]))] (YRef false (YSlice (YPath [(id_u8, [])])))
    (EMethod (EPath [(id_self, [])]) id_as_bytes [] []).

(* oct/src/sized_str/conv.rs:258 *)
Definition src_AsRef_slice_SizedStr_N : impl :=
  Impl [] [id_N] [] (Some [(id_AsRef, [(YSlice (YPath [(id_u8, [])]))])]) (YPath [(id_SizedStr, [(YPath [(id_N, [])])])])
    [] [] [src_AsRef_slice_SizedStr_N_as_ref].

(* oct/src/sized_str/conv.rs:267 *)
Definition src_Borrow_str_SizedStr_N_borrow : fn := Fn id_borrow [] [((PVar id_self), (YPath [(id_Self, [])]))] (YRef false (YPath [(id_str, [])]))
    (EMethod (EPath [(id_self, [])]) id_as_str [] []).

(* oct/src/sized_str/conv.rs:265 *)
Definition src_Borrow_str_SizedStr_N : impl :=
  Impl [] [id_N] [] (Some [(id_Borrow, [(YPath [(id_str, [])])])]) (YPath [(id_SizedStr, [(YPath [(id_N, [])])])])
    [] [] [src_Borrow_str_SizedStr_N_borrow].

(* oct/src/sized_str/conv.rs:274 *)
Definition src_BorrowMut_str_SizedStr_N_borrow_mut : fn := Fn id_borrow_mut [] [((PVar id_self), (YPath [(id_Self, [])]))] (YRef true (YPath [(id_str, [])]))
    (EMethod (EPath [(id_self, [])]) id_as_mut_str [] []).

(* oct/src/sized_str/conv.rs:272 *)
Definition src_BorrowMut_str_SizedStr_N : impl :=
  Impl [] [id_N] [] (Some [(id_BorrowMut, [(YPath [(id_str, [])])])]) (YPath [(id_SizedStr, [(YPath [(id_N, [])])])])
    [] [] [src_BorrowMut_str_SizedStr_N_borrow_mut].

(* oct/src/sized_str/conv.rs:283 *)
Definition src_Deref_SizedStr_N_deref : fn := Fn id_deref [] [((PVar id_self), (YPath [(id_Self, [])]))] (YRef false (YPath [(id_Self, []); (id_Target, [])]))
    (EMethod (EPath [(id_self, [])]) id_as_str [] []).

(* oct/src/sized_str/conv.rs:279 *)
Definition src_Deref_SizedStr_N : impl :=
  Impl [] [id_N] [] (Some [(id_Deref, [])]) (YPath [(id_SizedStr, [(YPath [(id_N, [])])])])
    [] [(id_Target, (YPath [(id_str, [])]))] [src_Deref_SizedStr_N_deref].

(* oct/src/sized_str/conv.rs:290 *)
Definition src_DerefMut_SizedStr_N_deref_mut : fn := Fn id_deref_mut [] [((PVar id_self), (YPath [(id_Self, [])]))] (YRef true (YPath [(id_Self, []); (id_Target, [])]))
    (EMethod (EPath [(id_self, [])]) id_as_mut_str [] []).

(* oct/src/sized_str/conv.rs:288 *)
Definition src_DerefMut_SizedStr_N : impl :=
  Impl [] [id_N] [] (Some [(id_DerefMut, [])]) (YPath [(id_SizedStr, [(YPath [(id_N, [])])])])
    [] [] [src_DerefMut_SizedStr_N_deref_mut].

(* oct/src/sized_str/conv.rs:299 *)
Definition src_FromStr_SizedStr_N_from_str : fn := Fn id_from_str [] [((PVar id_s), (YRef false (YPath [(id_str, [])])))] (YPath [(id_Result, [(YPath [(id_Self, [])]); (YPath [(id_Self, []); (id_Err, [])])])])
    (ESeq (EIf (EBin OGt (EMethod (EPath [(id_s, [])]) id_len [] []) (EPath [(id_N, [])])) (EReturn (ECall (EPath [(id_Err, [])]) [(ECall (EPath [(id_StringError, []); (id_SmallBuffer, [])]) [(ERec [(id_LengthError, [])] [(id_capacity, (EPath [(id_N, [])])); (id_len, (EMethod (EPath [(id_s, [])]) id_len [] []))])])])) EUnit) (ELet (PVar id_this) None (Some (ECall (EPath [(id_Self, []); (id_from_utf8_unchecked, [])]) [(EMethod (EPath [(id_s, [])]) id_as_bytes [] [])])) None
      (ECall (EPath [(id_Ok, [])]) [(EPath [(id_this, [])])]))).

(* oct/src/sized_str/conv.rs:295 *)
Definition src_FromStr_SizedStr_N : impl :=
  Impl [] [id_N] [] (Some [(id_FromStr, [])]) (YPath [(id_SizedStr, [(YPath [(id_N, [])])])])
    [] [(id_Err, (YPath [(id_StringError, [])]))] [src_FromStr_SizedStr_N_from_str].

(* oct/src/sized_str/conv.rs:313 *)
Definition src_ToSocketAddrs_SizedStr_N_to_socket_addrs : fn := Fn id_to_socket_addrs [] [((PVar id_self), (YPath [(id_Self, [])]))] (YPath [(id_std, []); (id_io, []); (id_Result, [(YPath [(id_Self, []); (id_Iter, [])])])])
    (EMethod (EMethod (EPath [(id_self, [])]) id_as_str [] []) id_to_socket_addrs [] []).

(* oct/src/sized_str/conv.rs:309 *)
Definition src_ToSocketAddrs_SizedStr_N : impl :=
  Impl [] [id_N] [] (Some [(id_ToSocketAddrs, [])]) (YPath [(id_SizedStr, [(YPath [(id_N, [])])])])
    [] [(id_Iter, (YQual (YPath [(id_str, [])]) [(id_ToSocketAddrs, [])] [(id_Iter, [])]))] [src_ToSocketAddrs_SizedStr_N_to_socket_addrs].

(* oct/src/sized_str/conv.rs:322 *)
Definition src_TryFrom_char_SizedStr_N_try_from : fn := Fn id_try_from [] [((PVar id_value), (YPath [(id_char, [])]))] (YPath [(id_Result, [(YPath [(id_Self, [])]); (YPath [(id_Self, []); (id_Error, [])])])])
    (ELet (PVar id_buf) None (Some (ERepeat (EInt (0)%Z None) (EInt (4)%Z None))) None
      (ELet (PVar id_s) None (Some (EMethod (EPath [(id_value, [])]) id_encode_utf8 [] [(ERef (EPath [(id_buf, [])]))])) None
      (EMethod (EPath [(id_s, [])]) id_parse [] []))).

(* oct/src/sized_str/conv.rs:318 *)
Definition src_TryFrom_char_SizedStr_N : impl :=
  Impl [] [id_N] [] (Some [(id_TryFrom, [(YPath [(id_char, [])])])]) (YPath [(id_SizedStr, [(YPath [(id_N, [])])])])
    [] [(id_Error, (YQual (YPath [(id_Self, [])]) [(id_FromStr, [])] [(id_Err, [])]))] [src_TryFrom_char_SizedStr_N_try_from].

(* oct/src/sized_str/conv.rs:334 *)
Definition src_TryFrom_ref_SizedStr_N_try_from : fn := Fn id_try_from [] [((PVar id_value), (YRef false (YPath [(id_str, [])])))] (YPath [(id_Result, [(YPath [(id_Self, [])]); (YPath [(id_Self, []); (id_Error, [])])])])
    (ECall (EPath [(id_Self, []); (id_from_str, [])]) [(EPath [(id_value, [])])]).

(* oct/src/sized_str/conv.rs:330 *)
Definition src_TryFrom_ref_SizedStr_N : impl :=
  Impl [] [id_N] [] (Some [(id_TryFrom, [(YRef false (YPath [(id_str, [])]))])]) (YPath [(id_SizedStr, [(YPath [(id_N, [])])])])
    [] [(id_Error, (YQual (YPath [(id_Self, [])]) [(id_FromStr, [])] [(id_Err, [])]))] [src_TryFrom_ref_SizedStr_N_try_from].

(* oct/src/sized_str/conv.rs:345 *)
Definition src_TryFrom_String_SizedStr_N_try_from : fn := Fn id_try_from [] [((PVar id_value), (YPath [(id_String, [])]))] (YPath [(id_Result, [(YPath [(id_Self, [])]); (YPath [(id_Self, []); (id_Error, [])])])])
    (ECall (EPath [(id_Self, []); (id_from_str, [])]) [(ERef (EPath [(id_value, [])]))]).

(* oct/src/sized_str/conv.rs:341 *)
Definition src_TryFrom_String_SizedStr_N : impl :=
  Impl [] [id_N] [] (Some [(id_TryFrom, [(YPath [(id_String, [])])])]) (YPath [(id_SizedStr, [(YPath [(id_N, [])])])])
    [] [(id_Error, (YQual (YPath [(id_Self, [])]) [(id_FromStr, [])] [(id_Err, [])]))] [src_TryFrom_String_SizedStr_N_try_from].

(* oct/src/sized_str/conv.rs:355 *)
Definition src_From_SizedStr_N_Box_str_from : fn := Fn id_from [] [((PVar id_value), (YPath [(id_SizedStr, [(YPath [(id_N, [])])])]))] (YPath [(id_Self, [])])
    (EMethod (EPath [(id_value, [])]) id_into_boxed_str [] []).

(* oct/src/sized_str/conv.rs:353 *)
Definition src_From_SizedStr_N_Box_str : impl :=
  Impl [] [id_N] [] (Some [(id_From, [(YPath [(id_SizedStr, [(YPath [(id_N, [])])])])])]) (YPath [(id_Box, [(YPath [(id_str, [])])])])
    [] [] [src_From_SizedStr_N_Box_str_from].

(* oct/src/sized_str/conv.rs:365 *)
Definition src_From_SizedStr_N_String_from : fn := Fn id_from [] [((PVar id_value), (YPath [(id_SizedStr, [(YPath [(id_N, [])])])]))] (YPath [(id_Self, [])])
    (EMethod (EPath [(id_value, [])]) id_into_string [] []).

(* oct/src/sized_str/conv.rs:363 *)
Definition src_From_SizedStr_N_String : impl :=
  Impl [] [id_N] [] (Some [(id_From, [(YPath [(id_SizedStr, [(YPath [(id_N, [])])])])])]) (YPath [(id_String, [])])
    [] [] [src_From_SizedStr_N_String_from].

(* oct/src/sized_str/cmp.rs:31 *)
Definition src_Ord_SizedStr_N_cmp : fn := Fn id_cmp [] [((PVar id_self), (YPath [(id_Self, [])])); ((PVar id_other), (YRef false (YPath [(id_Self, [])])))] (YPath [(id_Ordering, [])])
    (EMethod (EMethod (EPath [(id_self, [])]) id_as_str [] []) id_cmp [] [(EMethod (EPath [(id_other, [])]) id_as_str [] [])]).

(* oct/src/sized_str/cmp.rs:29 *)
Definition src_Ord_SizedStr_N : impl :=
  Impl [] [id_N] [] (Some [(id_Ord, [])]) (YPath [(id_SizedStr, [(YPath [(id_N, [])])])])
    [] [] [src_Ord_SizedStr_N_cmp].

(* oct/src/sized_str/cmp.rs:38 *)
Definition src_PartialEq_SizedStr_M_SizedStr_N_eq : fn := Fn id_eq [] [((PVar id_self), (YPath [(id_Self, [])])); ((PVar id_other), (YRef false (YPath [(id_SizedStr, [(YPath [(id_M, [])])])])))] (YPath [(id_bool, [])])
    (EBin OEq (EMethod (EPath [(id_self, [])]) id_as_str [] []) (EMethod (EPath [(id_other, [])]) id_as_str [] [])).

(* oct/src/sized_str/cmp.rs:36 *)
Definition src_PartialEq_SizedStr_M_SizedStr_N : impl :=
  Impl [] [id_N; id_M] [] (Some [(id_PartialEq, [(YPath [(id_SizedStr, [(YPath [(id_M, [])])])])])]) (YPath [(id_SizedStr, [(YPath [(id_N, [])])])])
    [] [] [src_PartialEq_SizedStr_M_SizedStr_N_eq].

(* oct/src/sized_str/cmp.rs:45 *)
Definition src_PartialEq_ref_SizedStr_N_eq : fn := Fn id_eq [] [((PVar id_self), (YPath [(id_Self, [])])); ((PVar id_other), (YRef false (YRef false (YPath [(id_str, [])]))))] (YPath [(id_bool, [])])
    (EBin OEq (EMethod (EPath [(id_self, [])]) id_as_str [] []) (EDeref (EPath [(id_other, [])]))).

(* oct/src/sized_str/cmp.rs:43 *)
Definition src_PartialEq_ref_SizedStr_N : impl :=
  Impl [] [id_N] [] (Some [(id_PartialEq, [(YRef false (YPath [(id_str, [])]))])]) (YPath [(id_SizedStr, [(YPath [(id_N, [])])])])
    [] [] [src_PartialEq_ref_SizedStr_N_eq].

(* oct/src/sized_str/cmp.rs:54 *)
Definition src_PartialEq_String_SizedStr_N_eq : fn := Fn id_eq [] [((PVar id_self), (YPath [(id_Self, [])])); ((PVar id_other), (YRef false (YPath [(id_String, [])])))] (YPath [(id_bool, [])])
    (EBin OEq (EMethod (EPath [(id_self, [])]) id_as_str [] []) (EMethod (EPath [(id_other, [])]) id_as_str [] [])).

(* oct/src/sized_str/cmp.rs:52 *)
Definition src_PartialEq_String_SizedStr_N : impl :=
  Impl [] [id_N] [] (Some [(id_PartialEq, [(YPath [(id_String, [])])])]) (YPath [(id_SizedStr, [(YPath [(id_N, [])])])])
    [] [] [src_PartialEq_String_SizedStr_N_eq].

(* oct/src/sized_str/cmp.rs:61 *)
Definition src_PartialOrd_SizedStr_M_SizedStr_N_partial_cmp : fn := Fn id_partial_cmp [] [((PVar id_self), (YPath [(id_Self, [])])); ((PVar id_other), (YRef false (YPath [(id_SizedStr, [(YPath [(id_M, [])])])])))] (YPath [(id_Option, [(YPath [(id_Ordering, [])])])])
    (EMethod (EMethod (EPath [(id_self, [])]) id_as_str [] []) id_partial_cmp [] [(EMethod (EPath [(id_other, [])]) id_as_str [] [])]).

(* oct/src/sized_str/cmp.rs:59 *)
Definition src_PartialOrd_SizedStr_M_SizedStr_N : impl :=
  Impl [] [id_N; id_M] [] (Some [(id_PartialOrd, [(YPath [(id_SizedStr, [(YPath [(id_M, [])])])])])]) (YPath [(id_SizedStr, [(YPath [(id_N, [])])])])
    [] [] [src_PartialOrd_SizedStr_M_SizedStr_N_partial_cmp].

(* oct/src/sized_str/cmp.rs:68 *)
Definition src_PartialOrd_ref_SizedStr_N_partial_cmp : fn := Fn id_partial_cmp [] [((PVar id_self), (YPath [(id_Self, [])])); ((PVar id_other), (YRef false (YRef false (YPath [(id_str, [])]))))] (YPath [(id_Option, [(YPath [(id_Ordering, [])])])])
    (EMethod (EMethod (EPath [(id_self, [])]) id_as_str [] []) id_partial_cmp [] [(EDeref (EPath [(id_other, [])]))]).

(* oct/src/sized_str/cmp.rs:66 *)
Definition src_PartialOrd_ref_SizedStr_N : impl :=
  Impl [] [id_N] [] (Some [(id_PartialOrd, [(YRef false (YPath [(id_str, [])]))])]) (YPath [(id_SizedStr, [(YPath [(id_N, [])])])])
    [] [] [src_PartialOrd_ref_SizedStr_N_partial_cmp].

(* oct/src/sized_str/cmp.rs:77 *)
Definition src_PartialOrd_String_SizedStr_N_partial_cmp : fn := Fn id_partial_cmp [] [((PVar id_self), (YPath [(id_Self, [])])); ((PVar id_other), (YRef false (YPath [(id_String, [])])))] (YPath [(id_Option, [(YPath [(id_Ordering, [])])])])
    (EMethod (EMethod (EPath [(id_self, [])]) id_as_str [] []) id_partial_cmp [] [(EMethod (EPath [(id_other, [])]) id_as_str [] [])]).

(* oct/src/sized_str/cmp.rs:75 *)
Definition src_PartialOrd_String_SizedStr_N : impl :=
  Impl [] [id_N] [] (Some [(id_PartialOrd, [(YPath [(id_String, [])])])]) (YPath [(id_SizedStr, [(YPath [(id_N, [])])])])
    [] [] [src_PartialOrd_String_SizedStr_N_partial_cmp].

(* all of them, in the order of the files *)
Definition src_sizedstr_impls : list impl := [src_impl_SizedStr_N; src_Debug_SizedStr_N; src_Display_SizedStr_N; src_Eq_SizedStr_N; src_FromIterator_char_SizedStr_N; src_Hash_SizedStr_N; src_Index_I_SizedStr_N; src_IndexMut_I_SizedStr_N; src_impl_SizedStr_N_2; src_AsMut_str_SizedStr_N; src_AsRef_OsStr_SizedStr_N; src_AsRef_Path_SizedStr_N; src_AsRef_str_SizedStr_N; src_AsRef_slice_SizedStr_N; src_Borrow_str_SizedStr_N; src_BorrowMut_str_SizedStr_N; src_Deref_SizedStr_N; src_DerefMut_SizedStr_N; src_FromStr_SizedStr_N; src_ToSocketAddrs_SizedStr_N; src_TryFrom_char_SizedStr_N; src_TryFrom_ref_SizedStr_N; src_TryFrom_String_SizedStr_N; src_From_SizedStr_N_Box_str; src_From_SizedStr_N_String; src_Ord_SizedStr_N; src_PartialEq_SizedStr_M_SizedStr_N; src_PartialEq_ref_SizedStr_N; src_PartialEq_String_SizedStr_N; src_PartialOrd_SizedStr_M_SizedStr_N; src_PartialOrd_ref_SizedStr_N; src_PartialOrd_String_SizedStr_N].
