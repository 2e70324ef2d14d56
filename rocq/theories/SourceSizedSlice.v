(* Generated by tools/rust2v.py from oct/src/sized_slice/mod.rs, oct/src/sized_slice/conv.rs, oct/src/sized_slice/iter.rs, oct/src/sized_slice/cmp.rs. Do not edit. *)
From Coq Require Import String.
From Verif Require Import Base SourceNames SourceSyntax.
Local Open Scope list_scope.

(* oct/src/sized_slice/mod.rs:81 *)
Definition src_impl_SizedSlice_T_N_copy_from_slice : fn := Fn id_copy_from_slice [] [((PVar id_self), (YPath [(id_Self, [])])); ((PVar id_data), (YRef false (YSlice (YPath [(id_T, [])]))))] (YTup [])
    (ELet (PVar id_src) None (Some (EMethod (EPath [(id_data, [])]) id_as_ptr [] [])) None
      (ELet (PVar id_dst) None (Some (EMethod (EMethod (EField (EPath [(id_self, [])]) id_buf) id_as_mut_ptr [] []) id_cast [] [])) None
      (ELet (PVar id_count) None (Some (EMethod (EPath [(id_data, [])]) id_len [] [])) None
      (ESeq (ECall (EPath [(id_copy_nonoverlapping, [])]) [(EPath [(id_src, [])]); (EPath [(id_dst, [])]); (EPath [(id_count, [])])]) (ESeq (EMethod (EPath [(id_self, [])]) id_set_len [] [(EPath [(id_count, [])])]) EUnit))))).

(* oct/src/sized_slice/mod.rs:99, a loop in it *)
Definition src_impl_SizedSlice_T_N_each_ref_loop0 : expr :=
    (EBin OLt (EPath [(id_i, [])]) (EPath [(id_len, [])])).

(* oct/src/sized_slice/mod.rs:99, a loop in it *)
Definition src_impl_SizedSlice_T_N_each_ref_loop1 : expr :=
    (ESeq (ELet (PVar id_item) None (Some (EMethod (EMethod (EPath [(id_buf, [])]) id_as_mut_ptr [] []) id_add [] [(EPath [(id_i, [])])])) None
      (ELet (PVar id_value) None (Some (EMethod (EMethod (EMethod (EPath [(id_self, [])]) id_as_ptr [] []) id_add [] [(EPath [(id_i, [])])]) id_cast [] [])) None
      (ESeq (EMethod (EPath [(id_item, [])]) id_write [] [(EPath [(id_value, [])])]) EUnit))) (ESeq (EAssign (Some OAdd) (EPath [(id_i, [])]) (EInt (1)%Z None)) EUnit)).

(* oct/src/sized_slice/mod.rs:99 *)
Definition src_impl_SizedSlice_T_N_each_ref : fn := Fn id_each_ref [] [((PVar id_self), (YPath [(id_Self, [])]))] (YPath [(id_SizedSlice, [(YRef false (YPath [(id_T, [])])); (YPath [(id_N, [])])])])
    (ELet (PVar id_buf) None (Some (ERepeat (ECall (EPath [(id_null, [(YPath [(id_T, [])])])]) []) (EPath [(id_N, [])]))) None
      (ELet (PVar id_len) None (Some (EField (EPath [(id_self, [])]) id_len)) None
      (ELet (PVar id_i) None (Some (EInt (0)%Z None)) None
      (ESeq (EWhile src_impl_SizedSlice_T_N_each_ref_loop0 src_impl_SizedSlice_T_N_each_ref_loop1) (ELet (PVar id_buf) None (Some (EMethod (EMethod (ERaw (EPath [(id_buf, [])])) id_cast [(YArr (YPath [(id_MaybeUninit, [(YRef false (YPath [(id_T, [])]))])]) (YPath [(id_N, [])]))] []) id_read [] [])) None
      (ECall (EPath [(id_SizedSlice, []); (id_from_raw_parts, [])]) [(EPath [(id_buf, [])]); (EPath [(id_len, [])])])))))).

(* oct/src/sized_slice/mod.rs:125, a loop in it *)
Definition src_impl_SizedSlice_T_N_each_mut_loop0 : expr :=
    (EBin OLt (EPath [(id_i, [])]) (EPath [(id_len, [])])).

(* oct/src/sized_slice/mod.rs:125, a loop in it *)
Definition src_impl_SizedSlice_T_N_each_mut_loop1 : expr :=
    (ESeq (ELet (PVar id_item) None (Some (EMethod (EMethod (EPath [(id_buf, [])]) id_as_mut_ptr [] []) id_add [] [(EPath [(id_i, [])])])) None
      (ELet (PVar id_value) None (Some (EMethod (EMethod (EMethod (EPath [(id_self, [])]) id_as_mut_ptr [] []) id_add [] [(EPath [(id_i, [])])]) id_cast [] [])) None
      (ESeq (EMethod (EPath [(id_item, [])]) id_write [] [(EPath [(id_value, [])])]) EUnit))) (ESeq (EAssign (Some OAdd) (EPath [(id_i, [])]) (EInt (1)%Z None)) EUnit)).

(* oct/src/sized_slice/mod.rs:125 *)
Definition src_impl_SizedSlice_T_N_each_mut : fn := Fn id_each_mut [] [((PVar id_self), (YPath [(id_Self, [])]))] (YPath [(id_SizedSlice, [(YRef true (YPath [(id_T, [])])); (YPath [(id_N, [])])])])
    (ELet (PVar id_buf) None (Some (ERepeat (ECall (EPath [(id_null_mut, [(YPath [(id_T, [])])])]) []) (EPath [(id_N, [])]))) None
      (ELet (PVar id_len) None (Some (EField (EPath [(id_self, [])]) id_len)) None
      (ELet (PVar id_i) None (Some (EInt (0)%Z None)) None
      (ESeq (EWhile src_impl_SizedSlice_T_N_each_mut_loop0 src_impl_SizedSlice_T_N_each_mut_loop1) (ELet (PVar id_buf) None (Some (EMethod (EMethod (ERaw (EPath [(id_buf, [])])) id_cast [(YArr (YPath [(id_MaybeUninit, [(YRef true (YPath [(id_T, [])]))])]) (YPath [(id_N, [])]))] []) id_read [] [])) None
      (ECall (EPath [(id_SizedSlice, []); (id_from_raw_parts, [])]) [(EPath [(id_buf, [])]); (EPath [(id_len, [])])])))))).

(* oct/src/sized_slice/mod.rs:160 *)
Definition src_impl_SizedSlice_T_N_set_len : fn := Fn id_set_len [] [((PVar id_self), (YPath [(id_Self, [])])); ((PVar id_len), (YPath [(id_usize, [])]))] (YTup [])
    (ESeq (EMacro id_debug_assert [(EBin OLe (EPath [(id_len, [])]) (EPath [(id_N, [])])); (EStr (txt "cannot set length past bounds"))]) (EAssign None (EField (EPath [(id_self, [])]) id_len) (EPath [(id_len, [])]))).

(* oct/src/sized_slice/mod.rs:171 *)
Definition src_impl_SizedSlice_T_N_capacity : fn := Fn id_capacity [] [((PVar id_self), (YPath [(id_Self, [])]))] (YPath [(id_usize, [])])
    (EPath [(id_N, [])]).

(* oct/src/sized_slice/mod.rs:180 *)
Definition src_impl_SizedSlice_T_N_len : fn := Fn id_len [] [((PVar id_self), (YPath [(id_Self, [])]))] (YPath [(id_usize, [])])
    (EField (EPath [(id_self, [])]) id_len).

(* oct/src/sized_slice/mod.rs:189 *)
Definition src_impl_SizedSlice_T_N_is_empty : fn := Fn id_is_empty [] [((PVar id_self), (YPath [(id_Self, [])]))] (YPath [(id_bool, [])])
    (EBin OEq (EMethod (EPath [(id_self, [])]) id_len [] []) (EInt (0)%Z None)).

(* oct/src/sized_slice/mod.rs:196 *)
Definition src_impl_SizedSlice_T_N_is_full : fn := Fn id_is_full [] [((PVar id_self), (YPath [(id_Self, [])]))] (YPath [(id_bool, [])])
    (EBin OEq (EMethod (EPath [(id_self, [])]) id_len [] []) (EMethod (EPath [(id_self, [])]) id_capacity [] [])).

(* oct/src/sized_slice/mod.rs:78 *)
Definition src_impl_SizedSlice_T_N : impl :=
  Impl [id_T] [id_N] [] None (YPath [(id_SizedSlice, [(YPath [(id_T, [])]); (YPath [(id_N, [])])])])
    [] [] [src_impl_SizedSlice_T_N_copy_from_slice; src_impl_SizedSlice_T_N_each_ref; src_impl_SizedSlice_T_N_each_mut; src_impl_SizedSlice_T_N_set_len; src_impl_SizedSlice_T_N_capacity; src_impl_SizedSlice_T_N_len; src_impl_SizedSlice_T_N_is_empty; src_impl_SizedSlice_T_N_is_full].

(* oct/src/sized_slice/mod.rs:204, a loop in it *)
Definition src_impl_SizedSlice_T_N_2_new_loop0 : expr :=
    (ESeq (EMethod (EPath [(id_item, [])]) id_write [] [(EMethod (EPath [(id_value, [])]) id_clone [] [])]) EUnit).

(* oct/src/sized_slice/mod.rs:204 *)
Definition src_impl_SizedSlice_T_N_2_new : fn := Fn id_new [] [((PVar id_data), (YRef false (YSlice (YPath [(id_T, [])]))))] (YPath [(id_Result, [(YPath [(id_Self, [])]); (YPath [(id_LengthError, [])])])])
    (ELet (PVar id_buf) None (Some (ERepeat (ECall (EPath [(id_MaybeUninit, [(YPath [(id_T, [])])]); (id_uninit, [])]) []) (EPath [(id_N, [])]))) None
      (ELet (PVar id_len) None (Some (EMethod (EPath [(id_data, [])]) id_len [] [])) None
      (ESeq (EIf (EBin OGt (EPath [(id_len, [])]) (EPath [(id_N, [])])) (EReturn (ECall (EPath [(id_Err, [])]) [(ERec [(id_LengthError, [])] [(id_capacity, (EPath [(id_N, [])])); (id_len, (EPath [(id_len, [])]))])])) EUnit) (ESeq (EFor (PTup [(PVar id_item); (PVar id_value)]) (EMethod (EMethod (EPath [(id_buf, [])]) id_iter_mut [] []) id_zip [] [(EMethod (EPath [(id_data, [])]) id_iter [] [])]) src_impl_SizedSlice_T_N_2_new_loop0) (ECall (EPath [(id_Ok, [])]) [(ERec [(id_Self, [])] [(id_buf, (EPath [(id_buf, [])])); (id_len, (EPath [(id_len, [])]))])]))))).

(* oct/src/sized_slice/mod.rs:201 *)
Definition src_impl_SizedSlice_T_N_2 : impl :=
  Impl [id_T] [id_N] [((YPath [(id_T, [])]), [(id_Clone, [])])] None (YPath [(id_SizedSlice, [(YPath [(id_T, [])]); (YPath [(id_N, [])])])])
    [] [] [src_impl_SizedSlice_T_N_2_new].

(* oct/src/sized_slice/mod.rs:220, a loop in it *)
Definition src_Clone_SizedSlice_T_N_clone_loop0 : expr :=
    (ELet (PVar id_value) None (Some (EMethod (EMethod (EPath [(id_self, [])]) id_get_unchecked [] [(EPath [(id_i, [])])]) id_clone [] [])) None
      (ESeq (EMethod (EMethod (EPath [(id_buf, [])]) id_get_unchecked_mut [] [(EPath [(id_i, [])])]) id_write [] [(EPath [(id_value, [])])]) EUnit)).

(* oct/src/sized_slice/mod.rs:220 *)
Definition src_Clone_SizedSlice_T_N_clone : fn := Fn id_clone [] [((PVar id_self), (YPath [(id_Self, [])]))] (YPath [(id_Self, [])])
    (ELet (PVar id_buf) (Some (YArr (YPath [(id_MaybeUninit, [(YPath [(id_T, [])])])]) (YPath [(id_N, [])]))) (Some (EMethod (ECall (EPath [(id_MaybeUninit, []); (id_uninit, [])]) []) id_assume_init [] [])) None
      (ESeq (EFor (PVar id_i) (ERange (Some (EInt (0)%Z None)) (Some (EMethod (EPath [(id_self, [])]) id_len [] [])) false) src_Clone_SizedSlice_T_N_clone_loop0) (ERec [(id_Self, [])] [(id_buf, (EPath [(id_buf, [])])); (id_len, (EField (EPath [(id_self, [])]) id_len))]))).

(* oct/src/sized_slice/mod.rs:218 *)
Definition src_Clone_SizedSlice_T_N : impl :=
  Impl [id_T] [id_N] [((YPath [(id_T, [])]), [(id_Clone, [])])] (Some [(id_Clone, [])]) (YPath [(id_SizedSlice, [(YPath [(id_T, [])]); (YPath [(id_N, [])])])])
    [] [] [src_Clone_SizedSlice_T_N_clone].

(* oct/src/sized_slice/mod.rs:236 *)
Definition src_Debug_SizedSlice_T_N_fmt : fn := Fn id_fmt [] [((PVar id_self), (YPath [(id_Self, [])])); ((PVar id_f), (YRef true (YPath [(id_Formatter, [])])))] (YPath [(id_fmt, []); (id_Result, [])])
    (ECall (EPath [(id_Debug, []); (id_fmt, [])]) [(EMethod (EPath [(id_self, [])]) id_as_slice [] []); (EPath [(id_f, [])])]).

(* oct/src/sized_slice/mod.rs:234 *)
Definition src_Debug_SizedSlice_T_N : impl :=
  Impl [id_T] [id_N] [((YPath [(id_T, [])]), [(id_Debug, [])])] (Some [(id_Debug, [])]) (YPath [(id_SizedSlice, [(YPath [(id_T, [])]); (YPath [(id_N, [])])])])
    [] [] [src_Debug_SizedSlice_T_N_fmt].

(* oct/src/sized_slice/mod.rs:243 *)
Definition src_Default_SizedSlice_T_N_default : fn := Fn id_default [] [] (YPath [(id_Self, [])])
    (ELet (PVar id_buf) None (Some (EMethod (ECall (EPath [(id_MaybeUninit, []); (id_uninit, [])]) []) id_assume_init [] [])) None
      (ECall (EPath [(id_Self, []); (id_from_raw_parts, [])]) [(EPath [(id_buf, [])]); (EInt (0)%Z None)])).

(* oct/src/sized_slice/mod.rs:241 *)
Definition src_Default_SizedSlice_T_N : impl :=
  Impl [id_T] [id_N] [] (Some [(id_Default, [])]) (YPath [(id_SizedSlice, [(YPath [(id_T, [])]); (YPath [(id_N, [])])])])
    [] [] [src_Default_SizedSlice_T_N_default].

(* oct/src/sized_slice/mod.rs:256, a loop in it *)
Definition src_Hash_SizedSlice_T_N_hash_loop0 : expr :=
    (ESeq (EMethod (EPath [(id_v, [])]) id_hash [] [(EPath [(id_state, [])])]) EUnit).

(* oct/src/sized_slice/mod.rs:256 *)
Definition src_Hash_SizedSlice_T_N_hash : fn := Fn id_hash [id_H] [((PVar id_self), (YPath [(id_Self, [])])); ((PVar id_state), (YRef true (YPath [(id_H, [])])))] (YTup [])
    (EFor (PVar id_v) (EPath [(id_self, [])]) src_Hash_SizedSlice_T_N_hash_loop0).

(* oct/src/sized_slice/mod.rs:254 *)
Definition src_Hash_SizedSlice_T_N : impl :=
  Impl [id_T] [id_N] [((YPath [(id_T, [])]), [(id_Hash, [])])] (Some [(id_Hash, [])]) (YPath [(id_SizedSlice, [(YPath [(id_T, [])]); (YPath [(id_N, [])])])])
    [] [] [src_Hash_SizedSlice_T_N_hash].

(* oct/src/sized_slice/mod.rs:267 *)
Definition src_Index_I_SizedSlice_T_N_index : fn := Fn id_index [] [((PVar id_self), (YPath [(id_Self, [])])); ((PVar id_index), (YPath [(id_I, [])]))] (YRef false (YPath [(id_Self, []); (id_Output, [])]))
    (EMethod (EMethod (EPath [(id_self, [])]) id_get [] [(EPath [(id_index, [])])]) id_unwrap [] []).

(* oct/src/sized_slice/mod.rs:263 *)
Definition src_Index_I_SizedSlice_T_N : impl :=
  Impl [id_T; id_I] [id_N] [((YPath [(id_I, [])]), [(id_SliceIndex, [(YSlice (YPath [(id_T, [])]))])])] (Some [(id_Index, [(YPath [(id_I, [])])])]) (YPath [(id_SizedSlice, [(YPath [(id_T, [])]); (YPath [(id_N, [])])])])
    [] [(id_Output, (YPath [(id_I, []); (id_Output, [])]))] [src_Index_I_SizedSlice_T_N_index].

(* oct/src/sized_slice/mod.rs:274 *)
Definition src_IndexMut_I_SizedSlice_T_N_index_mut : fn := Fn id_index_mut [] [((PVar id_self), (YPath [(id_Self, [])])); ((PVar id_index), (YPath [(id_I, [])]))] (YRef true (YPath [(id_Self, []); (id_Output, [])]))
    (EMethod (EMethod (EPath [(id_self, [])]) id_get_mut [] [(EPath [(id_index, [])])]) id_unwrap [] []).

(* oct/src/sized_slice/mod.rs:272 *)
Definition src_IndexMut_I_SizedSlice_T_N : impl :=
  Impl [id_T; id_I] [id_N] [((YPath [(id_I, [])]), [(id_SliceIndex, [(YSlice (YPath [(id_T, [])]))])])] (Some [(id_IndexMut, [(YPath [(id_I, [])])])]) (YPath [(id_SizedSlice, [(YPath [(id_T, [])]); (YPath [(id_N, [])])])])
    [] [] [src_IndexMut_I_SizedSlice_T_N_index_mut].

(* oct/src/sized_slice/conv.rs:53 *)
Definition src_impl_SizedSlice_T_N_3_from_raw_parts : fn := Fn id_from_raw_parts [] [((PVar id_buf), (YArr (YPath [(id_MaybeUninit, [(YPath [(id_T, [])])])]) (YPath [(id_N, [])]))); ((PVar id_len), (YPath [(id_usize, [])]))] (YPath [(id_Self, [])])
    (ESeq (EMacro id_debug_assert [(EBin OLe (EPath [(id_len, [])]) (EPath [(id_N, [])])); (EStr (txt "cannot construct vector longer than its capacity"))]) (ERec [(id_Self, [])] [(id_buf, (EPath [(id_buf, [])])); (id_len, (EPath [(id_len, [])]))])).

(* oct/src/sized_slice/conv.rs:65 *)
Definition src_impl_SizedSlice_T_N_3_as_ptr : fn := Fn id_as_ptr [] [((PVar id_self), (YPath [(id_Self, [])]))] (YPtr false (YPath [(id_T, [])]))
    (EMethod (EMethod (EField (EPath [(id_self, [])]) id_buf) id_as_ptr [] []) id_cast [] []).

(* oct/src/sized_slice/conv.rs:75 *)
Definition src_impl_SizedSlice_T_N_3_as_mut_ptr : fn := Fn id_as_mut_ptr [] [((PVar id_self), (YPath [(id_Self, [])]))] (YPtr true (YPath [(id_T, [])]))
    (EMethod (EMethod (EField (EPath [(id_self, [])]) id_buf) id_as_mut_ptr [] []) id_cast [] []).

(* oct/src/sized_slice/conv.rs:84 *)
Definition src_impl_SizedSlice_T_N_3_as_slice : fn := Fn id_as_slice [] [((PVar id_self), (YPath [(id_Self, [])]))] (YRef false (YSlice (YPath [(id_T, [])])))
    (ELet (PVar id_ptr) None (Some (EMethod (EPath [(id_self, [])]) id_as_ptr [] [])) None
      (ELet (PVar id_len) None (Some (EMethod (EPath [(id_self, [])]) id_len [] [])) None
      (ECall (EPath [(id_slice, []); (id_from_raw_parts, [])]) [(EPath [(id_ptr, [])]); (EPath [(id_len, [])])]))).

(* oct/src/sized_slice/conv.rs:96 *)
Definition src_impl_SizedSlice_T_N_3_as_mut_slice : fn := Fn id_as_mut_slice [] [((PVar id_self), (YPath [(id_Self, [])]))] (YRef true (YSlice (YPath [(id_T, [])])))
    (ELet (PVar id_ptr) None (Some (EMethod (EPath [(id_self, [])]) id_as_mut_ptr [] [])) None
      (ELet (PVar id_len) None (Some (EMethod (EPath [(id_self, [])]) id_len [] [])) None
      (ECall (EPath [(id_slice, []); (id_from_raw_parts_mut, [])]) [(EPath [(id_ptr, [])]); (EPath [(id_len, [])])]))).

(* oct/src/sized_slice/conv.rs:108 *)
Definition src_impl_SizedSlice_T_N_3_into_raw_parts : fn := Fn id_into_raw_parts [] [((PVar id_self), (YPath [(id_Self, [])]))] (YTup [(YArr (YPath [(id_MaybeUninit, [(YPath [(id_T, [])])])]) (YPath [(id_N, [])])); (YPath [(id_usize, [])])])
    (ELet (PRec [(id_Self, [])] [(id_buf, (PVar id_buf)); (id_len, (PVar id_len))]) None (Some (EPath [(id_self, [])])) None
      (ETuple [(EPath [(id_buf, [])]); (EPath [(id_len, [])])])).

(* oct/src/sized_slice/conv.rs:119 *)
Definition src_impl_SizedSlice_T_N_3_into_boxed_slice : fn := Fn id_into_boxed_slice [] [((PVar id_self), (YPath [(id_Self, [])]))] (YPath [(id_Box, [(YSlice (YPath [(id_T, [])]))])])
    (ELet (PTup [(PVar id_buf); (PVar id_len)]) None (Some (EMethod (EPath [(id_self, [])]) id_into_raw_parts [] [])) None
      (ELet (PVar id_layout) None (Some (EMethod (ECall (EPath [(id_Layout, []); (id_array, [(YPath [(id_T, [])])])]) [(EPath [(id_len, [])])]) id_unwrap [] [])) None
      (ELet (PVar id_ptr) None (Some (EMethod (ECall (EPath [(id_alloc, [])]) [(EPath [(id_layout, [])])]) id_cast [(YPath [(id_T, [])])] [])) None
      (ESeq (EMacro id_assert [(ENot (EMethod (EPath [(id_ptr, [])]) id_is_null [] [])); (EStr (txt "allocation failed"))]) (ESeq (ECall (EPath [(id_copy_nonoverlapping, [])]) [(EMethod (EMethod (EPath [(id_buf, [])]) id_as_ptr [] []) id_cast [] []); (EPath [(id_ptr, [])]); (EPath [(id_len, [])])]) (ELet (PVar id_slice) None (Some (ECall (EPath [(id_core, []); (id_ptr, []); (id_slice_from_raw_parts_mut, [])]) [(EPath [(id_ptr, [])]); (EPath [(id_len, [])])])) None
      (ECall (EPath [(id_Box, []); (id_from_raw, [])]) [(EPath [(id_slice, [])])]))))))).

(* oct/src/sized_slice/conv.rs:145 *)
Definition src_impl_SizedSlice_T_N_3_into_vec : fn := Fn id_into_vec [] [((PVar id_self), (YPath [(id_Self, [])]))] (YPath [(id_Vec, [(YPath [(id_T, [])])])])
    (EMethod (EMethod (EPath [(id_self, [])]) id_into_boxed_slice [] []) id_into_vec [] []).

(* oct/src/sized_slice/conv.rs:40 *)
Definition src_impl_SizedSlice_T_N_3 : impl :=
  Impl [id_T] [id_N] [] None (YPath [(id_SizedSlice, [(YPath [(id_T, [])]); (YPath [(id_N, [])])])])
    [] [] [src_impl_SizedSlice_T_N_3_from_raw_parts; src_impl_SizedSlice_T_N_3_as_ptr; src_impl_SizedSlice_T_N_3_as_mut_ptr; src_impl_SizedSlice_T_N_3_as_slice; src_impl_SizedSlice_T_N_3_as_mut_slice; src_impl_SizedSlice_T_N_3_into_raw_parts; src_impl_SizedSlice_T_N_3_into_boxed_slice; src_impl_SizedSlice_T_N_3_into_vec].

(* oct/src/sized_slice/conv.rs:152 *)
Definition src_AsMut_slice_SizedSlice_T_N_as_mut : fn := Fn id_as_mut [] [((PVar id_self), (YPath [(id_Self, [])]))] (YRef true (YSlice (YPath [(id_T, [])])))
    (EMethod (EPath [(id_self, [])]) id_as_mut_slice [] []).

(* oct/src/sized_slice/conv.rs:150 *)
Definition src_AsMut_slice_SizedSlice_T_N : impl :=
  Impl [id_T] [id_N] [] (Some [(id_AsMut, [(YSlice (YPath [(id_T, [])]))])]) (YPath [(id_SizedSlice, [(YPath [(id_T, [])]); (YPath [(id_N, [])])])])
    [] [] [src_AsMut_slice_SizedSlice_T_N_as_mut].

(* oct/src/sized_slice/conv.rs:159 *)
Definition src_AsRef_slice_SizedSlice_T_N_as_ref : fn := Fn id_as_ref [] [((PVar id_self), (YPath [(id_Self, [])]))] (YRef false (YSlice (YPath [(id_T, [])])))
    (EMethod (EPath [(id_self, [])]) id_as_slice [] []).

(* oct/src/sized_slice/conv.rs:157 *)
Definition src_AsRef_slice_SizedSlice_T_N : impl :=
  Impl [id_T] [id_N] [] (Some [(id_AsRef, [(YSlice (YPath [(id_T, [])]))])]) (YPath [(id_SizedSlice, [(YPath [(id_T, [])]); (YPath [(id_N, [])])])])
    [] [] [src_AsRef_slice_SizedSlice_T_N_as_ref].

(* oct/src/sized_slice/conv.rs:166 *)
Definition src_Borrow_slice_SizedSlice_T_N_borrow : fn := Fn id_borrow [] [((PVar id_self), (YPath [(id_Self, [])]))] (YRef false (YSlice (YPath [(id_T, [])])))
    (EMethod (EPath [(id_self, [])]) id_as_slice [] []).

(* oct/src/sized_slice/conv.rs:164 *)
Definition src_Borrow_slice_SizedSlice_T_N : impl :=
  Impl [id_T] [id_N] [] (Some [(id_Borrow, [(YSlice (YPath [(id_T, [])]))])]) (YPath [(id_SizedSlice, [(YPath [(id_T, [])]); (YPath [(id_N, [])])])])
    [] [] [src_Borrow_slice_SizedSlice_T_N_borrow].

(* oct/src/sized_slice/conv.rs:173 *)
Definition src_BorrowMut_slice_SizedSlice_T_N_borrow_mut : fn := Fn id_borrow_mut [] [((PVar id_self), (YPath [(id_Self, [])]))] (YRef true (YSlice (YPath [(id_T, [])])))
    (EMethod (EPath [(id_self, [])]) id_as_mut_slice [] []).

(* oct/src/sized_slice/conv.rs:171 *)
Definition src_BorrowMut_slice_SizedSlice_T_N : impl :=
  Impl [id_T] [id_N] [] (Some [(id_BorrowMut, [(YSlice (YPath [(id_T, [])]))])]) (YPath [(id_SizedSlice, [(YPath [(id_T, [])]); (YPath [(id_N, [])])])])
    [] [] [src_BorrowMut_slice_SizedSlice_T_N_borrow_mut].

(* oct/src/sized_slice/conv.rs:182 *)
Definition src_Deref_SizedSlice_T_N_deref : fn := Fn id_deref [] [((PVar id_self), (YPath [(id_Self, [])]))] (YRef false (YPath [(id_Self, []); (id_Target, [])]))
    (EMethod (EPath [(id_self, [])]) id_as_slice [] []).

(* oct/src/sized_slice/conv.rs:178 *)
Definition src_Deref_SizedSlice_T_N : impl :=
  Impl [id_T] [id_N] [] (Some [(id_Deref, [])]) (YPath [(id_SizedSlice, [(YPath [(id_T, [])]); (YPath [(id_N, [])])])])
    [] [(id_Target, (YSlice (YPath [(id_T, [])])))] [src_Deref_SizedSlice_T_N_deref].

(* oct/src/sized_slice/conv.rs:189 *)
Definition src_DerefMut_SizedSlice_T_N_deref_mut : fn := Fn id_deref_mut [] [((PVar id_self), (YPath [(id_Self, [])]))] (YRef true (YPath [(id_Self, []); (id_Target, [])]))
    (EMethod (EPath [(id_self, [])]) id_as_mut_slice [] []).

(* oct/src/sized_slice/conv.rs:187 *)
Definition src_DerefMut_SizedSlice_T_N : impl :=
  Impl [id_T] [id_N] [] (Some [(id_DerefMut, [])]) (YPath [(id_SizedSlice, [(YPath [(id_T, [])]); (YPath [(id_N, [])])])])
    [] [] [src_DerefMut_SizedSlice_T_N_deref_mut].

(* oct/src/sized_slice/conv.rs:196 *)
Definition src_From_array_SizedSlice_T_N_from : fn := Fn id_from [] [((PVar id_value), (YArr (YPath [(id_T, [])]) (YPath [(id_N, [])])))] (YPath [(id_Self, [])])
    (ELet (PVar id_buf) None (Some (EMethod (EMethod (EMethod (EPath [(id_value, [])]) id_as_ptr [] []) id_cast [(YArr (YPath [(id_MaybeUninit, [(YPath [(id_T, [])])])]) (YPath [(id_N, [])]))] []) id_read [] [])) None
      (ERec [(id_Self, [])] [(id_buf, (EPath [(id_buf, [])])); (id_len, (EPath [(id_N, [])]))])).

(* oct/src/sized_slice/conv.rs:194 *)
Definition src_From_array_SizedSlice_T_N : impl :=
  Impl [id_T] [id_N] [] (Some [(id_From, [(YArr (YPath [(id_T, [])]) (YPath [(id_N, [])]))])]) (YPath [(id_SizedSlice, [(YPath [(id_T, [])]); (YPath [(id_N, [])])])])
    [] [] [src_From_array_SizedSlice_T_N_from].

(* oct/src/sized_slice/conv.rs:209 *)
Definition src_TryFrom_ref_SizedSlice_T_N_try_from : fn := Fn id_try_from [] [((PVar id_value), (YRef false (YSlice (YPath [(id_T, [])]))))] (YPath [(id_Result, [(YPath [(id_Self, [])]); (YPath [(id_Self, []); (id_Error, [])])])])
    (ECall (EPath [(id_Self, []); (id_new, [])]) [(EPath [(id_value, [])])]).

(* oct/src/sized_slice/conv.rs:205 *)
Definition src_TryFrom_ref_SizedSlice_T_N : impl :=
  Impl [id_T] [id_N] [((YPath [(id_T, [])]), [(id_Clone, [])])] (Some [(id_TryFrom, [(YRef false (YSlice (YPath [(id_T, [])])))])]) (YPath [(id_SizedSlice, [(YPath [(id_T, [])]); (YPath [(id_N, [])])])])
    [] [(id_Error, (YPath [(id_LengthError, [])]))] [src_TryFrom_ref_SizedSlice_T_N_try_from].

(* oct/src/sized_slice/conv.rs:218 *)
Definition src_From_SizedSlice_T_N_Box_slice_from : fn := Fn id_from [] [((PVar id_value), (YPath [(id_SizedSlice, [(YPath [(id_T, [])]); (YPath [(id_N, [])])])]))] (YPath [(id_Self, [])])
    (EMethod (EPath [(id_value, [])]) id_into_boxed_slice [] []).

(* oct/src/sized_slice/conv.rs:216 *)
Definition src_From_SizedSlice_T_N_Box_slice : impl :=
  Impl [id_T] [id_N] [] (Some [(id_From, [(YPath [(id_SizedSlice, [(YPath [(id_T, [])]); (YPath [(id_N, [])])])])])]) (YPath [(id_Box, [(YSlice (YPath [(id_T, [])]))])])
    [] [] [src_From_SizedSlice_T_N_Box_slice_from].

(* oct/src/sized_slice/conv.rs:227 *)
Definition src_From_SizedSlice_T_N_Vec_T_from : fn := Fn id_from [] [((PVar id_value), (YPath [(id_SizedSlice, [(YPath [(id_T, [])]); (YPath [(id_N, [])])])]))] (YPath [(id_Self, [])])
    (EMethod (EPath [(id_value, [])]) id_into_vec [] []).

(* oct/src/sized_slice/conv.rs:225 *)
Definition src_From_SizedSlice_T_N_Vec_T : impl :=
  Impl [id_T] [id_N] [] (Some [(id_From, [(YPath [(id_SizedSlice, [(YPath [(id_T, [])]); (YPath [(id_N, [])])])])])]) (YPath [(id_Vec, [(YPath [(id_T, [])])])])
    [] [] [src_From_SizedSlice_T_N_Vec_T_from].

(* oct/src/sized_slice/iter.rs:29, a loop in it *)
Definition src_FromIterator_T_SizedSlice_T_N_from_iter_loop0 : expr :=
    (ELet (PCon [(id_Some, [])] [(PVar id_value)]) None (Some (EMethod (EPath [(id_iter, [])]) id_next [] [])) (Some EBreak)
      (ESeq (EMethod (EPath [(id_item, [])]) id_write [] [(EPath [(id_value, [])])]) (ESeq (EAssign (Some OAdd) (EPath [(id_len, [])]) (EInt (1)%Z None)) EUnit))).

(* oct/src/sized_slice/iter.rs:29 *)
Definition src_FromIterator_T_SizedSlice_T_N_from_iter : fn := Fn id_from_iter [id_I] [((PVar id_iter), (YPath [(id_I, [])]))] (YPath [(id_Self, [])])
    (ELet (PVar id_iter) None (Some (EMethod (EPath [(id_iter, [])]) id_into_iter [] [])) None
      (ELet (PVar id_buf) None (Some (ERepeat (ECall (EPath [(id_MaybeUninit, [(YPath [(id_T, [])])]); (id_uninit, [])]) []) (EPath [(id_N, [])]))) None
      (ELet (PVar id_len) None (Some (EInt (0)%Z None)) None
      (ESeq (EFor (PVar id_item) (ERef (EPath [(id_buf, [])])) src_FromIterator_T_SizedSlice_T_N_from_iter_loop0) (ERec [(id_Self, [])] [(id_buf, (EPath [(id_buf, [])])); (id_len, (EPath [(id_len, [])]))]))))).

(* oct/src/sized_slice/iter.rs:27 *)
Definition src_FromIterator_T_SizedSlice_T_N : impl :=
  Impl [id_T] [id_N] [] (Some [(id_FromIterator, [(YPath [(id_T, [])])])]) (YPath [(id_SizedSlice, [(YPath [(id_T, [])]); (YPath [(id_N, [])])])])
    [] [] [src_FromIterator_T_SizedSlice_T_N_from_iter].

(* oct/src/sized_slice/iter.rs:52 *)
Definition src_IntoIterator_SizedSlice_T_N_into_iter : fn := Fn id_into_iter [] [((PVar id_self), (YPath [(id_Self, [])]))] (YPath [(id_Self, []); (id_IntoIter, [])])
    (ELet (PRec [(id_Self, [])] [(id_buf, (PVar id_buf)); (id_len, (PVar id_len))]) None (Some (EPath [(id_self, [])])) None
      (ECall (EPath [(id_SizedIter, []); (id_new, [])]) [(EPath [(id_buf, [])]); (EPath [(id_len, [])])])).

(* oct/src/sized_slice/iter.rs:46 *)
Definition src_IntoIterator_SizedSlice_T_N : impl :=
  Impl [id_T] [id_N] [] (Some [(id_IntoIterator, [])]) (YPath [(id_SizedSlice, [(YPath [(id_T, [])]); (YPath [(id_N, [])])])])
    [] [(id_Item, (YPath [(id_T, [])])); (id_IntoIter, (YPath [(id_SizedIter, [(YPath [(id_T, [])]); (YPath [(id_N, [])])])]))] [src_IntoIterator_SizedSlice_T_N_into_iter].

(* oct/src/sized_slice/iter.rs:65 *)
Definition src_IntoIterator_ref_into_iter : fn := Fn id_into_iter [] [((PVar id_self), (YPath [(id_Self, [])]))] (YPath [(id_Self, []); (id_IntoIter, [])])
    (EMethod (EPath [(id_self, [])]) id_iter [] []).

(* oct/src/sized_slice/iter.rs:59 *)
Definition src_IntoIterator_ref : impl :=
  Impl [id_T] [id_N] [] (Some [(id_IntoIterator, [])]) (YRef false (YPath [(id_SizedSlice, [(YPath [(id_T, [])]); (YPath [(id_N, [])])])]))
    [] [(id_Item, (YRef false (YPath [(id_T, [])]))); (id_IntoIter, (YPath [(id_slice, []); (id_Iter, [(YPath [(id_T, [])])])]))] [src_IntoIterator_ref_into_iter].

(* oct/src/sized_slice/iter.rs:76 *)
Definition src_IntoIterator_ref_mut_into_iter : fn := Fn id_into_iter [] [((PVar id_self), (YPath [(id_Self, [])]))] (YPath [(id_Self, []); (id_IntoIter, [])])
    (EMethod (EPath [(id_self, [])]) id_iter_mut [] []).

(* oct/src/sized_slice/iter.rs:70 *)
Definition src_IntoIterator_ref_mut : impl :=
  Impl [id_T] [id_N] [] (Some [(id_IntoIterator, [])]) (YRef true (YPath [(id_SizedSlice, [(YPath [(id_T, [])]); (YPath [(id_N, [])])])]))
    [] [(id_Item, (YRef true (YPath [(id_T, [])]))); (id_IntoIter, (YPath [(id_slice, []); (id_IterMut, [(YPath [(id_T, [])])])]))] [src_IntoIterator_ref_mut_into_iter].

(* oct/src/sized_slice/cmp.rs:29 *)
Definition src_Eq_SizedSlice_T_N : impl :=
  Impl [id_T] [id_N] [((YPath [(id_T, [])]), [(id_Eq, [])])] (Some [(id_Eq, [])]) (YPath [(id_SizedSlice, [(YPath [(id_T, [])]); (YPath [(id_N, [])])])])
    [] [] [].

(* oct/src/sized_slice/cmp.rs:33 *)
Definition src_Ord_SizedSlice_T_N_cmp : fn := Fn id_cmp [] [((PVar id_self), (YPath [(id_Self, [])])); ((PVar id_other), (YRef false (YPath [(id_Self, [])])))] (YPath [(id_Ordering, [])])
    (EMethod (EMethod (EPath [(id_self, [])]) id_as_slice [] []) id_cmp [] [(EMethod (EPath [(id_other, [])]) id_as_slice [] [])]).

(* oct/src/sized_slice/cmp.rs:31 *)
Definition src_Ord_SizedSlice_T_N : impl :=
  Impl [id_T] [id_N] [((YPath [(id_T, [])]), [(id_Ord, [])])] (Some [(id_Ord, [])]) (YPath [(id_SizedSlice, [(YPath [(id_T, [])]); (YPath [(id_N, [])])])])
    [] [] [src_Ord_SizedSlice_T_N_cmp].

(* oct/src/sized_slice/cmp.rs:40 *)
Definition src_PartialEq_SizedSlice_U_M_SizedSlice_T_N_eq : fn := Fn id_eq [] [((PVar id_self), (YPath [(id_Self, [])])); ((PVar id_other), (YRef false (YPath [(id_SizedSlice, [(YPath [(id_U, [])]); (YPath [(id_M, [])])])])))] (YPath [(id_bool, [])])
    (EBin OEq (EMethod (EPath [(id_self, [])]) id_as_slice [] []) (EMethod (EPath [(id_other, [])]) id_as_slice [] [])).

(* oct/src/sized_slice/cmp.rs:38 *)
Definition src_PartialEq_SizedSlice_U_M_SizedSlice_T_N : impl :=
  Impl [id_T; id_U] [id_N; id_M] [((YPath [(id_T, [])]), [(id_PartialEq, [(YPath [(id_U, [])])])]); ((YPath [(id_U, [])]), [(id_PartialEq, [(YPath [(id_T, [])])])])] (Some [(id_PartialEq, [(YPath [(id_SizedSlice, [(YPath [(id_U, [])]); (YPath [(id_M, [])])])])])]) (YPath [(id_SizedSlice, [(YPath [(id_T, [])]); (YPath [(id_N, [])])])])
    [] [] [src_PartialEq_SizedSlice_U_M_SizedSlice_T_N_eq].

(* oct/src/sized_slice/cmp.rs:47 *)
Definition src_PartialEq_array_SizedSlice_T_N_eq : fn := Fn id_eq [] [((PVar id_self), (YPath [(id_Self, [])])); ((PVar id_other), (YRef false (YArr (YPath [(id_U, [])]) (YPath [(id_M, [])]))))] (YPath [(id_bool, [])])
    (EBin OEq (EMethod (EPath [(id_self, [])]) id_as_slice [] []) (EMethod (EPath [(id_other, [])]) id_as_slice [] [])).

(* oct/src/sized_slice/cmp.rs:45 *)
Definition src_PartialEq_array_SizedSlice_T_N : impl :=
  Impl [id_T; id_U] [id_N; id_M] [((YPath [(id_T, [])]), [(id_PartialEq, [(YPath [(id_U, [])])])]); ((YPath [(id_U, [])]), [(id_PartialEq, [(YPath [(id_T, [])])])])] (Some [(id_PartialEq, [(YArr (YPath [(id_U, [])]) (YPath [(id_M, [])]))])]) (YPath [(id_SizedSlice, [(YPath [(id_T, [])]); (YPath [(id_N, [])])])])
    [] [] [src_PartialEq_array_SizedSlice_T_N_eq].

(* oct/src/sized_slice/cmp.rs:54 *)
Definition src_PartialEq_ref_SizedSlice_T_N_eq : fn := Fn id_eq [] [((PVar id_self), (YPath [(id_Self, [])])); ((PVar id_other), (YRef false (YRef false (YSlice (YPath [(id_U, [])])))))] (YPath [(id_bool, [])])
    (EBin OEq (EMethod (EPath [(id_self, [])]) id_as_slice [] []) (EDeref (EPath [(id_other, [])]))).

(* oct/src/sized_slice/cmp.rs:52 *)
Definition src_PartialEq_ref_SizedSlice_T_N : impl :=
  Impl [id_T; id_U] [id_N] [((YPath [(id_T, [])]), [(id_PartialEq, [(YPath [(id_U, [])])])]); ((YPath [(id_U, [])]), [(id_PartialEq, [(YPath [(id_T, [])])])])] (Some [(id_PartialEq, [(YRef false (YSlice (YPath [(id_U, [])])))])]) (YPath [(id_SizedSlice, [(YPath [(id_T, [])]); (YPath [(id_N, [])])])])
    [] [] [src_PartialEq_ref_SizedSlice_T_N_eq].

(* oct/src/sized_slice/cmp.rs:63 *)
Definition src_PartialEq_Vec_U_SizedSlice_T_N_eq : fn := Fn id_eq [] [((PVar id_self), (YPath [(id_Self, [])])); ((PVar id_other), (YRef false (YPath [(id_Vec, [(YPath [(id_U, [])])])])))] (YPath [(id_bool, [])])
    (EBin OEq (EMethod (EPath [(id_self, [])]) id_as_slice [] []) (EMethod (EPath [(id_other, [])]) id_as_slice [] [])).

(* oct/src/sized_slice/cmp.rs:61 *)
Definition src_PartialEq_Vec_U_SizedSlice_T_N : impl :=
  Impl [id_T; id_U] [id_N] [((YPath [(id_T, [])]), [(id_PartialEq, [(YPath [(id_U, [])])])]); ((YPath [(id_U, [])]), [(id_PartialEq, [(YPath [(id_T, [])])])])] (Some [(id_PartialEq, [(YPath [(id_Vec, [(YPath [(id_U, [])])])])])]) (YPath [(id_SizedSlice, [(YPath [(id_T, [])]); (YPath [(id_N, [])])])])
    [] [] [src_PartialEq_Vec_U_SizedSlice_T_N_eq].

(* oct/src/sized_slice/cmp.rs:70 *)
Definition src_PartialOrd_SizedSlice_T_M_SizedSlice_T_N_partial_cmp : fn := Fn id_partial_cmp [] [((PVar id_self), (YPath [(id_Self, [])])); ((PVar id_other), (YRef false (YPath [(id_SizedSlice, [(YPath [(id_T, [])]); (YPath [(id_M, [])])])])))] (YPath [(id_Option, [(YPath [(id_Ordering, [])])])])
    (EMethod (EMethod (EPath [(id_self, [])]) id_as_slice [] []) id_partial_cmp [] [(EMethod (EPath [(id_other, [])]) id_as_slice [] [])]).

(* oct/src/sized_slice/cmp.rs:68 *)
Definition src_PartialOrd_SizedSlice_T_M_SizedSlice_T_N : impl :=
  Impl [id_T] [id_N; id_M] [((YPath [(id_T, [])]), [(id_PartialOrd, [])])] (Some [(id_PartialOrd, [(YPath [(id_SizedSlice, [(YPath [(id_T, [])]); (YPath [(id_M, [])])])])])]) (YPath [(id_SizedSlice, [(YPath [(id_T, [])]); (YPath [(id_N, [])])])])
    [] [] [src_PartialOrd_SizedSlice_T_M_SizedSlice_T_N_partial_cmp].

(* oct/src/sized_slice/cmp.rs:77 *)
Definition src_PartialOrd_array_SizedSlice_T_N_partial_cmp : fn := Fn id_partial_cmp [] [((PVar id_self), (YPath [(id_Self, [])])); ((PVar id_other), (YRef false (YArr (YPath [(id_T, [])]) (YPath [(id_M, [])]))))] (YPath [(id_Option, [(YPath [(id_Ordering, [])])])])
    (EMethod (EMethod (EPath [(id_self, [])]) id_as_slice [] []) id_partial_cmp [] [(EMethod (EPath [(id_other, [])]) id_as_slice [] [])]).

(* oct/src/sized_slice/cmp.rs:75 *)
Definition src_PartialOrd_array_SizedSlice_T_N : impl :=
  Impl [id_T] [id_N; id_M] [((YPath [(id_T, [])]), [(id_PartialOrd, [])])] (Some [(id_PartialOrd, [(YArr (YPath [(id_T, [])]) (YPath [(id_M, [])]))])]) (YPath [(id_SizedSlice, [(YPath [(id_T, [])]); (YPath [(id_N, [])])])])
    [] [] [src_PartialOrd_array_SizedSlice_T_N_partial_cmp].

(* oct/src/sized_slice/cmp.rs:84 *)
Definition src_PartialOrd_ref_SizedSlice_T_N_partial_cmp : fn := Fn id_partial_cmp [] [((PVar id_self), (YPath [(id_Self, [])])); ((PVar id_other), (YRef false (YRef false (YSlice (YPath [(id_T, [])])))))] (YPath [(id_Option, [(YPath [(id_Ordering, [])])])])
    (EMethod (EMethod (EPath [(id_self, [])]) id_as_slice [] []) id_partial_cmp [] [(EDeref (EPath [(id_other, [])]))]).

(* oct/src/sized_slice/cmp.rs:82 *)
Definition src_PartialOrd_ref_SizedSlice_T_N : impl :=
  Impl [id_T] [id_N] [((YPath [(id_T, [])]), [(id_PartialOrd, [])])] (Some [(id_PartialOrd, [(YRef false (YSlice (YPath [(id_T, [])])))])]) (YPath [(id_SizedSlice, [(YPath [(id_T, [])]); (YPath [(id_N, [])])])])
    [] [] [src_PartialOrd_ref_SizedSlice_T_N_partial_cmp].

(* oct/src/sized_slice/cmp.rs:93 *)
Definition src_PartialOrd_Vec_T_SizedSlice_T_N_partial_cmp : fn := Fn id_partial_cmp [] [((PVar id_self), (YPath [(id_Self, [])])); ((PVar id_other), (YRef false (YPath [(id_Vec, [(YPath [(id_T, [])])])])))] (YPath [(id_Option, [(YPath [(id_Ordering, [])])])])
    (EMethod (EMethod (EPath [(id_self, [])]) id_as_slice [] []) id_partial_cmp [] [(EMethod (EPath [(id_other, [])]) id_as_slice [] [])]).

(* oct/src/sized_slice/cmp.rs:91 *)
Definition src_PartialOrd_Vec_T_SizedSlice_T_N : impl :=
  Impl [id_T] [id_N] [((YPath [(id_T, [])]), [(id_PartialOrd, [])])] (Some [(id_PartialOrd, [(YPath [(id_Vec, [(YPath [(id_T, [])])])])])]) (YPath [(id_SizedSlice, [(YPath [(id_T, [])]); (YPath [(id_N, [])])])])
    [] [] [src_PartialOrd_Vec_T_SizedSlice_T_N_partial_cmp].

(* all of them, in the order of the files *)
Definition src_sizedslice_impls : list impl := [src_impl_SizedSlice_T_N; src_impl_SizedSlice_T_N_2; src_Clone_SizedSlice_T_N; src_Debug_SizedSlice_T_N; src_Default_SizedSlice_T_N; src_Hash_SizedSlice_T_N; src_Index_I_SizedSlice_T_N; src_IndexMut_I_SizedSlice_T_N; src_impl_SizedSlice_T_N_3; src_AsMut_slice_SizedSlice_T_N; src_AsRef_slice_SizedSlice_T_N; src_Borrow_slice_SizedSlice_T_N; src_BorrowMut_slice_SizedSlice_T_N; src_Deref_SizedSlice_T_N; src_DerefMut_SizedSlice_T_N; src_From_array_SizedSlice_T_N; src_TryFrom_ref_SizedSlice_T_N; src_From_SizedSlice_T_N_Box_slice; src_From_SizedSlice_T_N_Vec_T; src_FromIterator_T_SizedSlice_T_N; src_IntoIterator_SizedSlice_T_N; src_IntoIterator_ref; src_IntoIterator_ref_mut; src_Eq_SizedSlice_T_N; src_Ord_SizedSlice_T_N; src_PartialEq_SizedSlice_U_M_SizedSlice_T_N; src_PartialEq_array_SizedSlice_T_N; src_PartialEq_ref_SizedSlice_T_N; src_PartialEq_Vec_U_SizedSlice_T_N; src_PartialOrd_SizedSlice_T_M_SizedSlice_T_N; src_PartialOrd_array_SizedSlice_T_N; src_PartialOrd_ref_SizedSlice_T_N; src_PartialOrd_Vec_T_SizedSlice_T_N].
