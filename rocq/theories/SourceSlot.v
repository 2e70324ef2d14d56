(* Generated by tools/rust2v.py from oct/src/slot/mod.rs. Do not edit. *)
From Coq Require Import String.
From Verif Require Import Base SourceNames SourceSyntax.
Local Open Scope list_scope.

(* oct/src/slot/mod.rs:85 *)
Definition src_impl_Slot_T_with_capacity : fn := Fn id_with_capacity [] [((PVar id_cap), (YPath [(id_usize, [])]))] (YPath [(id_Self, [])])
    (ELet (PVar id_buf) None (Some (EMethod (EMacro id_vec [(EInt (0)%Z None); (EPath [(id_cap, [])])]) id_into [] [])) None
      (ERec [(id_Self, [])] [(id_buf, (EPath [(id_buf, [])])); (id_len, (EInt (0)%Z None)); (id__ty, (EPath [(id_PhantomData, [])]))])).

(* oct/src/slot/mod.rs:104 *)
Definition src_impl_Slot_T_from_raw_parts : fn := Fn id_from_raw_parts [] [((PVar id_ptr), (YPtr true (YPath [(id_u8, [])]))); ((PVar id_cap), (YPath [(id_usize, [])])); ((PVar id_len), (YPath [(id_usize, [])]))] (YPath [(id_Self, [])])
    (ELet (PVar id_buf) None (Some (ELet (PVar id_buf) None (Some (ECall (EPath [(id_ptr, []); (id_slice_from_raw_parts_mut, [])]) [(EPath [(id_ptr, [])]); (EPath [(id_cap, [])])])) None
      (ECall (EPath [(id_Box, []); (id_from_raw, [])]) [(EPath [(id_buf, [])])]))) None
      (ERec [(id_Self, [])] [(id_buf, (EPath [(id_buf, [])])); (id_len, (EPath [(id_len, [])])); (id__ty, (EPath [(id_PhantomData, [])]))])).

(* oct/src/slot/mod.rs:124 *)
Definition src_impl_Slot_T_as_ptr : fn := Fn id_as_ptr [] [((PVar id_self), (YPath [(id_Self, [])]))] (YPtr false (YPath [(id_u8, [])]))
    (EMethod (EField (EPath [(id_self, [])]) id_buf) id_as_ptr [] []).

(* oct/src/slot/mod.rs:133 *)
Definition src_impl_Slot_T_as_mut_ptr : fn := Fn id_as_mut_ptr [] [((PVar id_self), (YPath [(id_Self, [])]))] (YPtr true (YPath [(id_u8, [])]))
    (EMethod (EField (EPath [(id_self, [])]) id_buf) id_as_mut_ptr [] []).

(* oct/src/slot/mod.rs:143 *)
Definition src_impl_Slot_T_as_slice : fn := Fn id_as_slice [] [((PVar id_self), (YPath [(id_Self, [])]))] (YRef false (YSlice (YPath [(id_u8, [])])))
    (ECall (EPath [(id_slice, []); (id_from_raw_parts, [])]) [(EMethod (EPath [(id_self, [])]) id_as_ptr [] []); (EMethod (EPath [(id_self, [])]) id_len [] [])]).

(* oct/src/slot/mod.rs:155 *)
Definition src_impl_Slot_T_as_mut_slice : fn := Fn id_as_mut_slice [] [((PVar id_self), (YPath [(id_Self, [])]))] (YRef true (YSlice (YPath [(id_u8, [])])))
    (ECall (EPath [(id_slice, []); (id_from_raw_parts_mut, [])]) [(EMethod (EPath [(id_self, [])]) id_as_mut_ptr [] []); (EMethod (EPath [(id_self, [])]) id_capacity [] [])]).

(* oct/src/slot/mod.rs:166 *)
Definition src_impl_Slot_T_copy_from_slice : fn := Fn id_copy_from_slice [] [((PVar id_self), (YPath [(id_Self, [])])); ((PVar id_data), (YRef false (YSlice (YPath [(id_u8, [])]))))] (YTup [])
    (ELet (PVar id_len) None (Some (EMethod (EPath [(id_data, [])]) id_len [] [])) None
      (ESeq (EMacro id_assert [(EBin OLe (EPath [(id_len, [])]) (EMethod (EPath [(id_self, [])]) id_capacity [] [])); (EStr (txt "slot cannot contain source slice"))]) (ELet (PVar id_src) None (Some (EMethod (EPath [(id_data, [])]) id_as_ptr [] [])) None
      (ELet (PVar id_dst) None (Some (EMethod (EPath [(id_self, [])]) id_as_mut_ptr [] [])) None
      (ESeq (ECall (EPath [(id_copy_nonoverlapping, [])]) [(EPath [(id_src, [])]); (EPath [(id_dst, [])]); (EPath [(id_len, [])])]) (ESeq (EMethod (EPath [(id_self, [])]) id_set_len_unchecked [] [(EPath [(id_len, [])])]) EUnit)))))).

(* oct/src/slot/mod.rs:195 *)
Definition src_impl_Slot_T_set_len : fn := Fn id_set_len [] [((PVar id_self), (YPath [(id_Self, [])])); ((PVar id_len), (YPath [(id_usize, [])]))] (YTup [])
    (ESeq (EMacro id_assert [(EBin OLe (EPath [(id_len, [])]) (EMethod (EPath [(id_self, [])]) id_capacity [] [])); (EStr (txt "cannot extend slot beyond capacity"))]) (EMethod (EPath [(id_self, [])]) id_set_len_unchecked [] [(EPath [(id_len, [])])])).

(* oct/src/slot/mod.rs:212 *)
Definition src_impl_Slot_T_set_len_unchecked : fn := Fn id_set_len_unchecked [] [((PVar id_self), (YPath [(id_Self, [])])); ((PVar id_len), (YPath [(id_usize, [])]))] (YTup [])
    (ESeq (EMacro id_debug_assert [(EBin OLe (EPath [(id_len, [])]) (EMethod (EPath [(id_self, [])]) id_capacity [] [])); (EStr (txt "cannot extend slot beyond capacity"))]) (ESeq (EAssign None (EField (EPath [(id_self, [])]) id_len) (EPath [(id_len, [])])) EUnit)).

(* oct/src/slot/mod.rs:226 *)
Definition src_impl_Slot_T_capacity : fn := Fn id_capacity [] [((PVar id_self), (YPath [(id_Self, [])]))] (YPath [(id_usize, [])])
    (EMethod (EField (EPath [(id_self, [])]) id_buf) id_len [] []).

(* oct/src/slot/mod.rs:237 *)
Definition src_impl_Slot_T_len : fn := Fn id_len [] [((PVar id_self), (YPath [(id_Self, [])]))] (YPath [(id_usize, [])])
    (EField (EPath [(id_self, [])]) id_len).

(* oct/src/slot/mod.rs:246 *)
Definition src_impl_Slot_T_is_empty : fn := Fn id_is_empty [] [((PVar id_self), (YPath [(id_Self, [])]))] (YPath [(id_bool, [])])
    (EBin OEq (EMethod (EPath [(id_self, [])]) id_len [] []) (EInt (0)%Z None)).

(* oct/src/slot/mod.rs:255 *)
Definition src_impl_Slot_T_is_full : fn := Fn id_is_full [] [((PVar id_self), (YPath [(id_Self, [])]))] (YPath [(id_bool, [])])
    (EBin OEq (EMethod (EPath [(id_self, [])]) id_len [] []) (EMethod (EPath [(id_self, [])]) id_capacity [] [])).

(* oct/src/slot/mod.rs:77 *)
Definition src_impl_Slot_T : impl :=
  Impl [id_T] [] [] None (YPath [(id_Slot, [(YPath [(id_T, [])])])])
    [] [] [src_impl_Slot_T_with_capacity; src_impl_Slot_T_from_raw_parts; src_impl_Slot_T_as_ptr; src_impl_Slot_T_as_mut_ptr; src_impl_Slot_T_as_slice; src_impl_Slot_T_as_mut_slice; src_impl_Slot_T_copy_from_slice; src_impl_Slot_T_set_len; src_impl_Slot_T_set_len_unchecked; src_impl_Slot_T_capacity; src_impl_Slot_T_len; src_impl_Slot_T_is_empty; src_impl_Slot_T_is_full].

(* oct/src/slot/mod.rs:270 *)
Definition src_impl_Slot_T_2_write : fn := Fn id_write [id_U] [((PVar id_self), (YPath [(id_Self, [])])); ((PVar id_value), (YPath [(id_U, [])]))] (YPath [(id_Result, [(YTup []); (YPath [(id_T, []); (id_Error, [])])])])
    (ELet (PVar id_stream) None (Some (ECall (EPath [(id_Output, []); (id_new, [])]) [(ERef (EField (EPath [(id_self, [])]) id_buf))])) None
      (ESeq (ETry (EMethod (EMethod (EPath [(id_value, [])]) id_borrow [] []) id_encode [] [(ERef (EPath [(id_stream, [])]))])) (ELet (PVar id_len) None (Some (EMethod (EPath [(id_stream, [])]) id_position [] [])) None
      (ESeq (EMethod (EPath [(id_self, [])]) id_set_len [] [(EPath [(id_len, [])])]) (ECall (EPath [(id_Ok, [])]) [(ETuple [])]))))).

(* oct/src/slot/mod.rs:261 *)
Definition src_impl_Slot_T_2 : impl :=
  Impl [id_T] [] [((YPath [(id_T, [])]), [(id_Encode, [])])] None (YPath [(id_Slot, [(YPath [(id_T, [])])])])
    [] [] [src_impl_Slot_T_2_write].

(* oct/src/slot/mod.rs:295 *)
Definition src_impl_Slot_T_3_read : fn := Fn id_read [] [((PVar id_self), (YPath [(id_Self, [])]))] (YPath [(id_Result, [(YPath [(id_T, [])]); (YPath [(id_T, []); (id_Error, [])])])])
    (ELet (PVar id_stream) None (Some (ECall (EPath [(id_Input, []); (id_new, [])]) [(ERef (EField (EPath [(id_self, [])]) id_buf))])) None
      (ELet (PVar id_value) None (Some (ETry (ECall (EHole 0 [(id_Decode, []); (id_decode, [])]) [(ERef (EPath [(id_stream, [])]))]))) None
      (ECall (EPath [(id_Ok, [])]) [(EPath [(id_value, [])])]))).

(* oct/src/slot/mod.rs:283 *)
Definition src_impl_Slot_T_3 : impl :=
  Impl [id_T] [] [((YPath [(id_T, [])]), [(id_Decode, [])])] None (YPath [(id_Slot, [(YPath [(id_T, [])])])])
    [] [] [src_impl_Slot_T_3_read].

(* oct/src/slot/mod.rs:314 *)
Definition src_impl_Slot_T_4_new : fn := Fn id_new [] [] (YPath [(id_Self, [])])
    (ECall (EPath [(id_Self, []); (id_with_capacity, [])]) [(EPath [(id_T, []); (id_MAX_ENCODED_SIZE, [])])]).

(* oct/src/slot/mod.rs:307 *)
Definition src_impl_Slot_T_4 : impl :=
  Impl [id_T] [] [((YPath [(id_T, [])]), [(id_SizedEncode, [])])] None (YPath [(id_Slot, [(YPath [(id_T, [])])])])
    [] [] [src_impl_Slot_T_4_new].

(* oct/src/slot/mod.rs:323 *)
Definition src_AsMut_slice_Slot_T_as_mut : fn := Fn id_as_mut [] [((PVar id_self), (YPath [(id_Self, [])]))] (YRef true (YSlice (YPath [(id_u8, [])])))
    (EMethod (EPath [(id_self, [])]) id_as_mut_slice [] []).

(* oct/src/slot/mod.rs:321 *)
Definition src_AsMut_slice_Slot_T : impl :=
  Impl [id_T] [] [] (Some [(id_AsMut, [(YSlice (YPath [(id_u8, [])]))])]) (YPath [(id_Slot, [(YPath [(id_T, [])])])])
    [] [] [src_AsMut_slice_Slot_T_as_mut].

(* oct/src/slot/mod.rs:332 *)
Definition src_AsRef_slice_Slot_T_as_ref : fn := Fn id_as_ref [] [((PVar id_self), (YPath [(id_Self, [])]))] (YRef false (YSlice (YPath [(id_u8, [])])))
    (EMethod (EPath [(id_self, [])]) id_as_slice [] []).

(* oct/src/slot/mod.rs:330 *)
Definition src_AsRef_slice_Slot_T : impl :=
  Impl [id_T] [] [] (Some [(id_AsRef, [(YSlice (YPath [(id_u8, [])]))])]) (YPath [(id_Slot, [(YPath [(id_T, [])])])])
    [] [] [src_AsRef_slice_Slot_T_as_ref].

(* oct/src/slot/mod.rs:341 *)
Definition src_Borrow_slice_Slot_T_borrow : fn := Fn id_borrow [] [((PVar id_self), (YPath [(id_Self, [])]))] (YRef false (YSlice (YPath [(id_u8, [])])))
    (EMethod (EPath [(id_self, [])]) id_as_slice [] []).

(* oct/src/slot/mod.rs:339 *)
Definition src_Borrow_slice_Slot_T : impl :=
  Impl [id_T] [] [] (Some [(id_Borrow, [(YSlice (YPath [(id_u8, [])]))])]) (YPath [(id_Slot, [(YPath [(id_T, [])])])])
    [] [] [src_Borrow_slice_Slot_T_borrow].

(* oct/src/slot/mod.rs:350 *)
Definition src_BorrowMut_slice_Slot_T_borrow_mut : fn := Fn id_borrow_mut [] [((PVar id_self), (YPath [(id_Self, [])]))] (YRef true (YSlice (YPath [(id_u8, [])])))
    (EMethod (EPath [(id_self, [])]) id_as_mut_slice [] []).

(* oct/src/slot/mod.rs:348 *)
Definition src_BorrowMut_slice_Slot_T : impl :=
  Impl [id_T] [] [] (Some [(id_BorrowMut, [(YSlice (YPath [(id_u8, [])]))])]) (YPath [(id_Slot, [(YPath [(id_T, [])])])])
    [] [] [src_BorrowMut_slice_Slot_T_borrow_mut].

(* oct/src/slot/mod.rs:358 *)
Definition src_Debug_Slot_T_fmt : fn := Fn id_fmt [] [((PVar id_self), (YPath [(id_Self, [])])); ((PVar id_f), (YRef true (YPath [(id_Formatter, [])])))] (YPath [(id_fmt, []); (id_Result, [])])
    (EMacro id_write [(EPath [(id_f, [])]); (EStr (txt "{:?}")); (EMethod (EPath [(id_self, [])]) id_as_slice [] [])]).

(* oct/src/slot/mod.rs:356 *)
Definition src_Debug_Slot_T : impl :=
  Impl [id_T] [] [] (Some [(id_Debug, [])]) (YPath [(id_Slot, [(YPath [(id_T, [])])])])
    [] [] [src_Debug_Slot_T_fmt].

(* oct/src/slot/mod.rs:364 *)
Definition src_Default_Slot_T_default : fn := Fn id_default [] [] (YPath [(id_Self, [])])
    (ECall (EPath [(id_Self, []); (id_new, [])]) []).

(* oct/src/slot/mod.rs:362 *)
Definition src_Default_Slot_T : impl :=
  Impl [id_T] [] [((YPath [(id_T, [])]), [(id_SizedEncode, [])])] (Some [(id_Default, [])]) (YPath [(id_Slot, [(YPath [(id_T, [])])])])
    [] [] [src_Default_Slot_T_default].

(* oct/src/slot/mod.rs:374 *)
Definition src_Deref_Slot_T_deref : fn := Fn id_deref [] [((PVar id_self), (YPath [(id_Self, [])]))] (YRef false (YPath [(id_Self, []); (id_Target, [])]))
    (EMethod (EPath [(id_self, [])]) id_as_slice [] []).

(* oct/src/slot/mod.rs:370 *)
Definition src_Deref_Slot_T : impl :=
  Impl [id_T] [] [] (Some [(id_Deref, [])]) (YPath [(id_Slot, [(YPath [(id_T, [])])])])
    [] [(id_Target, (YSlice (YPath [(id_u8, [])])))] [src_Deref_Slot_T_deref].

(* oct/src/slot/mod.rs:382 *)
Definition src_DerefMut_Slot_T_deref_mut : fn := Fn id_deref_mut [] [((PVar id_self), (YPath [(id_Self, [])]))] (YRef true (YPath [(id_Self, []); (id_Target, [])]))
    (EMethod (EPath [(id_self, [])]) id_as_mut_slice [] []).

(* oct/src/slot/mod.rs:380 *)
Definition src_DerefMut_Slot_T : impl :=
  Impl [id_T] [] [] (Some [(id_DerefMut, [])]) (YPath [(id_Slot, [(YPath [(id_T, [])])])])
    [] [] [src_DerefMut_Slot_T_deref_mut].

(* oct/src/slot/mod.rs:392 *)
Definition src_Index_I_Slot_T_index : fn := Fn id_index [] [((PVar id_self), (YPath [(id_Self, [])])); ((PVar id_index), (YPath [(id_I, [])]))] (YRef false (YPath [(id_Self, []); (id_Output, [])]))
    (EMethod (EMethod (EPath [(id_self, [])]) id_get [] [(EPath [(id_index, [])])]) id_unwrap [] []).

(* oct/src/slot/mod.rs:388 *)
Definition src_Index_I_Slot_T : impl :=
  Impl [id_T; id_I] [] [((YPath [(id_I, [])]), [(id_SliceIndex, [(YSlice (YPath [(id_u8, [])]))])])] (Some [(id_Index, [(YPath [(id_I, [])])])]) (YPath [(id_Slot, [(YPath [(id_T, [])])])])
    [] [(id_Output, (YPath [(id_I, []); (id_Output, [])]))] [src_Index_I_Slot_T_index].

(* oct/src/slot/mod.rs:400 *)
Definition src_IndexMut_I_Slot_T_index_mut : fn := Fn id_index_mut [] [((PVar id_self), (YPath [(id_Self, [])])); ((PVar id_index), (YPath [(id_I, [])]))] (YRef true (YPath [(id_Self, []); (id_Output, [])]))
    (EMethod (EMethod (EPath [(id_self, [])]) id_get_mut [] [(EPath [(id_index, [])])]) id_unwrap [] []).

(* oct/src/slot/mod.rs:398 *)
Definition src_IndexMut_I_Slot_T : impl :=
  Impl [id_T; id_I] [] [((YPath [(id_I, [])]), [(id_SliceIndex, [(YSlice (YPath [(id_u8, [])]))])])] (Some [(id_IndexMut, [(YPath [(id_I, [])])])]) (YPath [(id_Slot, [(YPath [(id_T, [])])])])
    [] [] [src_IndexMut_I_Slot_T_index_mut].

(* oct/src/slot/mod.rs:408 *)
Definition src_PartialEq_slice_Slot_T_eq : fn := Fn id_eq [] [((PVar id_self), (YPath [(id_Self, [])])); ((PVar id_other), (YRef false (YSlice (YPath [(id_u8, [])]))))] (YPath [(id_bool, [])])
    (EBin OEq (EMethod (EPath [(id_self, [])]) id_as_slice [] []) (EPath [(id_other, [])])).

(* oct/src/slot/mod.rs:406 *)
Definition src_PartialEq_slice_Slot_T : impl :=
  Impl [id_T] [] [] (Some [(id_PartialEq, [(YSlice (YPath [(id_u8, [])]))])]) (YPath [(id_Slot, [(YPath [(id_T, [])])])])
    [] [] [src_PartialEq_slice_Slot_T_eq].

(* oct/src/slot/mod.rs:416 *)
Definition src_PartialEq_ref_Slot_T_eq : fn := Fn id_eq [] [((PVar id_self), (YPath [(id_Self, [])])); ((PVar id_other), (YRef false (YRef false (YSlice (YPath [(id_u8, [])])))))] (YPath [(id_bool, [])])
    (EBin OEq (EMethod (EPath [(id_self, [])]) id_as_slice [] []) (EDeref (EPath [(id_other, [])]))).

(* oct/src/slot/mod.rs:414 *)
Definition src_PartialEq_ref_Slot_T : impl :=
  Impl [id_T] [] [] (Some [(id_PartialEq, [(YRef false (YSlice (YPath [(id_u8, [])])))])]) (YPath [(id_Slot, [(YPath [(id_T, [])])])])
    [] [] [src_PartialEq_ref_Slot_T_eq].

(* oct/src/slot/mod.rs:424 *)
Definition src_PartialEq_ref_mut_Slot_T_eq : fn := Fn id_eq [] [((PVar id_self), (YPath [(id_Self, [])])); ((PVar id_other), (YRef false (YRef true (YSlice (YPath [(id_u8, [])])))))] (YPath [(id_bool, [])])
    (EBin OEq (EMethod (EPath [(id_self, [])]) id_as_slice [] []) (EDeref (EPath [(id_other, [])]))).

(* oct/src/slot/mod.rs:422 *)
Definition src_PartialEq_ref_mut_Slot_T : impl :=
  Impl [id_T] [] [] (Some [(id_PartialEq, [(YRef true (YSlice (YPath [(id_u8, [])])))])]) (YPath [(id_Slot, [(YPath [(id_T, [])])])])
    [] [] [src_PartialEq_ref_mut_Slot_T_eq].

(* all of them, in the order of the files *)
Definition src_slot_impls : list impl := [src_impl_Slot_T; src_impl_Slot_T_2; src_impl_Slot_T_3; src_impl_Slot_T_4; src_AsMut_slice_Slot_T; src_AsRef_slice_Slot_T; src_Borrow_slice_Slot_T; src_BorrowMut_slice_Slot_T; src_Debug_Slot_T; src_Default_Slot_T; src_Deref_Slot_T; src_DerefMut_Slot_T; src_Index_I_Slot_T; src_IndexMut_I_Slot_T; src_PartialEq_slice_Slot_T; src_PartialEq_ref_Slot_T; src_PartialEq_ref_mut_Slot_T].
