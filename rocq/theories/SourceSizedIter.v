(* Generated by tools/rust2v.py from oct/src/sized_iter/mod.rs. Do not edit. *)
From Coq Require Import String.
From Verif Require Import Base SourceNames SourceSyntax.
Local Open Scope list_scope.

(* oct/src/sized_iter/mod.rs:41 *)
Definition src_impl_SizedIter_T_N_new : fn := Fn id_new [] [((PVar id_buf), (YArr (YPath [(id_MaybeUninit, [(YPath [(id_T, [])])])]) (YPath [(id_N, [])]))); ((PVar id_len), (YPath [(id_usize, [])]))] (YPath [(id_Self, [])])
    (ESeq (EMacro id_debug_assert [(EBin OLe (EPath [(id_len, [])]) (EPath [(id_N, [])])); (EStr (txt "cannot construct iterator longer than its capacity"))]) (ERec [(id_Self, [])] [(id_buf, (EPath [(id_buf, [])])); (id_pos, (EInt (0)%Z None)); (id_len, (EPath [(id_len, [])]))])).

(* oct/src/sized_iter/mod.rs:49 *)
Definition src_impl_SizedIter_T_N_as_slice : fn := Fn id_as_slice [] [((PVar id_self), (YPath [(id_Self, [])]))] (YRef false (YSlice (YPath [(id_T, [])])))
    (ELet (PVar id_ptr) None (Some (EMethod (EMethod (EMethod (EField (EPath [(id_self, [])]) id_buf) id_as_ptr [] []) id_add [] [(EField (EPath [(id_self, [])]) id_pos)]) id_cast [] [])) None
      (ECall (EPath [(id_slice, []); (id_from_raw_parts, [])]) [(EPath [(id_ptr, [])]); (EField (EPath [(id_self, [])]) id_len)])).

(* oct/src/sized_iter/mod.rs:62 *)
Definition src_impl_SizedIter_T_N_as_mut_slice : fn := Fn id_as_mut_slice [] [((PVar id_self), (YPath [(id_Self, [])]))] (YRef true (YSlice (YPath [(id_T, [])])))
    (ELet (PVar id_ptr) None (Some (EMethod (EMethod (EMethod (EField (EPath [(id_self, [])]) id_buf) id_as_mut_ptr [] []) id_add [] [(EField (EPath [(id_self, [])]) id_pos)]) id_cast [] [])) None
      (ECall (EPath [(id_slice, []); (id_from_raw_parts_mut, [])]) [(EPath [(id_ptr, [])]); (EField (EPath [(id_self, [])]) id_len)])).

(* oct/src/sized_iter/mod.rs:38 *)
Definition src_impl_SizedIter_T_N : impl :=
  Impl [id_T] [id_N] [] None (YPath [(id_SizedIter, [(YPath [(id_T, [])]); (YPath [(id_N, [])])])])
    [] [] [src_impl_SizedIter_T_N_new; src_impl_SizedIter_T_N_as_slice; src_impl_SizedIter_T_N_as_mut_slice].

(* oct/src/sized_iter/mod.rs:76 *)
Definition src_AsMut_slice_SizedIter_T_N_as_mut : fn := Fn id_as_mut [] [((PVar id_self), (YPath [(id_Self, [])]))] (YRef true (YSlice (YPath [(id_T, [])])))
    (EMethod (EPath [(id_self, [])]) id_as_mut_slice [] []).

(* oct/src/sized_iter/mod.rs:74 *)
Definition src_AsMut_slice_SizedIter_T_N : impl :=
  Impl [id_T] [id_N] [] (Some [(id_AsMut, [(YSlice (YPath [(id_T, [])]))])]) (YPath [(id_SizedIter, [(YPath [(id_T, [])]); (YPath [(id_N, [])])])])
    [] [] [src_AsMut_slice_SizedIter_T_N_as_mut].

(* oct/src/sized_iter/mod.rs:83 *)
Definition src_AsRef_slice_SizedIter_T_N_as_ref : fn := Fn id_as_ref [] [((PVar id_self), (YPath [(id_Self, [])]))] (YRef false (YSlice (YPath [(id_T, [])])))
    (EMethod (EPath [(id_self, [])]) id_as_slice [] []).

(* oct/src/sized_iter/mod.rs:81 *)
Definition src_AsRef_slice_SizedIter_T_N : impl :=
  Impl [id_T] [id_N] [] (Some [(id_AsRef, [(YSlice (YPath [(id_T, [])]))])]) (YPath [(id_SizedIter, [(YPath [(id_T, [])]); (YPath [(id_N, [])])])])
    [] [] [src_AsRef_slice_SizedIter_T_N_as_ref].

(* oct/src/sized_iter/mod.rs:90, a loop in it *)
Definition src_Clone_SizedIter_T_N_clone_loop0 : expr :=
    (ELet (PVar id_item) None (Some (EMethod (ERaw (EDeref (EMethod (EField (EPath [(id_self, [])]) id_buf) id_get_unchecked [] [(EPath [(id_i, [])])]))) id_cast [] [])) None
      (ELet (PVar id_value) None (Some (ECall (EPath [(id_Clone, []); (id_clone, [])]) [(ERef (EDeref (EPath [(id_item, [])])))])) None
      (ESeq (EMethod (EMethod (EPath [(id_buf, [])]) id_get_unchecked_mut [] [(EPath [(id_i, [])])]) id_write [] [(EPath [(id_value, [])])]) EUnit))).

(* oct/src/sized_iter/mod.rs:90 *)
Definition src_Clone_SizedIter_T_N_clone : fn := Fn id_clone [] [((PVar id_self), (YPath [(id_Self, [])]))] (YPath [(id_Self, [])])
    (ELet (PVar id_buf) None (Some (ERepeat (ECall (EPath [(id_MaybeUninit, [(YPath [(id_T, [])])]); (id_uninit, [])]) []) (EPath [(id_N, [])]))) None
      (ELet (PRec [(id_Self, [])] [(id_pos, (PVar id_pos)); (id_len, (PVar id_len))]) None (Some (EDeref (EPath [(id_self, [])]))) None
      (ELet (PVar id_start) None (Some (EPath [(id_pos, [])])) None
      (ELet (PVar id_stop) None (Some (EBin OAdd (EPath [(id_start, [])]) (EPath [(id_len, [])]))) None
      (ESeq (EFor (PVar id_i) (ERange (Some (EPath [(id_start, [])])) (Some (EPath [(id_stop, [])])) false) src_Clone_SizedIter_T_N_clone_loop0) (ERec [(id_Self, [])] [(id_buf, (EPath [(id_buf, [])])); (id_pos, (EPath [(id_pos, [])])); (id_len, (EPath [(id_len, [])]))])))))).

(* oct/src/sized_iter/mod.rs:88 *)
Definition src_Clone_SizedIter_T_N : impl :=
  Impl [id_T] [id_N] [((YPath [(id_T, [])]), [(id_Clone, [])])] (Some [(id_Clone, [])]) (YPath [(id_SizedIter, [(YPath [(id_T, [])]); (YPath [(id_N, [])])])])
    [] [] [src_Clone_SizedIter_T_N_clone].

(* oct/src/sized_iter/mod.rs:113 *)
Definition src_DoubleEndedIterator_SizedIter_T_N_next_back : fn := Fn id_next_back [] [((PVar id_self), (YPath [(id_Self, [])]))] (YPath [(id_Option, [(YPath [(id_Self, []); (id_Item, [])])])])
    (ESeq (EIf (EBin OEq (EField (EPath [(id_self, [])]) id_len) (EInt (0)%Z None)) (EReturn (EPath [(id_None, [])])) EUnit) (ELet (PVar id_index) None (Some (EBin OSub (EBin OAdd (EField (EPath [(id_self, [])]) id_pos) (EField (EPath [(id_self, [])]) id_len)) (EInt (1)%Z None))) None
      (ELet (PVar id_item) None (Some (EMethod (EMethod (EField (EPath [(id_self, [])]) id_buf) id_get_unchecked [] [(EPath [(id_index, [])])]) id_assume_init_read [] [])) None
      (ESeq (EAssign (Some OSub) (EField (EPath [(id_self, [])]) id_len) (EInt (1)%Z None)) (ECall (EPath [(id_Some, [])]) [(EPath [(id_item, [])])]))))).

(* oct/src/sized_iter/mod.rs:111 *)
Definition src_DoubleEndedIterator_SizedIter_T_N : impl :=
  Impl [id_T] [id_N] [] (Some [(id_DoubleEndedIterator, [])]) (YPath [(id_SizedIter, [(YPath [(id_T, [])]); (YPath [(id_N, [])])])])
    [] [] [src_DoubleEndedIterator_SizedIter_T_N_next_back].

(* oct/src/sized_iter/mod.rs:126 *)
Definition src_ExactSizeIterator_SizedIter_T_N : impl :=
  Impl [id_T] [id_N] [] (Some [(id_ExactSizeIterator, [])]) (YPath [(id_SizedIter, [(YPath [(id_T, [])]); (YPath [(id_N, [])])])])
    [] [] [].

(* oct/src/sized_iter/mod.rs:128 *)
Definition src_FusedIterator_SizedIter_T_N : impl :=
  Impl [id_T] [id_N] [] (Some [(id_FusedIterator, [])]) (YPath [(id_SizedIter, [(YPath [(id_T, [])]); (YPath [(id_N, [])])])])
    [] [] [].

(* oct/src/sized_iter/mod.rs:134 *)
Definition src_Iterator_SizedIter_T_N_next : fn := Fn id_next [] [((PVar id_self), (YPath [(id_Self, [])]))] (YPath [(id_Option, [(YPath [(id_Self, []); (id_Item, [])])])])
    (ESeq (EIf (EBin OEq (EField (EPath [(id_self, [])]) id_len) (EInt (0)%Z None)) (EReturn (EPath [(id_None, [])])) EUnit) (ELet (PVar id_index) None (Some (EField (EPath [(id_self, [])]) id_pos)) None
      (ELet (PVar id_item) None (Some (EMethod (EMethod (EField (EPath [(id_self, [])]) id_buf) id_get_unchecked [] [(EPath [(id_index, [])])]) id_assume_init_read [] [])) None
      (ESeq (EAssign (Some OSub) (EField (EPath [(id_self, [])]) id_len) (EInt (1)%Z None)) (ESeq (EAssign (Some OAdd) (EField (EPath [(id_self, [])]) id_pos) (EInt (1)%Z None)) (ECall (EPath [(id_Some, [])]) [(EPath [(id_item, [])])])))))).

(* oct/src/sized_iter/mod.rs:148, a loop in it *)
Definition src_Iterator_SizedIter_T_N_nth_loop0 : expr :=
    (ESeq (EMethod (EPath [(id_item, [])]) id_assume_init_drop [] []) EUnit).

(* oct/src/sized_iter/mod.rs:148 *)
Definition src_Iterator_SizedIter_T_N_nth : fn := Fn id_nth [] [((PVar id_self), (YPath [(id_Self, [])])); ((PVar id_index), (YPath [(id_usize, [])]))] (YPath [(id_Option, [(YPath [(id_Self, []); (id_Item, [])])])])
    (ESeq (EIf (EBin OGt (EPath [(id_index, [])]) (EField (EPath [(id_self, [])]) id_len)) (EReturn (EPath [(id_None, [])])) EUnit) (ELet (PVar id_skipped) None (Some (ELet (PVar id_start) None (Some (EField (EPath [(id_self, [])]) id_pos)) None
      (ELet (PVar id_stop) None (Some (EBin OSub (EBin OAdd (EPath [(id_start, [])]) (EPath [(id_index, [])])) (EInt (1)%Z None))) None
      (EMethod (EField (EPath [(id_self, [])]) id_buf) id_get_unchecked_mut [] [(ERange (Some (EPath [(id_start, [])])) (Some (EPath [(id_stop, [])])) false)])))) None
      (ESeq (EFor (PVar id_item) (EPath [(id_skipped, [])]) src_Iterator_SizedIter_T_N_nth_loop0) (ELet (PVar id_item) None (Some (EMethod (EMethod (EField (EPath [(id_self, [])]) id_buf) id_get_unchecked [] [(EPath [(id_index, [])])]) id_assume_init_read [] [])) None
      (ESeq (EAssign (Some OSub) (EField (EPath [(id_self, [])]) id_len) (EPath [(id_index, [])])) (ESeq (EAssign (Some OAdd) (EField (EPath [(id_self, [])]) id_pos) (EPath [(id_index, [])])) (ECall (EPath [(id_Some, [])]) [(EPath [(id_item, [])])]))))))).

(* oct/src/sized_iter/mod.rs:178 *)
Definition src_Iterator_SizedIter_T_N_size_hint : fn := Fn id_size_hint [] [((PVar id_self), (YPath [(id_Self, [])]))] (YTup [(YPath [(id_usize, [])]); (YPath [(id_Option, [(YPath [(id_usize, [])])])])])
    (ELet (PVar id_rem) None (Some (EMethod (EField (EPath [(id_self, [])]) id_len) id_unchecked_sub [] [(EField (EPath [(id_self, [])]) id_pos)])) None
      (ETuple [(EPath [(id_rem, [])]); (ECall (EPath [(id_Some, [])]) [(EPath [(id_rem, [])])])])).

(* oct/src/sized_iter/mod.rs:130 *)
Definition src_Iterator_SizedIter_T_N : impl :=
  Impl [id_T] [id_N] [] (Some [(id_Iterator, [])]) (YPath [(id_SizedIter, [(YPath [(id_T, [])]); (YPath [(id_N, [])])])])
    [] [(id_Item, (YPath [(id_T, [])]))] [src_Iterator_SizedIter_T_N_next; src_Iterator_SizedIter_T_N_nth; src_Iterator_SizedIter_T_N_size_hint].

(* all of them, in the order of the files *)
Definition src_sizediter_impls : list impl := [src_impl_SizedIter_T_N; src_AsMut_slice_SizedIter_T_N; src_AsRef_slice_SizedIter_T_N; src_Clone_SizedIter_T_N; src_DoubleEndedIterator_SizedIter_T_N; src_ExactSizeIterator_SizedIter_T_N; src_FusedIterator_SizedIter_T_N; src_Iterator_SizedIter_T_N].
