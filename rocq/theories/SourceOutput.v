(* Generated by tools/rust2v.py from oct/src/encode/output/mod.rs. Do not edit. *)
From Coq Require Import String.
From Verif Require Import Base SourceNames SourceSyntax.
Local Open Scope list_scope.

(* oct/src/encode/output/mod.rs:39 *)
Definition src_impl_Output_new : fn := Fn id_new [] [((PVar id_buf), (YRef true (YSlice (YPath [(id_u8, [])]))))] (YPath [(id_Self, [])])
    (ERec [(id_Self, [])] [(id_buf, (EPath [(id_buf, [])])); (id_pos, (EInt (0)%Z None))]).

(* oct/src/encode/output/mod.rs:49 *)
Definition src_impl_Output_write : fn := Fn id_write [] [((PVar id_self), (YPath [(id_Self, [])])); ((PVar id_data), (YRef false (YSlice (YPath [(id_u8, [])]))))] (YPath [(id_Result, [(YTup []); (YPath [(id_OutputError, [])])])])
    (ELet (PVar id_remaining) None (Some (EBin OSub (EMethod (EField (EPath [(id_self, [])]) id_buf) id_len [] []) (EField (EPath [(id_self, [])]) id_pos))) None
      (ELet (PVar id_count) None (Some (EMethod (EPath [(id_data, [])]) id_len [] [])) None
      (ESeq (EIf (EBin OLt (EPath [(id_remaining, [])]) (EPath [(id_count, [])])) (ESeq (EReturn (ECall (EPath [(id_Err, [])]) [(ERec [(id_OutputError, [])] [(id_capacity, (EMethod (EField (EPath [(id_self, [])]) id_buf) id_len [] [])); (id_position, (EField (EPath [(id_self, [])]) id_pos)); (id_count, (EPath [(id_count, [])]))])])) EUnit) EUnit) (ESeq (ELet (PVar id_src) None (Some (EMethod (EPath [(id_data, [])]) id_as_ptr [] [])) None
      (ELet (PVar id_dst) None (Some (EMethod (EMethod (EField (EPath [(id_self, [])]) id_buf) id_as_mut_ptr [] []) id_add [] [(EField (EPath [(id_self, [])]) id_pos)])) None
      (ESeq (ECall (EPath [(id_copy_nonoverlapping, [])]) [(EPath [(id_src, [])]); (EPath [(id_dst, [])]); (EPath [(id_count, [])])]) EUnit))) (ESeq (EAssign (Some OAdd) (EField (EPath [(id_self, [])]) id_pos) (EPath [(id_count, [])])) (ECall (EPath [(id_Ok, [])]) [(ETuple [])])))))).

(* oct/src/encode/output/mod.rs:76 *)
Definition src_impl_Output_as_ptr : fn := Fn id_as_ptr [] [((PVar id_self), (YPath [(id_Self, [])]))] (YPtr false (YPath [(id_u8, [])]))
    (EMethod (EField (EPath [(id_self, [])]) id_buf) id_as_ptr [] []).

(* oct/src/encode/output/mod.rs:83 *)
Definition src_impl_Output_as_slice : fn := Fn id_as_slice [] [((PVar id_self), (YPath [(id_Self, [])]))] (YRef false (YSlice (YPath [(id_u8, [])])))
    (ELet (PVar id_ptr) None (Some (EMethod (EPath [(id_self, [])]) id_as_ptr [] [])) None
      (ELet (PVar id_len) None (Some (EMethod (EPath [(id_self, [])]) id_position [] [])) None
      (ECall (EPath [(id_slice, []); (id_from_raw_parts, [])]) [(EPath [(id_ptr, [])]); (EPath [(id_len, [])])]))).

(* oct/src/encode/output/mod.rs:95 *)
Definition src_impl_Output_capacity : fn := Fn id_capacity [] [((PVar id_self), (YPath [(id_Self, [])]))] (YPath [(id_usize, [])])
    (EMethod (EField (EPath [(id_self, [])]) id_buf) id_len [] []).

(* oct/src/encode/output/mod.rs:102 *)
Definition src_impl_Output_remaining : fn := Fn id_remaining [] [((PVar id_self), (YPath [(id_Self, [])]))] (YPath [(id_usize, [])])
    (EMethod (EMethod (EPath [(id_self, [])]) id_capacity [] []) id_unchecked_sub [] [(EMethod (EPath [(id_self, [])]) id_position [] [])]).

(* oct/src/encode/output/mod.rs:111 *)
Definition src_impl_Output_position : fn := Fn id_position [] [((PVar id_self), (YPath [(id_Self, [])]))] (YPath [(id_usize, [])])
    (EField (EPath [(id_self, [])]) id_pos).

(* oct/src/encode/output/mod.rs:35 *)
Definition src_impl_Output : impl :=
  Impl [] [] [] None (YPath [(id_Output, [])])
    [] [] [src_impl_Output_new; src_impl_Output_write; src_impl_Output_as_ptr; src_impl_Output_as_slice; src_impl_Output_capacity; src_impl_Output_remaining; src_impl_Output_position].

(* oct/src/encode/output/mod.rs:118 *)
Definition src_AsRef_slice_Output_as_ref : fn := Fn id_as_ref [] [((PVar id_self), (YPath [(id_Self, [])]))] (YRef false (YSlice (YPath [(id_u8, [])])))
    (EMethod (EPath [(id_self, [])]) id_as_slice [] []).

(* oct/src/encode/output/mod.rs:116 *)
Definition src_AsRef_slice_Output : impl :=
  Impl [] [] [] (Some [(id_AsRef, [(YSlice (YPath [(id_u8, [])]))])]) (YPath [(id_Output, [])])
    [] [] [src_AsRef_slice_Output_as_ref].

(* oct/src/encode/output/mod.rs:125 *)
Definition src_Borrow_slice_Output_borrow : fn := Fn id_borrow [] [((PVar id_self), (YPath [(id_Self, [])]))] (YRef false (YSlice (YPath [(id_u8, [])])))
    (EMethod (EPath [(id_self, [])]) id_as_slice [] []).

(* oct/src/encode/output/mod.rs:123 *)
Definition src_Borrow_slice_Output : impl :=
  Impl [] [] [] (Some [(id_Borrow, [(YSlice (YPath [(id_u8, [])]))])]) (YPath [(id_Output, [])])
    [] [] [src_Borrow_slice_Output_borrow].

(* oct/src/encode/output/mod.rs:132 *)
Definition src_PartialEq_Output_eq : fn := Fn id_eq [] [((PVar id_self), (YPath [(id_Self, [])])); ((PVar id_other), (YRef false (YPath [(id_Self, [])])))] (YPath [(id_bool, [])])
    (EBin OEq (EMethod (EPath [(id_self, [])]) id_as_slice [] []) (EMethod (EPath [(id_other, [])]) id_as_slice [] [])).

(* oct/src/encode/output/mod.rs:130 *)
Definition src_PartialEq_Output : impl :=
  Impl [] [] [] (Some [(id_PartialEq, [])]) (YPath [(id_Output, [])])
    [] [] [src_PartialEq_Output_eq].

(* oct/src/encode/output/mod.rs:139 *)
Definition src_PartialEq_slice_Output_eq : fn := Fn id_eq [] [((PVar id_self), (YPath [(id_Self, [])])); ((PVar id_other), (YRef false (YSlice (YPath [(id_u8, [])]))))] (YPath [(id_bool, [])])
    (EBin OEq (EMethod (EPath [(id_self, [])]) id_as_slice [] []) (EPath [(id_other, [])])).

(* oct/src/encode/output/mod.rs:137 *)
Definition src_PartialEq_slice_Output : impl :=
  Impl [] [] [] (Some [(id_PartialEq, [(YSlice (YPath [(id_u8, [])]))])]) (YPath [(id_Output, [])])
    [] [] [src_PartialEq_slice_Output_eq].

(* oct/src/encode/output/mod.rs:146 *)
Definition src_PartialEq_ref_Output_eq : fn := Fn id_eq [] [((PVar id_self), (YPath [(id_Self, [])])); ((PVar id_other), (YRef false (YRef false (YSlice (YPath [(id_u8, [])])))))] (YPath [(id_bool, [])])
    (EBin OEq (EMethod (EPath [(id_self, [])]) id_as_slice [] []) (EDeref (EPath [(id_other, [])]))).

(* oct/src/encode/output/mod.rs:144 *)
Definition src_PartialEq_ref_Output : impl :=
  Impl [] [] [] (Some [(id_PartialEq, [(YRef false (YSlice (YPath [(id_u8, [])])))])]) (YPath [(id_Output, [])])
    [] [] [src_PartialEq_ref_Output_eq].

(* oct/src/encode/output/mod.rs:153 *)
Definition src_PartialEq_ref_mut_Output_eq : fn := Fn id_eq [] [((PVar id_self), (YPath [(id_Self, [])])); ((PVar id_other), (YRef false (YRef true (YSlice (YPath [(id_u8, [])])))))] (YPath [(id_bool, [])])
    (EBin OEq (EMethod (EPath [(id_self, [])]) id_as_slice [] []) (EDeref (EPath [(id_other, [])]))).

(* oct/src/encode/output/mod.rs:151 *)
Definition src_PartialEq_ref_mut_Output : impl :=
  Impl [] [] [] (Some [(id_PartialEq, [(YRef true (YSlice (YPath [(id_u8, [])])))])]) (YPath [(id_Output, [])])
    [] [] [src_PartialEq_ref_mut_Output_eq].

(* all of them, in the order of the files *)
Definition src_output_impls : list impl := [src_impl_Output; src_AsRef_slice_Output; src_Borrow_slice_Output; src_PartialEq_Output; src_PartialEq_slice_Output; src_PartialEq_ref_Output; src_PartialEq_ref_mut_Output].
