(* Generated by tools/rust2v.py from oct/src/decode/input/mod.rs. Do not edit. *)
From Coq Require Import String.
From Verif Require Import Base SourceNames SourceSyntax.
Local Open Scope list_scope.

(* oct/src/decode/input/mod.rs:37 *)
Definition src_impl_Input_new : fn := Fn id_new [] [((PVar id_buf), (YRef false (YSlice (YPath [(id_u8, [])]))))] (YPath [(id_Self, [])])
    (ERec [(id_Self, [])] [(id_buf, (EPath [(id_buf, [])])); (id_pos, (EInt (0)%Z None))]).

(* oct/src/decode/input/mod.rs:49 *)
Definition src_impl_Input_read : fn := Fn id_read [] [((PVar id_self), (YPath [(id_Self, [])])); ((PVar id_count), (YPath [(id_usize, [])]))] (YPath [(id_Result, [(YRef false (YSlice (YPath [(id_u8, [])]))); (YPath [(id_InputError, [])])])])
    (ELet (PVar id_remaining) None (Some (EBin OSub (EMethod (EField (EPath [(id_self, [])]) id_buf) id_len [] []) (EField (EPath [(id_self, [])]) id_pos))) None
      (ESeq (EIf (EBin OLt (EPath [(id_remaining, [])]) (EPath [(id_count, [])])) (ESeq (EReturn (ECall (EPath [(id_Err, [])]) [(ERec [(id_InputError, [])] [(id_capacity, (EMethod (EField (EPath [(id_self, [])]) id_buf) id_len [] [])); (id_position, (EField (EPath [(id_self, [])]) id_pos)); (id_count, (EPath [(id_count, [])]))])])) EUnit) EUnit) (ELet (PVar id_data) None (Some (ELet (PVar id_ptr) None (Some (EMethod (EMethod (EField (EPath [(id_self, [])]) id_buf) id_as_ptr [] []) id_add [] [(EField (EPath [(id_self, [])]) id_pos)])) None
      (ECall (EPath [(id_slice, []); (id_from_raw_parts, [])]) [(EPath [(id_ptr, [])]); (EPath [(id_count, [])])]))) None
      (ESeq (EAssign (Some OAdd) (EField (EPath [(id_self, [])]) id_pos) (EPath [(id_count, [])])) (ECall (EPath [(id_Ok, [])]) [(EPath [(id_data, [])])]))))).

(* oct/src/decode/input/mod.rs:79 *)
Definition src_impl_Input_read_into : fn := Fn id_read_into [] [((PVar id_self), (YPath [(id_Self, [])])); ((PVar id_buf), (YRef true (YSlice (YPath [(id_u8, [])]))))] (YPath [(id_Result, [(YTup []); (YPath [(id_InputError, [])])])])
    (ELet (PVar id_count) None (Some (EMethod (EPath [(id_buf, [])]) id_len [] [])) None
      (ELet (PVar id_remaining) None (Some (EMethod (EPath [(id_self, [])]) id_remaining [] [])) None
      (ESeq (EIf (EBin OLt (EPath [(id_remaining, [])]) (EPath [(id_count, [])])) (ESeq (EReturn (ECall (EPath [(id_Err, [])]) [(ERec [(id_InputError, [])] [(id_capacity, (EMethod (EField (EPath [(id_self, [])]) id_buf) id_len [] [])); (id_position, (EField (EPath [(id_self, [])]) id_pos)); (id_count, (EPath [(id_count, [])]))])])) EUnit) EUnit) (ESeq (ELet (PVar id_src) None (Some (EMethod (EMethod (EField (EPath [(id_self, [])]) id_buf) id_as_ptr [] []) id_add [] [(EField (EPath [(id_self, [])]) id_pos)])) None
      (ELet (PVar id_dst) None (Some (EMethod (EPath [(id_buf, [])]) id_as_mut_ptr [] [])) None
      (ESeq (ECall (EPath [(id_copy_nonoverlapping, [])]) [(EPath [(id_src, [])]); (EPath [(id_dst, [])]); (EPath [(id_count, [])])]) EUnit))) (ESeq (EAssign (Some OAdd) (EField (EPath [(id_self, [])]) id_pos) (EPath [(id_count, [])])) (ECall (EPath [(id_Ok, [])]) [(ETuple [])])))))).

(* oct/src/decode/input/mod.rs:106 *)
Definition src_impl_Input_capacity : fn := Fn id_capacity [] [((PVar id_self), (YPath [(id_Self, [])]))] (YPath [(id_usize, [])])
    (EMethod (EField (EPath [(id_self, [])]) id_buf) id_len [] []).

(* oct/src/decode/input/mod.rs:113 *)
Definition src_impl_Input_remaining : fn := Fn id_remaining [] [((PVar id_self), (YPath [(id_Self, [])]))] (YPath [(id_usize, [])])
    (EMethod (EMethod (EPath [(id_self, [])]) id_capacity [] []) id_unchecked_sub [] [(EMethod (EPath [(id_self, [])]) id_position [] [])]).

(* oct/src/decode/input/mod.rs:122 *)
Definition src_impl_Input_position : fn := Fn id_position [] [((PVar id_self), (YPath [(id_Self, [])]))] (YPath [(id_usize, [])])
    (EField (EPath [(id_self, [])]) id_pos).

(* oct/src/decode/input/mod.rs:33 *)
Definition src_impl_Input : impl :=
  Impl [] [] [] None (YPath [(id_Input, [])])
    [] [] [src_impl_Input_new; src_impl_Input_read; src_impl_Input_read_into; src_impl_Input_capacity; src_impl_Input_remaining; src_impl_Input_position].

(* all of them, in the order of the files *)
Definition src_input_impls : list impl := [src_impl_Input].
