(* C122, continued: programs that call the text of SizedSlice. *)
From Coq Require Import List Lia.
From Verif Require Import Base Types Mem SizedSlice SourceNames SourceSyntax SourceMeaning SourceMemory SourceSizedSlice SpecMemory SpecHistory SpecHistorySized RunExamples HistorySizedProofs.
Import ListNotations.

(* Whatever a program does with a SizedSlice through the text of its functions, it holds a list of at most N items: each call does to the items, and answers, what a
   list would; at the end the length, the capacity and the items are the list's. A call that a list has no answer to (too much data for copy_from_slice: C54) is
   undefined, and no other call is. *)
Theorem C122_sized : forall A S (c : mctx A S) (cl : A -> A), (forall x, k_clone c x = Some (cl x)) ->
  forall rest d calls ys rs, list_history (k_len c) cl [] calls = Some (ys, rs) ->
  exists a b, text_sized c rest d calls = Some (a, b, rs) /\ length ys <= k_len c /\
  (forall rest d, let m := Memory (a :: b :: rest) d in
     called c id_SizedSlice src_impl_SizedSlice_T_N_capacity [MRef 0] m = (m, FDone (MNum (k_len c))) /\
     called c id_SizedSlice src_impl_SizedSlice_T_N_len [MRef 0] m = (m, FDone (MNum (length ys))) /\
     called c id_SizedSlice src_impl_SizedSlice_T_N_3_as_slice [MRef 0] m = (m, FDone (MSlice 1 0 (length ys))) /\
     items_at m 1 0 (length ys) = Some ys) /\
  forall k, list_step (k_len c) cl ys k = None -> snd (text_sized_call c a b k) = FUndef UOutOfBounds.
Proof. exact @C122_sized_lemma. Qed.
Print Assumptions C122_sized.
(* too much data for `new`, three items, one changed, one past the end, two items over them, a clone *)
Example C122_sized_case :
  let c := sample_context 3 true in
  let calls := [SizedNew [] [x01; x02; x03; x04] [] [] []; SizedNew [None] [x01; x02; x03] [] [OUser 1] []; SizedSet 2 xaa [] []; SizedSet 3 xbb [] [MNum 1];
                SizedCopy [None] [x0a; x0b] [None] [] []; SizedSet 2 xcc [] []; SizedClone [OUser 7] []] in
  let rs := [Err (LengthError 3 4); Ok tt; Ok tt; Panic PIndex; Ok tt; Panic PIndex; Ok tt] in
  (forall x, k_clone c x = Some x) /\ list_history 3 (fun x => x) [] calls = Some ([x0a; x0b], rs) /\
  exists a, text_sized c [OUser 2] [] calls = Some (a, OBuf (raw [Some x0a; Some x0b; None]), rs).
Proof. split; [reflexivity|]. split; [reflexivity|]. eexists. vm_compute. reflexivity. Qed.
