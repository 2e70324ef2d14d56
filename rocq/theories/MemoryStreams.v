(* The functions of Output and Input, run from their text: proofs. *)
From Coq Require Import Lia.
From Verif Require Import Base Streams Types Mem SourceNames SourceSyntax SourceMeaning SourceMemory SourceOutput SourceInput SpecMemory MemoryRules MemoryCells.

Section Streams.
Variables (S : Type) (c : mctx byte S).
Implicit Types (pre post : list (option (mval byte))) (o : output) (i : input) (rest : list (mobj byte S)) (d : list (mval byte)).

Ltac start := intros; unfold called, output_obj, input_obj, within, error_obj in *.

Lemma text_output_new : forall pre bs post rest d,
  called c id_Output src_impl_Output_new [MSlice 0 (length pre) (length bs)] (Memory (within pre bs post :: rest) d) =
  (Memory (within pre bs post :: rest ++ [output_obj 0 (length pre) (output_new bs)]) d, FDone (MRef (1 + length rest))).
Proof. start. go. reflexivity. Qed.

Lemma text_output_capacity : forall b off o rest d,
  called c id_Output src_impl_Output_capacity [MRef 0] (Memory (output_obj b off o :: rest) d) =
  (Memory (output_obj b off o :: rest) d, FDone (MNum (output_capacity o))).
Proof. start. go. reflexivity. Qed.
Lemma text_output_position : forall b off o rest d,
  called c id_Output src_impl_Output_position [MRef 0] (Memory (output_obj b off o :: rest) d) =
  (Memory (output_obj b off o :: rest) d, FDone (MNum (output_position o))).
Proof. start. go. reflexivity. Qed.
Lemma text_output_remaining : forall b off o rest d, o_pos o <= length (o_buf o) ->
  called c id_Output src_impl_Output_remaining [MRef 0] (Memory (output_obj b off o :: rest) d) =
  (Memory (output_obj b off o :: rest) d, FDone (MNum (output_remaining o))).
Proof. start. go. reflexivity. Qed.
Lemma text_output_as_ptr : forall b off o rest d,
  called c id_Output src_impl_Output_as_ptr [MRef 0] (Memory (output_obj b off o :: rest) d) =
  (Memory (output_obj b off o :: rest) d, FDone (MPtr b off (off + length (o_buf o)) off)).
Proof. start. go. reflexivity. Qed.

Lemma text_output_write : forall pre o post pre' data post' rest d, o_pos o <= length (o_buf o) -> (Z.of_nat (length (o_buf o)) < 2 ^ 64)%Z ->
  called c id_Output src_impl_Output_write [MRef 0; MSlice 2 (length pre') (length data)]
    (Memory (output_obj 1 (length pre) o :: within pre (o_buf o) post :: within pre' data post' :: rest) d) =
  match output_write o data with
  | (o', Ok _) => (Memory (output_obj 1 (length pre) o' :: within pre (o_buf o') post :: within pre' data post' :: rest) d, FDone (MCon id_Ok [MTup []]))
  | (o', Err e) =>
    (Memory (output_obj 1 (length pre) o' :: within pre (o_buf o') post :: within pre' data post' :: rest ++ [error_obj id_OutputError e]) d,
     FDone (MCon id_Err [MRef (3 + length rest)]))
  | (o', Panic p) => (Memory (output_obj 1 (length pre) o' :: within pre (o_buf o') post :: within pre' data post' :: rest) d, FFail p)
  end.
Proof.
  start. unfold output_write. go. branch E.
  - go. reflexivity.
  - go. rewrite taken_mid0 by sizes. rewrite firstn_all. rewrite stored_mid by sizes. cbn [o_buf o_pos].
    replace (length (firstn (o_pos o) (o_buf o) ++ data ++ skipn (o_pos o + length data) (o_buf o))) with (length (o_buf o)) by sizes. reflexivity.
Qed.

Lemma text_output_as_slice : forall pre o post rest d, o_pos o <= length (o_buf o) ->
  called c id_Output src_impl_Output_as_slice [MRef 0] (Memory (output_obj 1 (length pre) o :: within pre (o_buf o) post :: rest) d) =
  (Memory (output_obj 1 (length pre) o :: within pre (o_buf o) post :: rest) d, FDone (MSlice 1 (length pre) (length (output_as_slice o)))).
Proof. start. go. unfold output_as_slice. rewrite firstn_length. do 3 f_equal. sizes. Qed.
Lemma text_output_as_ref : forall pre o post rest d, o_pos o <= length (o_buf o) ->
  called c id_Output src_AsRef_slice_Output_as_ref [MRef 0] (Memory (output_obj 1 (length pre) o :: within pre (o_buf o) post :: rest) d) =
  (Memory (output_obj 1 (length pre) o :: within pre (o_buf o) post :: rest) d, FDone (MSlice 1 (length pre) (length (output_as_slice o)))).
Proof. start. go. unfold output_as_slice. rewrite firstn_length. do 3 f_equal. sizes. Qed.
Lemma text_output_borrow : forall pre o post rest d, o_pos o <= length (o_buf o) ->
  called c id_Output src_Borrow_slice_Output_borrow [MRef 0] (Memory (output_obj 1 (length pre) o :: within pre (o_buf o) post :: rest) d) =
  (Memory (output_obj 1 (length pre) o :: within pre (o_buf o) post :: rest) d, FDone (MSlice 1 (length pre) (length (output_as_slice o)))).
Proof. start. go. unfold output_as_slice. rewrite firstn_length. do 3 f_equal. sizes. Qed.

Lemma eq_of_bytes : k_eq c = byte_eqb -> forall a b, slice_eq (k_eq c) a b = bytes_eqb a b.
Proof. intros ->. induction a as [|x a IH]; destruct b as [|y b]; cbn; try reflexivity. now rewrite IH. Qed.
Lemma text_output_eq : forall pre o post pre' o' post' rest d, k_eq c = byte_eqb -> o_pos o <= length (o_buf o) -> o_pos o' <= length (o_buf o') ->
  called c id_Output src_PartialEq_Output_eq [MRef 0; MRef 2]
    (Memory (output_obj 1 (length pre) o :: within pre (o_buf o) post :: output_obj 3 (length pre') o' :: within pre' (o_buf o') post' :: rest) d) =
  (Memory (output_obj 1 (length pre) o :: within pre (o_buf o) post :: output_obj 3 (length pre') o' :: within pre' (o_buf o') post' :: rest) d,
   FDone (MBool (output_eqb o o'))).
Proof. start. go. now rewrite eq_of_bytes. Qed.
Lemma text_output_eq_slice : forall f pre o post pre' bs post' rest d, k_eq c = byte_eqb -> o_pos o <= length (o_buf o) ->
  f = src_PartialEq_slice_Output_eq \/ f = src_PartialEq_ref_Output_eq \/ f = src_PartialEq_ref_mut_Output_eq ->
  called c id_Output f [MRef 0; MSlice 2 (length pre') (length bs)]
    (Memory (output_obj 1 (length pre) o :: within pre (o_buf o) post :: within pre' bs post' :: rest) d) =
  (Memory (output_obj 1 (length pre) o :: within pre (o_buf o) post :: within pre' bs post' :: rest) d, FDone (MBool (output_eqb_slice o bs))).
Proof. start. destruct H1 as [-> | [-> | ->]]; go; rewrite firstn_all; now rewrite eq_of_bytes. Qed.

(* ---- Input *)
Lemma text_input_new : forall pre bs post rest d,
  called c id_Input src_impl_Input_new [MSlice 0 (length pre) (length bs)] (Memory (within pre bs post :: rest) d) =
  (Memory (within pre bs post :: rest ++ [input_obj 0 (length pre) (input_new bs)]) d, FDone (MRef (1 + length rest))).
Proof. start. go. reflexivity. Qed.
Lemma text_input_capacity : forall b off i rest d,
  called c id_Input src_impl_Input_capacity [MRef 0] (Memory (input_obj b off i :: rest) d) =
  (Memory (input_obj b off i :: rest) d, FDone (MNum (input_capacity i))).
Proof. start. go. reflexivity. Qed.
Lemma text_input_position : forall b off i rest d,
  called c id_Input src_impl_Input_position [MRef 0] (Memory (input_obj b off i :: rest) d) =
  (Memory (input_obj b off i :: rest) d, FDone (MNum (input_position i))).
Proof. start. go. reflexivity. Qed.
Lemma text_input_remaining : forall b off i rest d, i_pos i <= length (i_buf i) ->
  called c id_Input src_impl_Input_remaining [MRef 0] (Memory (input_obj b off i :: rest) d) =
  (Memory (input_obj b off i :: rest) d, FDone (MNum (input_remaining i))).
Proof. start. go. reflexivity. Qed.

(* the slice that `read` returns is the one of the buffer of the input, where its position was *)
Lemma text_input_read : forall pre i post count rest d, i_pos i <= length (i_buf i) -> (Z.of_nat (length (i_buf i)) < 2 ^ 64)%Z ->
  called c id_Input src_impl_Input_read [MRef 0; MNum count] (Memory (input_obj 1 (length pre) i :: within pre (i_buf i) post :: rest) d) =
  match input_read i count with
  | (i', Ok bs) =>
    (Memory (input_obj 1 (length pre) i' :: within pre (i_buf i') post :: rest) d,
     FDone (MCon id_Ok [MSlice 1 (length (pre ++ filled (firstn (i_pos i) (i_buf i)))) (length bs)]))
  | (i', Err e) =>
    (Memory (input_obj 1 (length pre) i' :: within pre (i_buf i') post :: rest ++ [error_obj id_InputError e]) d,
     FDone (MCon id_Err [MRef (2 + length rest)]))
  | (i', Panic p) => (Memory (input_obj 1 (length pre) i' :: within pre (i_buf i') post :: rest) d, FFail p)
  end.
Proof.
  start. unfold input_read. go. branch E.
  - go. reflexivity.
  - go. cbn [i_buf i_pos]. do 5 f_equal; sizes.
Qed.
Lemma input_read_there : forall pre i post count i' bs, i_pos i <= length (i_buf i) -> input_read i count = (i', Ok bs) ->
  within (S := S) pre (i_buf i) post = within (pre ++ filled (firstn (i_pos i) (i_buf i))) bs (filled (skipn (length bs) (skipn (i_pos i) (i_buf i))) ++ post).
Proof.
  unfold input_read, within. intros * L. destruct (Nat.ltb_spec (length (i_buf i) - i_pos i) count); [discriminate|]. intros [= <- <-].
  rewrite firstn_length, skipn_length. replace (Nat.min count (length (i_buf i) - i_pos i)) with count by lia.
  rewrite <- !app_assoc, (app_assoc (filled (firstn count _))), <- filled_app, firstn_skipn, (app_assoc (filled (firstn _ _))), <- filled_app, firstn_skipn.
  reflexivity.
Qed.

Lemma text_input_read_into : forall pre i post pre' dst post' rest d, i_pos i <= length (i_buf i) -> (Z.of_nat (length (i_buf i)) < 2 ^ 64)%Z ->
  called c id_Input src_impl_Input_read_into [MRef 0; MSlice 2 (length pre') (length dst)]
    (Memory (input_obj 1 (length pre) i :: within pre (i_buf i) post :: within pre' dst post' :: rest) d) =
  match input_read_into i dst with
  | (i', dst', Ok _) =>
    (Memory (input_obj 1 (length pre) i' :: within pre (i_buf i') post :: within pre' dst' post' :: rest) d, FDone (MCon id_Ok [MTup []]))
  | (i', dst', Err e) =>
    (Memory (input_obj 1 (length pre) i' :: within pre (i_buf i') post :: within pre' dst' post' :: rest ++ [error_obj id_InputError e]) d,
     FDone (MCon id_Err [MRef (3 + length rest)]))
  | (i', dst', Panic p) => (Memory (input_obj 1 (length pre) i' :: within pre (i_buf i') post :: within pre' dst' post' :: rest) d, FFail p)
  end.
Proof.
  start. unfold input_read_into. go. branch E.
  - go. reflexivity.
  - go. rewrite taken_mid by sizes. rewrite stored_mid0 by sizes. rewrite skipn_all, app_nil_r. reflexivity.
Qed.
End Streams.
