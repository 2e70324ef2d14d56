(* C118: the functions of Output, Input, Slot, SizedIter, SizedSlice and SizedStr, run from their text, do what the models of them say. *)
From Coq Require Import List.
From Verif Require Import Base Streams Utf8 Types Encode Decode Mem Slot SizedSlice SizedIter SizedStr.
From Verif Require Import SourceNames SourceSyntax SourceMeaning SourceMemory SourceOutput SourceInput SourceSlot SourceSizedIter SourceSizedSlice SourceSizedStr.
From Verif Require Import SpecMemory MemoryStreams MemorySlot MemoryIter MemorySized MemoryStr RunExamples.
Import ListNotations.

(* the object comes first, then its buffer, then the rest of the memory *)
Local Notation slot_at s rest d := (Memory (slot_obj 1 s :: OBuf (filled (s_buf s)) :: rest) d).
Local Notation iter_at i rest d := (Memory (iter_obj 1 i :: OBuf (raw (it_buf i)) :: rest) d).
Local Notation sized_at s rest d := (Memory (sized_obj 1 s :: OBuf (raw (ss_buf s)) :: rest) d).
Local Notation str_at s rest d := (Memory (str_obj 1 :: sized_obj 2 s :: OBuf (raw (ss_buf s)) :: rest) d).
Local Notation holds s := (ss_len s <= length (ss_buf s)).

Theorem C118_output_new : forall St (c : mctx byte St) pre bs post rest d,
  called c id_Output src_impl_Output_new [MSlice 0 (length pre) (length bs)] (Memory (within pre bs post :: rest) d) =
  (Memory (within pre bs post :: rest ++ [output_obj 0 (length pre) (output_new bs)]) d, FDone (MRef (1 + length rest))).
Proof. exact text_output_new. Qed.
Print Assumptions C118_output_new.

Theorem C118_output_capacity : forall St (c : mctx byte St) b off o rest d,
  called c id_Output src_impl_Output_capacity [MRef 0] (Memory (output_obj b off o :: rest) d) =
  (Memory (output_obj b off o :: rest) d, FDone (MNum (output_capacity o))).
Proof. exact text_output_capacity. Qed.
Print Assumptions C118_output_capacity.

Theorem C118_output_position : forall St (c : mctx byte St) b off o rest d,
  called c id_Output src_impl_Output_position [MRef 0] (Memory (output_obj b off o :: rest) d) =
  (Memory (output_obj b off o :: rest) d, FDone (MNum (output_position o))).
Proof. exact text_output_position. Qed.
Print Assumptions C118_output_position.

Theorem C118_output_remaining : forall St (c : mctx byte St) b off o rest d, o_pos o <= length (o_buf o) ->
  called c id_Output src_impl_Output_remaining [MRef 0] (Memory (output_obj b off o :: rest) d) =
  (Memory (output_obj b off o :: rest) d, FDone (MNum (output_remaining o))).
Proof. exact text_output_remaining. Qed.
Print Assumptions C118_output_remaining.

Theorem C118_output_as_ptr : forall St (c : mctx byte St) b off o rest d,
  called c id_Output src_impl_Output_as_ptr [MRef 0] (Memory (output_obj b off o :: rest) d) =
  (Memory (output_obj b off o :: rest) d, FDone (MPtr b off (off + length (o_buf o)) off)).
Proof. exact text_output_as_ptr. Qed.
Print Assumptions C118_output_as_ptr.

Theorem C118_output_write : forall St (c : mctx byte St) pre o post pre' data post' rest d, o_pos o <= length (o_buf o) -> (Z.of_nat (length (o_buf o)) < 2 ^ 64)%Z ->
  called c id_Output src_impl_Output_write [MRef 0; MSlice 2 (length pre') (length data)]
    (Memory (output_obj 1 (length pre) o :: within pre (o_buf o) post :: within pre' data post' :: rest) d) =
  match output_write o data with
  | (o', Ok _) => (Memory (output_obj 1 (length pre) o' :: within pre (o_buf o') post :: within pre' data post' :: rest) d, FDone (MCon id_Ok [MTup []]))
  | (o', Err e) =>
    (Memory (output_obj 1 (length pre) o' :: within pre (o_buf o') post :: within pre' data post' :: rest ++ [error_obj id_OutputError e]) d,
     FDone (MCon id_Err [MRef (3 + length rest)]))
  | (o', Panic p) => (Memory (output_obj 1 (length pre) o' :: within pre (o_buf o') post :: within pre' data post' :: rest) d, FFail p)
  end.
Proof. exact text_output_write. Qed.
Print Assumptions C118_output_write.

Theorem C118_output_as_slice : forall St (c : mctx byte St) pre o post rest d, o_pos o <= length (o_buf o) ->
  called c id_Output src_impl_Output_as_slice [MRef 0] (Memory (output_obj 1 (length pre) o :: within pre (o_buf o) post :: rest) d) =
  (Memory (output_obj 1 (length pre) o :: within pre (o_buf o) post :: rest) d, FDone (MSlice 1 (length pre) (length (output_as_slice o)))).
Proof. exact text_output_as_slice. Qed.
Print Assumptions C118_output_as_slice.

Theorem C118_output_as_ref : forall St (c : mctx byte St) pre o post rest d, o_pos o <= length (o_buf o) ->
  called c id_Output src_AsRef_slice_Output_as_ref [MRef 0] (Memory (output_obj 1 (length pre) o :: within pre (o_buf o) post :: rest) d) =
  (Memory (output_obj 1 (length pre) o :: within pre (o_buf o) post :: rest) d, FDone (MSlice 1 (length pre) (length (output_as_slice o)))).
Proof. exact text_output_as_ref. Qed.
Print Assumptions C118_output_as_ref.

Theorem C118_output_borrow : forall St (c : mctx byte St) pre o post rest d, o_pos o <= length (o_buf o) ->
  called c id_Output src_Borrow_slice_Output_borrow [MRef 0] (Memory (output_obj 1 (length pre) o :: within pre (o_buf o) post :: rest) d) =
  (Memory (output_obj 1 (length pre) o :: within pre (o_buf o) post :: rest) d, FDone (MSlice 1 (length pre) (length (output_as_slice o)))).
Proof. exact text_output_borrow. Qed.
Print Assumptions C118_output_borrow.

Theorem C118_output_eq : forall St (c : mctx byte St) pre o post pre' o' post' rest d, k_eq c = byte_eqb -> o_pos o <= length (o_buf o) -> o_pos o' <= length (o_buf o') ->
  called c id_Output src_PartialEq_Output_eq [MRef 0; MRef 2]
    (Memory (output_obj 1 (length pre) o :: within pre (o_buf o) post :: output_obj 3 (length pre') o' :: within pre' (o_buf o') post' :: rest) d) =
  (Memory (output_obj 1 (length pre) o :: within pre (o_buf o) post :: output_obj 3 (length pre') o' :: within pre' (o_buf o') post' :: rest) d,
   FDone (MBool (output_eqb o o'))).
Proof. exact text_output_eq. Qed.
Print Assumptions C118_output_eq.

Theorem C118_output_eq_slice : forall St (c : mctx byte St) f pre o post pre' bs post' rest d, k_eq c = byte_eqb -> o_pos o <= length (o_buf o) ->
  f = src_PartialEq_slice_Output_eq \/ f = src_PartialEq_ref_Output_eq \/ f = src_PartialEq_ref_mut_Output_eq ->
  called c id_Output f [MRef 0; MSlice 2 (length pre') (length bs)]
    (Memory (output_obj 1 (length pre) o :: within pre (o_buf o) post :: within pre' bs post' :: rest) d) =
  (Memory (output_obj 1 (length pre) o :: within pre (o_buf o) post :: within pre' bs post' :: rest) d, FDone (MBool (output_eqb_slice o bs))).
Proof. exact text_output_eq_slice. Qed.
Print Assumptions C118_output_eq_slice.

Theorem C118_input_new : forall St (c : mctx byte St) pre bs post rest d,
  called c id_Input src_impl_Input_new [MSlice 0 (length pre) (length bs)] (Memory (within pre bs post :: rest) d) =
  (Memory (within pre bs post :: rest ++ [input_obj 0 (length pre) (input_new bs)]) d, FDone (MRef (1 + length rest))).
Proof. exact text_input_new. Qed.
Print Assumptions C118_input_new.

Theorem C118_input_capacity : forall St (c : mctx byte St) b off i rest d,
  called c id_Input src_impl_Input_capacity [MRef 0] (Memory (input_obj b off i :: rest) d) =
  (Memory (input_obj b off i :: rest) d, FDone (MNum (input_capacity i))).
Proof. exact text_input_capacity. Qed.
Print Assumptions C118_input_capacity.

Theorem C118_input_position : forall St (c : mctx byte St) b off i rest d,
  called c id_Input src_impl_Input_position [MRef 0] (Memory (input_obj b off i :: rest) d) =
  (Memory (input_obj b off i :: rest) d, FDone (MNum (input_position i))).
Proof. exact text_input_position. Qed.
Print Assumptions C118_input_position.

Theorem C118_input_remaining : forall St (c : mctx byte St) b off i rest d, i_pos i <= length (i_buf i) ->
  called c id_Input src_impl_Input_remaining [MRef 0] (Memory (input_obj b off i :: rest) d) =
  (Memory (input_obj b off i :: rest) d, FDone (MNum (input_remaining i))).
Proof. exact text_input_remaining. Qed.
Print Assumptions C118_input_remaining.

Theorem C118_input_read : forall St (c : mctx byte St) pre i post count rest d, i_pos i <= length (i_buf i) -> (Z.of_nat (length (i_buf i)) < 2 ^ 64)%Z ->
  called c id_Input src_impl_Input_read [MRef 0; MNum count] (Memory (input_obj 1 (length pre) i :: within pre (i_buf i) post :: rest) d) =
  match input_read i count with
  | (i', Ok bs) =>
    (Memory (input_obj 1 (length pre) i' :: within pre (i_buf i') post :: rest) d,
     FDone (MCon id_Ok [MSlice 1 (length (pre ++ filled (firstn (i_pos i) (i_buf i)))) (length bs)]))
  | (i', Err e) =>
    (Memory (input_obj 1 (length pre) i' :: within pre (i_buf i') post :: rest ++ [error_obj id_InputError e]) d,
     FDone (MCon id_Err [MRef (2 + length rest)]))
  | (i', Panic p) => (Memory (input_obj 1 (length pre) i' :: within pre (i_buf i') post :: rest) d, FFail p)
  end.
Proof. exact text_input_read. Qed.
Print Assumptions C118_input_read.

Theorem C118_input_read_into : forall St (c : mctx byte St) pre i post pre' dst post' rest d, i_pos i <= length (i_buf i) -> (Z.of_nat (length (i_buf i)) < 2 ^ 64)%Z ->
  called c id_Input src_impl_Input_read_into [MRef 0; MSlice 2 (length pre') (length dst)]
    (Memory (input_obj 1 (length pre) i :: within pre (i_buf i) post :: within pre' dst post' :: rest) d) =
  match input_read_into i dst with
  | (i', dst', Ok _) =>
    (Memory (input_obj 1 (length pre) i' :: within pre (i_buf i') post :: within pre' dst' post' :: rest) d, FDone (MCon id_Ok [MTup []]))
  | (i', dst', Err e) =>
    (Memory (input_obj 1 (length pre) i' :: within pre (i_buf i') post :: within pre' dst' post' :: rest ++ [error_obj id_InputError e]) d,
     FDone (MCon id_Err [MRef (3 + length rest)]))
  | (i', dst', Panic p) => (Memory (input_obj 1 (length pre) i' :: within pre (i_buf i') post :: within pre' dst' post' :: rest) d, FFail p)
  end.
Proof. exact text_input_read_into. Qed.
Print Assumptions C118_input_read_into.

Theorem C118_slot_with_capacity : forall St (c : mctx byte St) cap rest d, k_lit c 0 = x00 ->
  called c id_Slot src_impl_Slot_T_with_capacity [MNum cap] (Memory rest d) =
  (Memory (rest ++ [OBuf (filled (s_buf (slot_with_capacity cap))); slot_obj (length rest) (slot_with_capacity cap)]) d, FDone (MRef (length rest + 1))).
Proof. exact text_slot_with_capacity. Qed.
Print Assumptions C118_slot_with_capacity.

Theorem C118_slot_new : forall St (c : mctx byte St) f rest d, f = src_impl_Slot_T_4_new \/ f = src_Default_Slot_T_default -> k_lit c 0 = x00 ->
  called c id_Slot f [] (Memory rest d) =
  (Memory (rest ++ [OBuf (filled (s_buf (slot_with_capacity (k_max c)))); slot_obj (length rest) (slot_with_capacity (k_max c))]) d, FDone (MRef (length rest + 1))).
Proof. exact text_slot_new. Qed.
Print Assumptions C118_slot_new.

Theorem C118_slot_from_raw_parts : forall St (c : mctx byte St) bs len rest d,
  called c id_Slot src_impl_Slot_T_from_raw_parts [MPtr 0 0 (length bs) 0; MNum (length bs); MNum len] (Memory (OBuf (filled bs) :: rest) d) =
  (Memory (OBuf (filled bs) :: rest ++ [slot_obj 0 (Slot bs len)]) d, FDone (MRef (1 + length rest))).
Proof. exact text_slot_from_raw_parts. Qed.
Print Assumptions C118_slot_from_raw_parts.

Theorem C118_slot_capacity : forall St (c : mctx byte St) s rest d, called c id_Slot src_impl_Slot_T_capacity [MRef 0] (slot_at s rest d) = (slot_at s rest d, FDone (MNum (slot_capacity s))).
Proof. exact text_slot_capacity. Qed.
Print Assumptions C118_slot_capacity.

Theorem C118_slot_len : forall St (c : mctx byte St) s rest d, called c id_Slot src_impl_Slot_T_len [MRef 0] (slot_at s rest d) = (slot_at s rest d, FDone (MNum (slot_length s))).
Proof. exact text_slot_len. Qed.
Print Assumptions C118_slot_len.

Theorem C118_slot_is_empty : forall St (c : mctx byte St) s rest d, called c id_Slot src_impl_Slot_T_is_empty [MRef 0] (slot_at s rest d) = (slot_at s rest d, FDone (MBool (slot_is_empty s))).
Proof. exact text_slot_is_empty. Qed.
Print Assumptions C118_slot_is_empty.

Theorem C118_slot_is_full : forall St (c : mctx byte St) s rest d, called c id_Slot src_impl_Slot_T_is_full [MRef 0] (slot_at s rest d) = (slot_at s rest d, FDone (MBool (slot_is_full s))).
Proof. exact text_slot_is_full. Qed.
Print Assumptions C118_slot_is_full.

Theorem C118_slot_as_ptr : forall St (c : mctx byte St) f s rest d, f = src_impl_Slot_T_as_ptr \/ f = src_impl_Slot_T_as_mut_ptr ->
  called c id_Slot f [MRef 0] (slot_at s rest d) = (slot_at s rest d, FDone (MPtr 1 0 (slot_capacity s) 0)).
Proof. exact text_slot_as_ptr. Qed.
Print Assumptions C118_slot_as_ptr.

Theorem C118_slot_as_slice : forall St (c : mctx byte St) f s rest d, s_len s <= length (s_buf s) ->
  f = src_impl_Slot_T_as_slice \/ f = src_AsRef_slice_Slot_T_as_ref \/ f = src_Borrow_slice_Slot_T_borrow \/ f = src_Deref_Slot_T_deref ->
  called c id_Slot f [MRef 0] (slot_at s rest d) = (slot_at s rest d, FDone (MSlice 1 0 (length (slot_as_slice s)))).
Proof. exact text_slot_as_slice. Qed.
Print Assumptions C118_slot_as_slice.

Theorem C118_slot_as_mut_slice : forall St (c : mctx byte St) f s rest d,
  f = src_impl_Slot_T_as_mut_slice \/ f = src_AsMut_slice_Slot_T_as_mut \/ f = src_BorrowMut_slice_Slot_T_borrow_mut \/ f = src_DerefMut_Slot_T_deref_mut ->
  called c id_Slot f [MRef 0] (slot_at s rest d) = (slot_at s rest d, FDone (MSlice 1 0 (length (slot_as_mut_slice s)))).
Proof. exact text_slot_as_mut_slice. Qed.
Print Assumptions C118_slot_as_mut_slice.

Theorem C118_slot_set_len : forall St (c : mctx byte St) s len rest d,
  called c id_Slot src_impl_Slot_T_set_len [MRef 0; MNum len] (slot_at s rest d) =
  match slot_set_len s len with
  | (s', Ok _) => (slot_at s' rest d, FDone (MTup []))
  | (s', Err _) => (slot_at s' rest d, FLost)
  | (s', Panic p) => (slot_at s' rest d, FFail p)
  end.
Proof. exact text_slot_set_len. Qed.
Print Assumptions C118_slot_set_len.

Theorem C118_slot_set_len_unchecked : forall St (c : mctx byte St) s len rest d,
  called c id_Slot src_impl_Slot_T_set_len_unchecked [MRef 0; MNum len] (slot_at s rest d) =
  if k_checks c && negb (len <=? slot_capacity s) then (slot_at s rest d, FFail PAssert) else (slot_at (Slot (s_buf s) len) rest d, FDone (MTup [])).
Proof. exact text_slot_set_len_unchecked. Qed.
Print Assumptions C118_slot_set_len_unchecked.

Theorem C118_slot_copy_from_slice : forall St (c : mctx byte St) s pre data post rest d,
  called c id_Slot src_impl_Slot_T_copy_from_slice [MRef 0; MSlice 2 (length pre) (length data)] (slot_at s (within pre data post :: rest) d) =
  match slot_copy_from_slice s data with
  | (s', Ok _) => (slot_at s' (within pre data post :: rest) d, FDone (MTup []))
  | (s', Err _) => (slot_at s' (within pre data post :: rest) d, FLost)
  | (s', Panic p) => (slot_at s' (within pre data post :: rest) d, FFail p)
  end.
Proof. exact text_slot_copy_from_slice. Qed.
Print Assumptions C118_slot_copy_from_slice.

Theorem C118_slot_write : forall St (c : mctx byte St) t s v rest d, encodes c t ->
  called c id_Slot src_impl_Slot_T_2_write [MRef 0; MVal v] (slot_at s rest d) =
  let o := fst (encode (k_checks c) t v (output_new (s_buf s))) in
  match slot_write (k_checks c) t s v with
  | (s', Ok _) => (slot_at s' (rest ++ [output_obj 1 0 o]) d, FDone (MCon id_Ok [MTup []]))
  | (s', Err e) => (slot_at s' (rest ++ [output_obj 1 0 o]) d, FDone (MCon id_Err [MEErr e]))
  | (s', Panic p) => (slot_at s' (rest ++ [output_obj 1 0 o]) d, FFail p)
  end.
Proof. exact text_slot_write. Qed.
Print Assumptions C118_slot_write.

Theorem C118_slot_read : forall St (c : mctx byte St) t s rest d, decodes c t ->
  called c id_Slot src_impl_Slot_T_3_read [MRef 0] (slot_at s rest d) =
  let i := fst (decode t (input_new (s_buf s))) in
  match slot_read t s with
  | Ok v => (slot_at s (rest ++ [input_obj 1 0 i]) d, FDone (MCon id_Ok [MVal v]))
  | Err e => (slot_at s (rest ++ [input_obj 1 0 i]) d, FDone (MCon id_Err [MDErr e]))
  | Panic p => (slot_at s (rest ++ [input_obj 1 0 i]) d, FFail p)
  end.
Proof. exact text_slot_read. Qed.
Print Assumptions C118_slot_read.

Theorem C118_slot_index : forall St (c : mctx byte St) s k rest d, s_len s <= length (s_buf s) ->
  called c id_Slot src_Index_I_Slot_T_index [MRef 0; MNum k] (slot_at s rest d) =
  match slot_index s k with
  | Ok _ => (slot_at s rest d, FDone (MPtr 1 0 (length (slot_as_slice s)) k))
  | Err _ => (slot_at s rest d, FLost)
  | Panic p => (slot_at s rest d, FFail p)
  end.
Proof. exact text_slot_index. Qed.
Print Assumptions C118_slot_index.

Theorem C118_slot_index_range : forall St (c : mctx byte St) s a b rest d, s_len s <= length (s_buf s) ->
  called c id_Slot src_Index_I_Slot_T_index [MRef 0; MSpan a b] (slot_at s rest d) =
  if (a <=? b) && (b <=? length (slot_as_slice s)) then (slot_at s rest d, FDone (MSlice 1 a (b - a))) else (slot_at s rest d, FFail PIndex).
Proof. exact text_slot_index_range. Qed.
Print Assumptions C118_slot_index_range.

Theorem C118_slot_index_mut : forall St (c : mctx byte St) s k b rest d,
  called c id_Slot src_IndexMut_I_Slot_T_index_mut [MRef 0; MNum k] (slot_at s rest d) =
  match slot_index_set s k b with
  | (_, Ok _) => (slot_at s rest d, FDone (MPtr 1 0 (length (slot_as_mut_slice s)) k))
  | (_, Err _) => (slot_at s rest d, FLost)
  | (_, Panic p) => (slot_at s rest d, FFail p)
  end.
Proof. exact text_slot_index_mut. Qed.
Print Assumptions C118_slot_index_mut.

Theorem C118_slot_index_mut_range : forall St (c : mctx byte St) s a b rest d,
  called c id_Slot src_IndexMut_I_Slot_T_index_mut [MRef 0; MSpan a b] (slot_at s rest d) =
  if (a <=? b) && (b <=? length (slot_as_mut_slice s)) then (slot_at s rest d, FDone (MSlice 1 a (b - a))) else (slot_at s rest d, FFail PIndex).
Proof. exact text_slot_index_mut_range. Qed.
Print Assumptions C118_slot_index_mut_range.

Theorem C118_slot_eq : forall St (c : mctx byte St) f s pre bs post rest d, k_eq c = byte_eqb -> s_len s <= length (s_buf s) ->
  f = src_PartialEq_slice_Slot_T_eq \/ f = src_PartialEq_ref_Slot_T_eq \/ f = src_PartialEq_ref_mut_Slot_T_eq ->
  called c id_Slot f [MRef 0; MSlice 2 (length pre) (length bs)] (slot_at s (within pre bs post :: rest) d) =
  (slot_at s (within pre bs post :: rest) d, FDone (MBool (slot_eqb s bs))).
Proof. exact text_slot_eq. Qed.
Print Assumptions C118_slot_eq.

Theorem C118_slot_fmt : forall St (c : mctx byte St) s f rest d, s_len s <= length (s_buf s) ->
  called c id_Slot src_Debug_Slot_T_fmt [MRef 0; f] (slot_at s rest d) =
  (slot_at s rest d, FDone (MCon id_Debug [MSlice 1 0 (length (slot_as_slice s))])).
Proof. exact text_slot_fmt. Qed.
Print Assumptions C118_slot_fmt.

Theorem C118_iter_new : forall A St (c : mctx A St) cs len rest d, len <= k_len c -> k_len c = length cs ->
  called c id_SizedIter src_impl_SizedIter_T_N_new [MSlice 0 0 (length cs); MNum len] (Memory (OBuf (raw cs) :: rest) d) =
  (Memory (OBuf (raw cs) :: rest ++ [iter_obj 0 (ss_into_iter (SSlice cs len))]) d, FDone (MRef (1 + length rest))).
Proof. exact text_iter_new. Qed.
Print Assumptions C118_iter_new.

Theorem C118_iter_as_slice : forall A St (c : mctx A St) f i rest d, it_pos i + it_len i <= length (it_buf i) ->
  f = src_impl_SizedIter_T_N_as_slice \/ f = src_impl_SizedIter_T_N_as_mut_slice \/
  f = src_AsMut_slice_SizedIter_T_N_as_mut \/ f = src_AsRef_slice_SizedIter_T_N_as_ref ->
  ends (called c id_SizedIter f [MRef 0] (iter_at i rest d)) (it_as_slice i) (fun _ => (iter_at i rest d, FDone (MSlice 1 (it_pos i) (it_len i)))).
Proof. exact text_iter_as_slice. Qed.
Print Assumptions C118_iter_as_slice.

Theorem C118_iter_next : forall A St (c : mctx A St) i rest d, it_pos i + it_len i <= length (it_buf i) -> (Z.of_nat (length (it_buf i)) < 2 ^ 64)%Z ->
  ends (called c id_SizedIter src_Iterator_SizedIter_T_N_next [MRef 0] (iter_at i rest d)) (it_next i) (fun '(x, i') => (iter_at i' rest d, FDone (option_val x))).
Proof. exact text_iter_next. Qed.
Print Assumptions C118_iter_next.

Theorem C118_iter_next_back : forall A St (c : mctx A St) i rest d, it_pos i + it_len i <= length (it_buf i) -> (Z.of_nat (length (it_buf i)) < 2 ^ 64)%Z ->
  ends (called c id_SizedIter src_DoubleEndedIterator_SizedIter_T_N_next_back [MRef 0] (iter_at i rest d)) (it_next_back i) (fun '(x, i') => (iter_at i' rest d, FDone (option_val x))).
Proof. exact text_iter_next_back. Qed.
Print Assumptions C118_iter_next_back.

Theorem C118_iter_size_hint : forall A St (c : mctx A St) i rest d,
  ends (called c id_SizedIter src_Iterator_SizedIter_T_N_size_hint [MRef 0] (iter_at i rest d)) (it_size_hint i)
    (fun n => (iter_at i rest d, FDone (MTup [MNum n; MCon id_Some [MNum n]]))).
Proof. exact text_iter_size_hint. Qed.
Print Assumptions C118_iter_size_hint.

Theorem C118_iter_nth : forall A St (c : mctx A St) i index rest d, it_pos i + it_len i <= length (it_buf i) -> (Z.of_nat (length (it_buf i)) < 2 ^ 64 - 1)%Z ->
  ends (called c id_SizedIter src_Iterator_SizedIter_T_N_nth [MRef 0; MNum index] (iter_at i rest d)) (it_nth (k_checks c) i index)
    (fun '(x, dropped, i') => (iter_at i' rest (d ++ map MItem dropped), FDone (option_val x))).
Proof. exact text_iter_nth. Qed.
Print Assumptions C118_iter_nth.

Theorem C118_iter_clone : forall A St (c : mctx A St) i rest d, it_pos i + it_len i <= length (it_buf i) -> (Z.of_nat (length (it_buf i)) < 2 ^ 64)%Z -> k_len c = length (it_buf i) ->
  ends (called c id_SizedIter src_Clone_SizedIter_T_N_clone [MRef 0] (iter_at i rest d)) (it_clone (k_clone c) i)
    (fun i' => (iter_at i (rest ++ [OBuf (raw (it_buf i')); iter_obj (2 + length rest) i']) d, FDone (MRef (3 + length rest)))).
Proof. exact text_iter_clone. Qed.
Print Assumptions C118_iter_clone.

Theorem C118_sized_capacity : forall A St (c : mctx A St) s rest d, k_len c = length (ss_buf s) ->
  called c id_SizedSlice src_impl_SizedSlice_T_N_capacity [MRef 0] (sized_at s rest d) = (sized_at s rest d, FDone (MNum (ss_capacity s))).
Proof. exact text_sized_capacity. Qed.
Print Assumptions C118_sized_capacity.

Theorem C118_sized_len : forall A St (c : mctx A St) s rest d,
  called c id_SizedSlice src_impl_SizedSlice_T_N_len [MRef 0] (sized_at s rest d) = (sized_at s rest d, FDone (MNum (ss_length s))).
Proof. exact text_sized_len. Qed.
Print Assumptions C118_sized_len.

Theorem C118_sized_is_empty : forall A St (c : mctx A St) s rest d,
  called c id_SizedSlice src_impl_SizedSlice_T_N_is_empty [MRef 0] (sized_at s rest d) = (sized_at s rest d, FDone (MBool (ss_is_empty s))).
Proof. exact text_sized_is_empty. Qed.
Print Assumptions C118_sized_is_empty.

Theorem C118_sized_is_full : forall A St (c : mctx A St) s rest d, k_len c = length (ss_buf s) ->
  called c id_SizedSlice src_impl_SizedSlice_T_N_is_full [MRef 0] (sized_at s rest d) = (sized_at s rest d, FDone (MBool (ss_is_full s))).
Proof. exact text_sized_is_full. Qed.
Print Assumptions C118_sized_is_full.

Theorem C118_sized_set_len : forall A St (c : mctx A St) s len rest d, k_len c = length (ss_buf s) ->
  called c id_SizedSlice src_impl_SizedSlice_T_N_set_len [MRef 0; MNum len] (sized_at s rest d) =
  if k_checks c && negb (len <=? ss_capacity s) then (sized_at s rest d, FFail PAssert) else (sized_at (SSlice (ss_buf s) len) rest d, FDone (MTup [])).
Proof. exact text_sized_set_len. Qed.
Print Assumptions C118_sized_set_len.

Theorem C118_sized_as_ptr : forall A St (c : mctx A St) f s rest d, f = src_impl_SizedSlice_T_N_3_as_ptr \/ f = src_impl_SizedSlice_T_N_3_as_mut_ptr ->
  called c id_SizedSlice f [MRef 0] (sized_at s rest d) = (sized_at s rest d, FDone (MPtr 1 0 (ss_capacity s) 0)).
Proof. exact text_sized_as_ptr. Qed.
Print Assumptions C118_sized_as_ptr.

Theorem C118_sized_as_slice : forall A St (c : mctx A St) f s rest d, holds s ->
  f = src_impl_SizedSlice_T_N_3_as_slice \/ f = src_impl_SizedSlice_T_N_3_as_mut_slice \/ f = src_AsMut_slice_SizedSlice_T_N_as_mut \/ f = src_AsRef_slice_SizedSlice_T_N_as_ref \/
  f = src_Borrow_slice_SizedSlice_T_N_borrow \/ f = src_BorrowMut_slice_SizedSlice_T_N_borrow_mut \/ f = src_Deref_SizedSlice_T_N_deref \/ f = src_DerefMut_SizedSlice_T_N_deref_mut ->
  ends (called c id_SizedSlice f [MRef 0] (sized_at s rest d)) (ss_as_slice s) (fun _ => (sized_at s rest d, FDone (MSlice 1 0 (ss_len s)))).
Proof. exact text_sized_as_slice. Qed.
Print Assumptions C118_sized_as_slice.

Theorem C118_sized_as_slice_out : forall A St (c : mctx A St) s rest d, ~ holds s -> 
  snd (called c id_SizedSlice src_impl_SizedSlice_T_N_3_as_slice [MRef 0] (sized_at s rest d)) = FUndef UOutOfBounds.
Proof. exact text_sized_as_slice_out. Qed.
Print Assumptions C118_sized_as_slice_out.

Theorem C118_sized_iter : forall A St (c : mctx A St) f s rest d, holds s -> f = src_IntoIterator_ref_into_iter \/ f = src_IntoIterator_ref_mut_into_iter ->
  ends (called c id_SizedSlice f [MRef 0] (sized_at s rest d)) (ss_as_slice s) (fun _ => (sized_at s rest d, FDone (MIter (map (MPtr 1 0 (ss_len s)) (seq 0 (ss_len s)))))).
Proof. exact text_sized_iter. Qed.
Print Assumptions C118_sized_iter.

Theorem C118_sized_into_raw_parts : forall A St (c : mctx A St) s rest d,
  called c id_SizedSlice src_impl_SizedSlice_T_N_3_into_raw_parts [MRef 0] (sized_at s rest d) = (sized_at s rest d, FDone (MTup [MSlice 1 0 (ss_capacity s); MNum (ss_len s)])).
Proof. exact text_sized_into_raw_parts. Qed.
Print Assumptions C118_sized_into_raw_parts.

Theorem C118_sized_from_raw_parts : forall A St (c : mctx A St) cs len rest d, k_len c = length cs ->
  called c id_SizedSlice src_impl_SizedSlice_T_N_3_from_raw_parts [MSlice 0 0 (length cs); MNum len] (Memory (OBuf (raw cs) :: rest) d) =
  if k_checks c && negb (len <=? length cs) then (Memory (OBuf (raw cs) :: rest) d, FFail PAssert)
  else (Memory (OBuf (raw cs) :: rest ++ [sized_obj 0 (SSlice cs len)]) d, FDone (MRef (1 + length rest))).
Proof. exact text_sized_from_raw_parts. Qed.
Print Assumptions C118_sized_from_raw_parts.

Theorem C118_sized_into_iter : forall A St (c : mctx A St) s rest d, holds s -> k_len c = length (ss_buf s) ->
  called c id_SizedSlice src_IntoIterator_SizedSlice_T_N_into_iter [MRef 0] (sized_at s rest d) =
  (sized_at s (rest ++ [iter_obj 1 (ss_into_iter s)]) d, FDone (MRef (2 + length rest))).
Proof. exact text_sized_into_iter. Qed.
Print Assumptions C118_sized_into_iter.

Theorem C118_sized_fmt : forall A St (c : mctx A St) s f rest d, holds s ->
  ends (called c id_SizedSlice src_Debug_SizedSlice_T_N_fmt [MRef 0; f] (sized_at s rest d)) (ss_as_slice s)
    (fun _ => (sized_at s rest d, FDone (MCon id_Debug [MSlice 1 0 (ss_len s)]))).
Proof. exact text_sized_fmt. Qed.
Print Assumptions C118_sized_fmt.

Theorem C118_sized_default : forall A St (c : mctx A St) rest d,
  called c id_SizedSlice src_Default_SizedSlice_T_N_default [] (Memory rest d) =
  (Memory (rest ++ [OBuf (raw (ss_buf (ss_default A (k_len c)))); sized_obj (length rest) (ss_default A (k_len c))]) d, FDone (MRef (length rest + 1))).
Proof. exact text_sized_default. Qed.
Print Assumptions C118_sized_default.

Theorem C118_sized_eq : forall A St (c : mctx A St) s s' rest d, holds s -> holds s' ->
  let m := sized_at s (sized_obj 3 s' :: OBuf (raw (ss_buf s')) :: rest) d in
  ends (called c id_SizedSlice src_PartialEq_SizedSlice_U_M_SizedSlice_T_N_eq [MRef 0; MRef 2] m) (ss_eq (k_eq c) s s') (fun b => (m, FDone (MBool b))).
Proof. exact text_sized_eq. Qed.
Print Assumptions C118_sized_eq.

Theorem C118_sized_eq_slice : forall A St (c : mctx A St) f s pre ys post rest d, holds s ->
  f = src_PartialEq_array_SizedSlice_T_N_eq \/ f = src_PartialEq_ref_SizedSlice_T_N_eq \/ f = src_PartialEq_Vec_U_SizedSlice_T_N_eq ->
  let m := sized_at s (within pre ys post :: rest) d in
  ends (called c id_SizedSlice f [MRef 0; MSlice 2 (length pre) (length ys)] m) (ss_eq_slice (k_eq c) s ys) (fun b => (m, FDone (MBool b))).
Proof. exact text_sized_eq_slice. Qed.
Print Assumptions C118_sized_eq_slice.

Theorem C118_sized_cmp : forall A St (c : mctx A St) s s' rest d, holds s -> holds s' ->
  let m := sized_at s (sized_obj 3 s' :: OBuf (raw (ss_buf s')) :: rest) d in
  ends (called c id_SizedSlice src_Ord_SizedSlice_T_N_cmp [MRef 0; MRef 2] m) (ss_cmp (k_cmp c) s s') (fun o => (m, FDone (MOrd o))).
Proof. exact text_sized_cmp. Qed.
Print Assumptions C118_sized_cmp.

Theorem C118_sized_partial_cmp : forall A St (c : mctx A St) s s' rest d, holds s -> holds s' ->
  let m := sized_at s (sized_obj 3 s' :: OBuf (raw (ss_buf s')) :: rest) d in
  ends (called c id_SizedSlice src_PartialOrd_SizedSlice_T_M_SizedSlice_T_N_partial_cmp [MRef 0; MRef 2] m) (ss_partial_cmp (k_partial c) s s') (fun o => (m, FDone (order_val o))).
Proof. exact text_sized_partial_cmp. Qed.
Print Assumptions C118_sized_partial_cmp.

Theorem C118_sized_partial_cmp_slice : forall A St (c : mctx A St) f s pre ys post rest d, holds s ->
  f = src_PartialOrd_array_SizedSlice_T_N_partial_cmp \/ f = src_PartialOrd_ref_SizedSlice_T_N_partial_cmp \/ f = src_PartialOrd_Vec_T_SizedSlice_T_N_partial_cmp ->
  let m := sized_at s (within pre ys post :: rest) d in
  ends (called c id_SizedSlice f [MRef 0; MSlice 2 (length pre) (length ys)] m) (ss_partial_cmp_slice (k_partial c) s ys) (fun o => (m, FDone (order_val o))).
Proof. exact text_sized_partial_cmp_slice. Qed.
Print Assumptions C118_sized_partial_cmp_slice.

Theorem C118_sized_index : forall A St (c : mctx A St) f s k rest d, holds s -> f = src_Index_I_SizedSlice_T_N_index \/ f = src_IndexMut_I_SizedSlice_T_N_index_mut ->
  ends (called c id_SizedSlice f [MRef 0; MNum k] (sized_at s rest d)) (ss_index s k) (fun _ => (sized_at s rest d, FDone (MPtr 1 0 (ss_len s) k))).
Proof. exact text_sized_index. Qed.
Print Assumptions C118_sized_index.

Theorem C118_sized_index_range : forall A St (c : mctx A St) f s a b rest d, holds s -> f = src_Index_I_SizedSlice_T_N_index \/ f = src_IndexMut_I_SizedSlice_T_N_index_mut ->
  ends (called c id_SizedSlice f [MRef 0; MSpan a b] (sized_at s rest d)) (ss_index_range s a b) (fun _ => (sized_at s rest d, FDone (MSlice 1 a (b - a)))).
Proof. exact text_sized_index_range. Qed.
Print Assumptions C118_sized_index_range.

Theorem C118_sized_copy_from_slice : forall A St (c : mctx A St) s pre data post rest d, k_len c = length (ss_buf s) ->
  ends (called c id_SizedSlice src_impl_SizedSlice_T_N_copy_from_slice [MRef 0; MSlice 2 (length pre) (length data)] (sized_at s (within pre data post :: rest) d))
    (ss_copy_from_slice s data) (fun s' => (sized_at s' (within pre data post :: rest) d, FDone (MTup []))).
Proof. exact text_sized_copy_from_slice. Qed.
Print Assumptions C118_sized_copy_from_slice.

Theorem C118_sized_new : forall A St (c : mctx A St) f pre data post rest d, f = src_impl_SizedSlice_T_N_2_new \/ f = src_TryFrom_ref_SizedSlice_T_N_try_from ->
  ends (called c id_SizedSlice f [MSlice 0 (length pre) (length data)] (Memory (within pre data post :: rest) d)) (ss_new (k_clone c) (k_len c) data)
    (fun r => match r with
              | inl e => (Memory (within pre data post :: rest ++ [OBuf (raw (uninit A (k_len c))); length_obj e]) d, FDone (MCon id_Err [MRef (2 + length rest)]))
              | inr s => (Memory (within pre data post :: rest ++ [OBuf (raw (ss_buf s)); sized_obj (1 + length rest) s]) d, FDone (MCon id_Ok [MRef (2 + length rest)]))
              end).
Proof. exact text_sized_new. Qed.
Print Assumptions C118_sized_new.

Theorem C118_sized_clone : forall A St (c : mctx A St) s xs rest d, holds s -> k_len c = length (ss_buf s) -> ss_as_slice s = Done xs ->
  ends (called c id_SizedSlice src_Clone_SizedSlice_T_N_clone [MRef 0] (sized_at s rest d)) (ss_clone (k_clone c) s)
    (fun s' => (sized_at s (rest ++ [OBuf (raw (ss_buf s')); sized_obj (2 + length rest) s']) d, FDone (MRef (3 + length rest)))).
Proof. exact text_sized_clone. Qed.
Print Assumptions C118_sized_clone.

Theorem C118_sized_hash : forall A St (c : mctx A St) s hs rest d, holds s ->
  ends (called c id_SizedSlice src_Hash_SizedSlice_T_N_hash [MRef 0; MRef 2] (sized_at s (OHasher hs :: rest) d)) (ss_hash (k_hash c) s)
    (fun hs' => (sized_at s (OHasher (hs ++ hs') :: rest) d, FDone (MTup []))).
Proof. exact text_sized_hash. Qed.
Print Assumptions C118_sized_hash.

Theorem C118_sized_boxed : forall A St (c : mctx A St) x f s rest d, holds s ->
  f = src_impl_SizedSlice_T_N_3_into_boxed_slice \/ f = src_impl_SizedSlice_T_N_3_into_vec \/ f = src_From_SizedSlice_T_N_Box_slice_from \/ f = src_From_SizedSlice_T_N_Vec_T_from ->
  ends (called c x f [MRef 0] (sized_at s rest d)) (ss_into_boxed_slice (k_item_size c) (k_granted c) s)
    (fun xs => (sized_at s (rest ++ [OBuf (filled xs)]) d, FDone (MSlice (2 + length rest) 0 (length xs)))).
Proof. exact text_sized_boxed. Qed.
Print Assumptions C118_sized_boxed.

Theorem C118_sized_from_array : forall A St (c : mctx A St) pre xs post rest d, k_len c = length xs ->
  called c id_SizedSlice src_From_array_SizedSlice_T_N_from [MSlice 0 (length pre) (length xs)] (Memory (within pre xs post :: rest) d) =
  (Memory (within pre xs post :: rest ++ [OBuf (raw (ss_buf (ss_from_array xs))); sized_obj (1 + length rest) (ss_from_array xs)]) d, FDone (MRef (2 + length rest))).
Proof. exact text_sized_from_array. Qed.
Print Assumptions C118_sized_from_array.

Theorem C118_sized_from_iter : forall A St (c : mctx A St) (next : iterator St A) st rest d, (Z.of_nat (k_len c) < 2 ^ 64)%Z ->
  (forall st, k_next c st = let (x, st') := next st in (option_map MItem x, st')) ->
  called c id_SizedSlice src_FromIterator_T_SizedSlice_T_N_from_iter [MRef 0] (Memory (OUser st :: rest) d) =
  let (s, st') := ss_from_iter next (k_len c) st in
  (Memory (OUser st' :: rest ++ [OBuf (raw (ss_buf s)); sized_obj (1 + length rest) s]) d, FDone (MRef (2 + length rest))).
Proof. exact text_sized_from_iter. Qed.
Print Assumptions C118_sized_from_iter.

Theorem C118_sized_each : forall A St (c : mctx A St) f s rest d, holds s -> k_len c = length (ss_buf s) -> (Z.of_nat (length (ss_buf s)) < 2 ^ 64)%Z -> ss_len s < k_fuel c ->
  f = src_impl_SizedSlice_T_N_each_ref \/ f = src_impl_SizedSlice_T_N_each_mut ->
  ends (called c id_SizedSlice f [MRef 0] (sized_at s rest d)) (ss_each_ref s)
    (fun r =>
      let cells := OBuf (refs 1 (length (ss_buf s)) (ss_buf r)) in
      (sized_at s (rest ++ [cells; cells; OStruct id_SizedSlice [(id_buf, MSlice (3 + length rest) 0 (length (ss_buf r))); (id_len, MNum (ss_len r))]]) d, FDone (MRef (4 + length rest)))).
Proof. exact text_sized_each. Qed.
Print Assumptions C118_sized_each.

Theorem C118_str_capacity : forall St (c : mctx byte St) s rest d, k_len c = length (ss_buf s) ->
  called c id_SizedStr src_impl_SizedStr_N_capacity [MRef 0] (str_at s rest d) = (str_at s rest d, FDone (MNum (st_capacity s))).
Proof. exact text_str_capacity. Qed.
Print Assumptions C118_str_capacity.

Theorem C118_str_len : forall St (c : mctx byte St) s rest d,
  called c id_SizedStr src_impl_SizedStr_N_len [MRef 0] (str_at s rest d) = (str_at s rest d, FDone (MNum (st_length s))).
Proof. exact text_str_len. Qed.
Print Assumptions C118_str_len.

Theorem C118_str_is_empty : forall St (c : mctx byte St) s rest d,
  called c id_SizedStr src_impl_SizedStr_N_is_empty [MRef 0] (str_at s rest d) = (str_at s rest d, FDone (MBool (st_is_empty s))).
Proof. exact text_str_is_empty. Qed.
Print Assumptions C118_str_is_empty.

Theorem C118_str_is_full : forall St (c : mctx byte St) s rest d, k_len c = length (ss_buf s) ->
  called c id_SizedStr src_impl_SizedStr_N_is_full [MRef 0] (str_at s rest d) = (str_at s rest d, FDone (MBool (st_is_full s))).
Proof. exact text_str_is_full. Qed.
Print Assumptions C118_str_is_full.

Theorem C118_str_as_ptr : forall St (c : mctx byte St) f s rest d, f = src_impl_SizedStr_N_2_as_ptr \/ f = src_impl_SizedStr_N_2_as_mut_ptr ->
  called c id_SizedStr f [MRef 0] (str_at s rest d) = (str_at s rest d, FDone (MPtr 2 0 (st_capacity s) 0)).
Proof. exact text_str_as_ptr. Qed.
Print Assumptions C118_str_as_ptr.

Theorem C118_str_as_bytes : forall St (c : mctx byte St) f s rest d, holds s -> f = src_impl_SizedStr_N_2_as_bytes \/ f = src_AsRef_slice_SizedStr_N_as_ref ->
  ends (called c id_SizedStr f [MRef 0] (str_at s rest d)) (st_as_bytes s) (fun _ => (str_at s rest d, FDone (MSlice 2 0 (ss_len s)))).
Proof. exact text_str_as_bytes. Qed.
Print Assumptions C118_str_as_bytes.

Theorem C118_str_as_str : forall St (c : mctx byte St) f s rest d, holds s -> octets c ->
  f = src_impl_SizedStr_N_2_as_str \/ f = src_impl_SizedStr_N_2_as_mut_str \/ f = src_AsMut_str_SizedStr_N_as_mut \/ f = src_AsRef_OsStr_SizedStr_N_as_ref \/
  f = src_AsRef_Path_SizedStr_N_as_ref \/ f = src_AsRef_str_SizedStr_N_as_ref \/ f = src_Borrow_str_SizedStr_N_borrow \/ f = src_BorrowMut_str_SizedStr_N_borrow_mut \/
  f = src_Deref_SizedStr_N_deref \/ f = src_DerefMut_SizedStr_N_deref_mut ->
  ends (called c id_SizedStr f [MRef 0] (str_at s rest d)) (st_as_str s) (fun _ => (str_at s rest d, FDone (MText 2 0 (ss_len s)))).
Proof. exact text_str_as_str. Qed.
Print Assumptions C118_str_as_str.

Theorem C118_str_views : forall St (c : mctx byte St) f q s a rest d, holds s -> octets c ->
  (f = src_Debug_SizedStr_N_fmt /\ q = id_Debug \/ f = src_Display_SizedStr_N_fmt /\ q = id_Display) ->
  ends (called c id_SizedStr f [MRef 0; a] (str_at s rest d)) (st_as_str s) (fun _ => (str_at s rest d, FDone (MCon q [MText 2 0 (ss_len s)]))).
Proof. exact text_str_views. Qed.
Print Assumptions C118_str_views.

Theorem C118_str_chars : forall St (c : mctx byte St) f q s rest d, holds s -> octets c ->
  (f = src_impl_SizedStr_N_chars /\ q = id_chars \/ f = src_impl_SizedStr_N_char_indices /\ q = id_char_indices \/ f = src_ToSocketAddrs_SizedStr_N_to_socket_addrs /\ q = id_to_socket_addrs) ->
  ends (called c id_SizedStr f [MRef 0] (str_at s rest d)) (st_as_str s) (fun _ => (str_at s rest d, FDone (MCon q [MText 2 0 (ss_len s)]))).
Proof. exact text_str_chars. Qed.
Print Assumptions C118_str_chars.

Theorem C118_str_eq : forall St (c : mctx byte St) s s' rest d, holds s -> holds s' -> octets c ->
  let m := str_at s (str_obj 4 :: sized_obj 5 s' :: OBuf (raw (ss_buf s')) :: rest) d in
  ends (called c id_SizedStr src_PartialEq_SizedStr_M_SizedStr_N_eq [MRef 0; MRef 3] m) (st_eq s s') (fun b => (m, FDone (MBool b))).
Proof. exact text_str_eq. Qed.
Print Assumptions C118_str_eq.

Theorem C118_str_eq_str : forall St (c : mctx byte St) f s pre ys post rest d, holds s -> octets c -> f = src_PartialEq_ref_SizedStr_N_eq \/ f = src_PartialEq_String_SizedStr_N_eq ->
  let m := str_at s (within pre ys post :: rest) d in
  ends (called c id_SizedStr f [MRef 0; MText 3 (length pre) (length ys)] m) (st_eq_str s ys) (fun b => (m, FDone (MBool b))).
Proof. exact text_str_eq_str. Qed.
Print Assumptions C118_str_eq_str.

Theorem C118_str_cmp : forall St (c : mctx byte St) s s' rest d, holds s -> holds s' -> octets c ->
  let m := str_at s (str_obj 4 :: sized_obj 5 s' :: OBuf (raw (ss_buf s')) :: rest) d in
  ends (called c id_SizedStr src_Ord_SizedStr_N_cmp [MRef 0; MRef 3] m) (st_cmp s s') (fun o => (m, FDone (MOrd o))).
Proof. exact text_str_cmp. Qed.
Print Assumptions C118_str_cmp.

Theorem C118_str_partial_cmp : forall St (c : mctx byte St) s s' rest d, holds s -> holds s' -> octets c ->
  let m := str_at s (str_obj 4 :: sized_obj 5 s' :: OBuf (raw (ss_buf s')) :: rest) d in
  ends (called c id_SizedStr src_PartialOrd_SizedStr_M_SizedStr_N_partial_cmp [MRef 0; MRef 3] m) (st_cmp s s') (fun o => (m, FDone (order_val (Some o)))).
Proof. exact text_str_partial_cmp. Qed.
Print Assumptions C118_str_partial_cmp.

Theorem C118_str_partial_cmp_str : forall St (c : mctx byte St) f s pre ys post rest d, holds s -> octets c ->
  f = src_PartialOrd_ref_SizedStr_N_partial_cmp \/ f = src_PartialOrd_String_SizedStr_N_partial_cmp ->
  let m := str_at s (within pre ys post :: rest) d in
  ends (called c id_SizedStr f [MRef 0; MText 3 (length pre) (length ys)] m) (st_cmp_str s ys) (fun o => (m, FDone (order_val (Some o)))).
Proof. exact text_str_partial_cmp_str. Qed.
Print Assumptions C118_str_partial_cmp_str.

Theorem C118_str_hash : forall St (c : mctx byte St) s hs rest d, holds s -> octets c ->
  ends (called c id_SizedStr src_Hash_SizedStr_N_hash [MRef 0; MRef 3] (str_at s (OHasher hs :: rest) d)) (st_hash s)
    (fun hs' => (str_at s (OHasher (hs ++ hs') :: rest) d, FDone (MTup []))).
Proof. exact text_str_hash. Qed.
Print Assumptions C118_str_hash.

Theorem C118_str_index_range : forall St (c : mctx byte St) f s a b rest d, holds s -> octets c -> f = src_Index_I_SizedStr_N_index \/ f = src_IndexMut_I_SizedStr_N_index_mut ->
  ends (called c id_SizedStr f [MRef 0; MSpan a b] (str_at s rest d)) (st_index_range s a b) (fun _ => (str_at s rest d, FDone (MText 2 a (b - a)))).
Proof. exact text_str_index_range. Qed.
Print Assumptions C118_str_index_range.

Theorem C118_str_from_raw_parts : forall St (c : mctx byte St) bs len rest d, k_len c = length bs ->
  called c id_SizedStr src_impl_SizedStr_N_2_from_raw_parts [MSlice 0 0 (length bs); MNum len] (Memory (OBuf (filled bs) :: rest) d) =
  let s := SSlice (map Some bs) len in
  if k_checks c && negb (len <=? length bs) then (Memory (OBuf (filled bs) :: rest) d, FFail PAssert)
  else (Memory (OBuf (filled bs) :: rest ++ [OBuf (raw (ss_buf s)); sized_obj (1 + length rest) s; str_obj (2 + length rest)]) d, FDone (MRef (3 + length rest))).
Proof. exact text_str_from_raw_parts. Qed.
Print Assumptions C118_str_from_raw_parts.

Theorem C118_str_unchecked : forall St (c : mctx byte St) pre bs post rest d, octets c ->
  let m := Memory (within pre bs post :: rest) d in
  let r := called c id_SizedStr src_impl_SizedStr_N_2_from_utf8_unchecked [MSlice 0 (length pre) (length bs)] m in
  if k_checks c && negb (length bs <=? k_len c) then r = (m, FFail PAssert)
  else ends r (st_unchecked (k_len c) bs) (fun s => (Memory (within pre bs post :: rest ++ made (1 + length rest) s) d, FDone (MRef (4 + length rest)))).
Proof. exact text_str_unchecked. Qed.
Print Assumptions C118_str_unchecked.

Theorem C118_str_new : forall St (c : mctx byte St) f pre bs post rest d, octets c ->
  f = src_impl_SizedStr_N_new \/ f = src_FromStr_SizedStr_N_from_str \/ f = src_TryFrom_ref_SizedStr_N_try_from \/ f = src_TryFrom_String_SizedStr_N_try_from ->
  ends (called c id_SizedStr f [MText 0 (length pre) (length bs)] (Memory (within pre bs post :: rest) d)) (st_new (k_len c) bs) (string_result (within pre bs post :: rest) d).
Proof. exact text_str_new. Qed.
Print Assumptions C118_str_new.

Theorem C118_str_from_utf8 : forall St (c : mctx byte St) pre bs post rest d, octets c ->
  ends (called c id_SizedStr src_impl_SizedStr_N_2_from_utf8 [MSlice 0 (length pre) (length bs)] (Memory (within pre bs post :: rest) d)) (st_from_utf8 (k_len c) bs)
    (string_result (within pre bs post :: rest) d).
Proof. exact text_str_from_utf8. Qed.
Print Assumptions C118_str_from_utf8.

Theorem C118_str_from_char : forall St (c : mctx byte St) z rest d, octets c ->
  let o := OBuf (filled (encode_utf8 z ++ skipn (len_utf8 z) (repeat x00 4))) in
  ends (called c id_SizedStr src_TryFrom_char_SizedStr_N_try_from [MChar z] (Memory rest d)) (st_from_char (k_len c) z)
    (string_result (rest ++ [o]) d).
Proof. exact text_str_from_char. Qed.
Print Assumptions C118_str_from_char.

Theorem C118_str_into_raw_parts : forall St (c : mctx byte St) s rest d,
  ends (called c id_SizedStr src_impl_SizedStr_N_2_into_raw_parts [MRef 0] (str_at s rest d)) (st_into_raw_parts s)
    (fun '(bs, len) => (str_at s (rest ++ [OBuf (filled bs)]) d, FDone (MTup [MSlice (3 + length rest) 0 (length bs); MNum len]))).
Proof. exact text_str_into_raw_parts. Qed.
Print Assumptions C118_str_into_raw_parts.

Theorem C118_str_into_bytes : forall St (c : mctx byte St) s rest d,
  called c id_SizedStr src_impl_SizedStr_N_2_into_bytes [MRef 0] (str_at s rest d) = (str_at (st_into_bytes s) rest d, FDone (MRef 1)).
Proof. exact text_str_into_bytes. Qed.
Print Assumptions C118_str_into_bytes.

Theorem C118_str_boxed : forall St (c : mctx byte St) f x s rest d, holds s -> octets c ->
  f = src_impl_SizedStr_N_2_into_boxed_str \/ f = src_impl_SizedStr_N_2_into_string \/ f = src_From_SizedStr_N_Box_str_from \/ f = src_From_SizedStr_N_String_from ->
  ends (called c x f [MRef 0] (str_at s rest d)) (st_into_boxed_str (k_granted c) s)
    (fun bs => (str_at s (rest ++ [OBuf (filled bs)]) d, FDone (MText (3 + length rest) 0 (length bs)))).
Proof. exact text_str_boxed. Qed.
Print Assumptions C118_str_boxed.

Theorem C118_str_from_iter : forall St (c : mctx byte St) (next : iterator St Z) st rest d, octets c -> (Z.of_nat (k_len c) < 2 ^ 64)%Z -> k_len c < k_fuel c ->
  (forall st, k_next c st = let (x, st') := next st in (option_map MChar x, st')) ->
  ends (called c id_SizedStr src_FromIterator_char_SizedStr_N_from_iter [MRef 0] (Memory (OUser st :: rest) d)) (st_from_iter next (k_len c) st)
    (fun '(s, st') => (Memory (OUser st' :: rest ++ made (1 + length rest) s) d, FDone (MRef (4 + length rest)))).
Proof. exact text_str_from_iter. Qed.
Print Assumptions C118_str_from_iter.

(* ---- cases *)

(* two octets are written behind the first of three; a second write of two finds one octet left *)
Example C118_output_case :
  let c := sample_context 0 true in
  let o := Output [x01; x00; x00] 1 in
  let m o := Memory (output_obj 1 1 o :: within [Some (MItem x77)] (o_buf o) [] :: within [] [x05; x06] [] :: []) [] in
  called c id_Output src_impl_Output_write [MRef 0; MSlice 2 0 2] (m o) = (m (Output [x01; x05; x06] 3), FDone (MCon id_Ok [MTup []])) /\
  called c id_Output src_impl_Output_write [MRef 0; MSlice 2 0 2] (m (Output [x01; x00; x00] 2)) =
    (Memory (objs (m (Output [x01; x00; x00] 2)) ++ [error_obj id_OutputError (StreamError 3 2 2)]) [], FDone (MCon id_Err [MRef 3])).
Proof. vm_compute. split; reflexivity. Qed.
Example C118_input_case :
  let c := sample_context 0 true in
  let m i := Memory (input_obj 1 1 i :: within [Some (MItem x77)] (i_buf i) [] :: []) [] in
  called c id_Input src_impl_Input_read [MRef 0; MNum 2] (m (Input [x01; x02; x03] 1)) = (m (Input [x01; x02; x03] 3), FDone (MCon id_Ok [MSlice 1 2 2])) /\
  called c id_Input src_impl_Input_read [MRef 0; MNum 2] (m (Input [x01; x02; x03] 2)) =
    (Memory (objs (m (Input [x01; x02; x03] 2)) ++ [error_obj id_InputError (StreamError 3 2 2)]) [], FDone (MCon id_Err [MRef 2])).
Proof. vm_compute. split; reflexivity. Qed.
(* a u16 is written to a slot, and read *)
Example C118_slot_case :
  let c := sample_context 0 true in
  encodes c (TInt U16) /\ decodes c (TInt U16) /\
  called c id_Slot src_impl_Slot_T_2_write [MRef 0; MVal (VInt 513)] (slot_at (Slot [x00; x00; x00; x00] 0) [] []) =
    (slot_at (Slot [x01; x02; x00; x00] 2) [output_obj 1 0 (Output [x01; x02; x00; x00] 2)] [], FDone (MCon id_Ok [MTup []])) /\
  called c id_Slot src_impl_Slot_T_3_read [MRef 0] (slot_at (Slot [x01; x02; x00; x00] 2) [] []) =
    (slot_at (Slot [x01; x02; x00; x00] 2) [input_obj 1 0 (Input [x01; x02; x00; x00] 2)] [], FDone (MCon id_Ok [MVal (VInt 513)])).
Proof. split; [intros v bs pos; reflexivity|]. split; [intros bs pos; reflexivity|]. vm_compute. split; reflexivity. Qed.
(* three items of four, one of which has been taken; `nth(1)` gives the item that `next` gives *)
Example C118_iter_case :
  let c := sample_context 4 true in
  let i := SIter [Some x01; Some x02; Some x03; None] 1 2 in
  called c id_SizedIter src_Iterator_SizedIter_T_N_next [MRef 0] (iter_at i [] []) =
    (iter_at (SIter [Some x01; Some x02; Some x03; None] 2 1) [] [], FDone (MCon id_Some [MItem x02])) /\
  called c id_SizedIter src_Iterator_SizedIter_T_N_nth [MRef 0; MNum 1] (iter_at i [] []) =
    (iter_at (SIter [Some x01; Some x02; Some x03; None] 2 1) [] [], FDone (MCon id_Some [MItem x02])).
Proof. vm_compute. split; reflexivity. Qed.
(* `new` of a slice that fits and of one that does not; a clone that copies an uninitialised item is undefined *)
Example C118_sized_case :
  let c := sample_context 2 true in
  called c id_SizedSlice src_impl_SizedSlice_T_N_2_new [MSlice 0 1 2] (Memory [within [None] [x05; x06] []] []) =
    (Memory [within [None] [x05; x06] []; OBuf (raw [Some x05; Some x06]); sized_obj 1 (SSlice [Some x05; Some x06] 2)] [], FDone (MCon id_Ok [MRef 2])) /\
  called c id_SizedSlice src_impl_SizedSlice_T_N_2_new [MSlice 0 0 3] (Memory [within [] [x05; x06; x07] []] []) =
    (Memory [within [] [x05; x06; x07] []; OBuf (raw [None; None]); length_obj (LengthError 2 3)] [], FDone (MCon id_Err [MRef 2])) /\
  snd (called c id_SizedSlice src_impl_SizedSlice_T_N_3_as_slice [MRef 0] (sized_at (SSlice [Some x05; None] 2) [] [])) = FUndef UUninit.
Proof. vm_compute. repeat split; reflexivity. Qed.
(* "Äb" in four octets; the chars "CBA" in two; a text that is too long, and octets that are not UTF-8 *)
Example C118_str_case :
  let c := sample_context 4 true in
  let s := SSlice [Some xc3; Some x84; Some x62; Some x00] 3 in
  octets c /\
  called c id_SizedStr src_impl_SizedStr_N_new [MText 0 1 3] (Memory [within [None] [xc3; x84; x62] []] []) = string_result [within [None] [xc3; x84; x62] []] [] (inr s) /\
  called c id_SizedStr src_impl_SizedStr_N_2_from_utf8 [MSlice 0 0 3] (Memory [within [] [x41; x84; x62] []] []) = string_result [within [] [x41; x84; x62] []] [] (inl (BadUtf8 x84 1)) /\
  called c id_SizedStr src_impl_SizedStr_N_new [MText 0 0 5] (Memory [within [] [x41; x41; x41; x41; x41] []] []) =
    string_result [within [] [x41; x41; x41; x41; x41] []] [] (inl (SmallBuffer (LengthError 4 5))) /\
  called c id_SizedStr src_impl_SizedStr_N_2_as_str [MRef 0] (str_at s [] []) = (str_at s [] [], FDone (MText 2 0 3)) /\
  called (sample_context 2 true) id_SizedStr src_FromIterator_char_SizedStr_N_from_iter [MRef 0] (Memory [OUser 3] []) =
    (Memory (OUser 0 :: made 1 (SSlice [Some x43; Some x42] 2)) [], FDone (MRef 4)).
Proof. split; [constructor; reflexivity|]. vm_compute. repeat split; reflexivity. Qed.
