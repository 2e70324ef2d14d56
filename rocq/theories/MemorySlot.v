(* The functions of Slot, run from their text: proofs. *)
From Coq Require Import Lia.
From Verif Require Import Base Streams Types Mem Encode Decode Slot EncodeProofs DecodeProofs.
From Verif Require Import SourceNames SourceSyntax SourceMeaning SourceMemory SourceOutput SourceSlot SpecMemory MemoryRules MemoryCells MemoryStreams.

Section Slots.
Variables (S : Type) (c : mctx byte S).
Implicit Types (s : slot) (rest : list (mobj byte S)) (d : list (mval byte)).
Ltac start := intros; unfold called, slot_obj, within in *.

Lemma text_slot_with_capacity : forall cap rest d, k_lit c 0 = x00 ->
  called c id_Slot src_impl_Slot_T_with_capacity [MNum cap] (Memory rest d) =
  (Memory (rest ++ [OBuf (filled (s_buf (slot_with_capacity cap))); slot_obj (length rest) (slot_with_capacity cap)]) d, FDone (MRef (length rest + 1))).
Proof. start. go. cbn [slot_with_capacity s_buf s_len]. rewrite H, repeat_length. now rewrite filled_repeat. Qed.
Lemma text_slot_new : forall f rest d, f = src_impl_Slot_T_4_new \/ f = src_Default_Slot_T_default -> k_lit c 0 = x00 ->
  called c id_Slot f [] (Memory rest d) =
  (Memory (rest ++ [OBuf (filled (s_buf (slot_with_capacity (k_max c)))); slot_obj (length rest) (slot_with_capacity (k_max c))]) d, FDone (MRef (length rest + 1))).
Proof. start. destruct H as [-> | ->]; go; cbn [slot_with_capacity s_buf s_len]; rewrite H0, repeat_length; now rewrite filled_repeat. Qed.
Lemma text_slot_from_raw_parts : forall bs len rest d,
  called c id_Slot src_impl_Slot_T_from_raw_parts [MPtr 0 0 (length bs) 0; MNum (length bs); MNum len] (Memory (OBuf (filled bs) :: rest) d) =
  (Memory (OBuf (filled bs) :: rest ++ [slot_obj 0 (Slot bs len)]) d, FDone (MRef (1 + length rest))).
Proof. start. go. reflexivity. Qed.

Notation here s rest d := (Memory (slot_obj 1 s :: OBuf (filled (s_buf s)) :: rest) d).
Lemma text_slot_capacity : forall s rest d, called c id_Slot src_impl_Slot_T_capacity [MRef 0] (here s rest d) = (here s rest d, FDone (MNum (slot_capacity s))).
Proof. start. go. reflexivity. Qed.
Lemma text_slot_len : forall s rest d, called c id_Slot src_impl_Slot_T_len [MRef 0] (here s rest d) = (here s rest d, FDone (MNum (slot_length s))).
Proof. start. go. reflexivity. Qed.
Lemma text_slot_is_empty : forall s rest d, called c id_Slot src_impl_Slot_T_is_empty [MRef 0] (here s rest d) = (here s rest d, FDone (MBool (slot_is_empty s))).
Proof. start. go. reflexivity. Qed.
Lemma text_slot_is_full : forall s rest d, called c id_Slot src_impl_Slot_T_is_full [MRef 0] (here s rest d) = (here s rest d, FDone (MBool (slot_is_full s))).
Proof. start. go. reflexivity. Qed.
Lemma text_slot_as_ptr : forall f s rest d, f = src_impl_Slot_T_as_ptr \/ f = src_impl_Slot_T_as_mut_ptr ->
  called c id_Slot f [MRef 0] (here s rest d) = (here s rest d, FDone (MPtr 1 0 (slot_capacity s) 0)).
Proof. start. destruct H as [-> | ->]; go; reflexivity. Qed.
Lemma text_slot_as_slice : forall f s rest d, s_len s <= length (s_buf s) ->
  f = src_impl_Slot_T_as_slice \/ f = src_AsRef_slice_Slot_T_as_ref \/ f = src_Borrow_slice_Slot_T_borrow \/ f = src_Deref_Slot_T_deref ->
  called c id_Slot f [MRef 0] (here s rest d) = (here s rest d, FDone (MSlice 1 0 (length (slot_as_slice s)))).
Proof. start. unfold slot_as_slice. rewrite firstn_length_le by assumption. destruct H0 as [-> | [-> | [-> | ->]]]; go; reflexivity. Qed.
Lemma text_slot_as_mut_slice : forall f s rest d,
  f = src_impl_Slot_T_as_mut_slice \/ f = src_AsMut_slice_Slot_T_as_mut \/ f = src_BorrowMut_slice_Slot_T_borrow_mut \/ f = src_DerefMut_Slot_T_deref_mut ->
  called c id_Slot f [MRef 0] (here s rest d) = (here s rest d, FDone (MSlice 1 0 (length (slot_as_mut_slice s)))).
Proof. start. destruct H as [-> | [-> | [-> | ->]]]; go; reflexivity. Qed.

Lemma text_slot_set_len : forall s len rest d,
  called c id_Slot src_impl_Slot_T_set_len [MRef 0; MNum len] (here s rest d) =
  match slot_set_len s len with
  | (s', Ok _) => (here s' rest d, FDone (MTup []))
  | (s', Err _) => (here s' rest d, FLost)
  | (s', Panic p) => (here s' rest d, FFail p)
  end.
Proof. start. unfold slot_set_len, slot_capacity. go. branch X1; [|reflexivity]. go. branch X2; go; reflexivity. Qed.
Lemma text_slot_set_len_unchecked : forall s len rest d,
  called c id_Slot src_impl_Slot_T_set_len_unchecked [MRef 0; MNum len] (here s rest d) =
  if k_checks c && negb (len <=? slot_capacity s) then (here s rest d, FFail PAssert) else (here (Slot (s_buf s) len) rest d, FDone (MTup [])).
Proof. start. unfold slot_capacity. go. branch X1; go; [|reflexivity]. branch X2; go; reflexivity. Qed.
Lemma text_slot_copy_from_slice : forall s pre data post rest d,
  called c id_Slot src_impl_Slot_T_copy_from_slice [MRef 0; MSlice 2 (length pre) (length data)] (here s (within pre data post :: rest) d) =
  match slot_copy_from_slice s data with
  | (s', Ok _) => (here s' (within pre data post :: rest) d, FDone (MTup []))
  | (s', Err _) => (here s' (within pre data post :: rest) d, FLost)
  | (s', Panic p) => (here s' (within pre data post :: rest) d, FFail p)
  end.
Proof.
  start. unfold slot_copy_from_slice, slot_capacity. go. branch X1; [|reflexivity]. go.
  rewrite taken_mid0 by sizes. rewrite firstn_all. cbn [s_buf s_len firstn app].
  assert (X : filled data ++ skipn (0 + length data) (filled (s_buf s)) = filled (data ++ skipn (length data) (s_buf s))).
  { now rewrite filled_app, skipn_filled. }
  rewrite X. replace (length (s_buf s)) with (length (data ++ skipn (length data) (s_buf s))) by sizes.
  branch X2; go; reflexivity.
Qed.

(* the stream that `write` makes stays in memory, no longer used *)
Lemma text_slot_write : forall t s v rest d, encodes c t ->
  called c id_Slot src_impl_Slot_T_2_write [MRef 0; MVal v] (here s rest d) =
  let o := fst (encode (k_checks c) t v (output_new (s_buf s))) in
  match slot_write (k_checks c) t s v with
  | (s', Ok _) => (here s' (rest ++ [output_obj 1 0 o]) d, FDone (MCon id_Ok [MTup []]))
  | (s', Err e) => (here s' (rest ++ [output_obj 1 0 o]) d, FDone (MCon id_Err [MEErr e]))
  | (s', Panic p) => (here s' (rest ++ [output_obj 1 0 o]) d, FFail p)
  end.
Proof.
  start. cbv zeta. go. rewrite skipn_O, firstn_all, H. unfold slot_write. change (Output (s_buf s) 0) with (output_new (s_buf s)).
  pose proof (@C07_lemma (k_checks c) t v (output_new (s_buf s))) as P. destruct (encode (k_checks c) t v (output_new (s_buf s))) as [o r] eqn:E.
  specialize (P o r (Nat.le_0_l _) eq_refl). destruct P as (P & Q & _). unfold output_capacity, output_position, output_new in P, Q. cbn [o_buf o_pos] in P, Q.
  go. cbn [firstn app]. rewrite skipn_all2 by sizes. rewrite app_nil_r. fold (filled (o_buf o)). unfold output_obj. cbn [fst].
  destruct r as [u|e|p]; go.
  - unfold slot_set_len, slot_capacity, output_position. cbn [s_buf s_len]. settle. cbn [s_buf s_len]. rewrite !P.
    branch X2; go; reflexivity.
  - cbn [s_buf s_len]. now rewrite !P.
  - cbn [s_buf s_len]. now rewrite !P.
Qed.
Lemma text_slot_read : forall t s rest d, decodes c t ->
  called c id_Slot src_impl_Slot_T_3_read [MRef 0] (here s rest d) =
  let i := fst (decode t (input_new (s_buf s))) in
  match slot_read t s with
  | Ok v => (here s (rest ++ [input_obj 1 0 i]) d, FDone (MCon id_Ok [MVal v]))
  | Err e => (here s (rest ++ [input_obj 1 0 i]) d, FDone (MCon id_Err [MDErr e]))
  | Panic p => (here s (rest ++ [input_obj 1 0 i]) d, FFail p)
  end.
Proof.
  start. cbv zeta. go. rewrite skipn_O, firstn_all, H. unfold slot_read. change (Input (s_buf s) 0) with (input_new (s_buf s)).
  pose proof (@C22_lemma t (input_new (s_buf s))) as P. destruct (decode t (input_new (s_buf s))) as [i r] eqn:E.
  specialize (P i r (Nat.le_0_l _) eq_refl). destruct P as (P & _). unfold input_new in P. cbn [i_buf] in P. unfold input_obj. cbn [fst snd]. rewrite P.
  destruct r as [v|e|p]; go; reflexivity.
Qed.

(* `Index` and `IndexMut` give a place: a number, that of an octet; a range, a slice *)
Lemma text_slot_index : forall s k rest d, s_len s <= length (s_buf s) ->
  called c id_Slot src_Index_I_Slot_T_index [MRef 0; MNum k] (here s rest d) =
  match slot_index s k with
  | Ok _ => (here s rest d, FDone (MPtr 1 0 (length (slot_as_slice s)) k))
  | Err _ => (here s rest d, FLost)
  | Panic p => (here s rest d, FFail p)
  end.
Proof.
  start. unfold slot_index, slot_as_slice. rewrite firstn_length_le by assumption. go. branch X1; go.
  - destruct (nth_error _ k) eqn:F; [reflexivity|]. apply nth_error_None in F. rewrite firstn_length_le in F by assumption. lia.
  - rewrite (proj2 (nth_error_None _ _)); [reflexivity|]. rewrite firstn_length_le by assumption. exact X1.
Qed.
Lemma text_slot_index_range : forall s a b rest d, s_len s <= length (s_buf s) ->
  called c id_Slot src_Index_I_Slot_T_index [MRef 0; MSpan a b] (here s rest d) =
  if (a <=? b) && (b <=? length (slot_as_slice s)) then (here s rest d, FDone (MSlice 1 a (b - a))) else (here s rest d, FFail PIndex).
Proof. start. unfold slot_as_slice. rewrite firstn_length_le by assumption. go. branch X1; go; reflexivity. Qed.
Lemma text_slot_index_mut : forall s k b rest d,
  called c id_Slot src_IndexMut_I_Slot_T_index_mut [MRef 0; MNum k] (here s rest d) =
  match slot_index_set s k b with
  | (_, Ok _) => (here s rest d, FDone (MPtr 1 0 (length (slot_as_mut_slice s)) k))
  | (_, Err _) => (here s rest d, FLost)
  | (_, Panic p) => (here s rest d, FFail p)
  end.
Proof. start. unfold slot_index_set, slot_as_mut_slice. go. branch X1; go; reflexivity. Qed.
Lemma text_slot_index_mut_range : forall s a b rest d,
  called c id_Slot src_IndexMut_I_Slot_T_index_mut [MRef 0; MSpan a b] (here s rest d) =
  if (a <=? b) && (b <=? length (slot_as_mut_slice s)) then (here s rest d, FDone (MSlice 1 a (b - a))) else (here s rest d, FFail PIndex).
Proof. start. unfold slot_as_mut_slice. go. branch X1; go; reflexivity. Qed.
Lemma text_slot_eq : forall f s pre bs post rest d, k_eq c = byte_eqb -> s_len s <= length (s_buf s) ->
  f = src_PartialEq_slice_Slot_T_eq \/ f = src_PartialEq_ref_Slot_T_eq \/ f = src_PartialEq_ref_mut_Slot_T_eq ->
  called c id_Slot f [MRef 0; MSlice 2 (length pre) (length bs)] (here s (within pre bs post :: rest) d) =
  (here s (within pre bs post :: rest) d, FDone (MBool (slot_eqb s bs))).
Proof. start. destruct H1 as [-> | [-> | ->]]; go; rewrite firstn_all; now rewrite eq_of_bytes. Qed.
(* `Debug` is that of the slice *)
Lemma text_slot_fmt : forall s f rest d, s_len s <= length (s_buf s) ->
  called c id_Slot src_Debug_Slot_T_fmt [MRef 0; f] (here s rest d) =
  (here s rest d, FDone (MCon id_Debug [MSlice 1 0 (length (slot_as_slice s))])).
Proof. start. unfold slot_as_slice. rewrite firstn_length_le by assumption. go. the_text. go. reflexivity. Qed.
End Slots.
