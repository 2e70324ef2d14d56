(* When the documentation says that a function panics, and what a run of its text comes to. *)
From Coq Require Import List.
From Verif Require Import Base Streams Slot SourceNames SourceMeaning SourceMemory SourceOutput SourceInput SourceSlot SpecMemory.
Import ListNotations.

(* The run ended in a panic; it ended with a value. *)
Definition Panics {A S} (r : mres A S) : Prop := exists m p, r = (m, FFail p).
Definition Returns {A S} (r : mres A S) : Prop := exists m v, r = (m, FDone v).
Definition ReturnsErr {A S} (r : mres A S) : Prop := exists m e, r = (m, FDone (MCon id_Err [e])).

(* The sections "# Panics" of functions of the crate, with their conditions. *)
(* encode/output/mod.rs:45-47: "If the requested amount of bytes could not exactly be written, then this method will panic." *)
Definition write_said (o : output) (data : list byte) : Prop := length (o_buf o) - o_pos o < length data.
(* decode/input/mod.rs:45-47: "If the requested amount of bytes could not exactly be read, then this method will panic." *)
Definition read_said (i : input) (count : nat) : Prop := length (i_buf i) - i_pos i < count.
(* decode/input/mod.rs:75-77: "If the provided buffer could not be completely filled, then this method will panic." *)
Definition read_into_said (i : input) (dst : list byte) : Prop := length (i_buf i) - i_pos i < length dst.
(* slot/mod.rs:190-193: "The provided size must not be greater than the slot's capacity. If this is the case, however, this method will panic." *)
Definition set_len_said (s : slot) (len : nat) : Prop := length (s_buf s) < len.

(* slot/mod.rs:164: "If `self` cannot contain the entirety of `data` then this method will panic." *)
Definition copy_from_slice_said (s : slot) (data : list byte) : Prop := length (s_buf s) < length data.

(* The calls: an object that lies in memory next to anything, and the arguments. *)
Definition run_write {S} (c : mctx byte S) pre o post pre' data post' rest d : mres byte S :=
  called c id_Output src_impl_Output_write [MRef 0; MSlice 2 (length pre') (length data)]
    (Memory (output_obj 1 (length pre) o :: within pre (o_buf o) post :: within pre' data post' :: rest) d).
Definition run_read {S} (c : mctx byte S) pre i post count rest d : mres byte S :=
  called c id_Input src_impl_Input_read [MRef 0; MNum count] (Memory (input_obj 1 (length pre) i :: within pre (i_buf i) post :: rest) d).
Definition run_read_into {S} (c : mctx byte S) pre i post pre' dst post' rest d : mres byte S :=
  called c id_Input src_impl_Input_read_into [MRef 0; MSlice 2 (length pre') (length dst)]
    (Memory (input_obj 1 (length pre) i :: within pre (i_buf i) post :: within pre' dst post' :: rest) d).
Definition run_set_len {S} (c : mctx byte S) s len rest d : mres byte S :=
  called c id_Slot src_impl_Slot_T_set_len [MRef 0; MNum len] (Memory (slot_obj 1 s :: OBuf (filled (s_buf s)) :: rest) d).
Definition run_copy_from_slice {S} (c : mctx byte S) s pre data post rest d : mres byte S :=
  called c id_Slot src_impl_Slot_T_copy_from_slice [MRef 0; MSlice 2 (length pre) (length data)]
    (Memory (slot_obj 1 s :: OBuf (filled (s_buf s)) :: within pre data post :: rest) d).
