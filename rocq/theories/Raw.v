(* The unsafe functions of SizedSlice, SizedStr and Slot: oct/src/sized_slice/conv.rs, mod.rs, oct/src/sized_str/conv.rs, oct/src/slot/mod.rs. [debug] says
   that the program is built with debug assertions. Definitions only. *)
From Verif Require Import Base Streams Utf8 Types Traits Encode Decode Mem SizedSlice SizedStr Slot.
Set Implicit Arguments.

(* sized_slice/conv.rs:53-57 `from_raw_parts` *)
Definition ss_from_raw_parts {A} (debug : bool) (buf : list (option A)) (len : nat) : out (sslice A) :=
  if debug && (length buf <? len) then Panics PAssert else Done (SSlice buf len).
(* sized_slice/conv.rs:108-111 `into_raw_parts` *)
Definition ss_into_raw_parts {A} (s : sslice A) : list (option A) * nat := (ss_buf s, ss_len s).
(* sized_slice/mod.rs:160-164 `set_len` *)
Definition ss_set_len {A} (debug : bool) (s : sslice A) (len : nat) : out (sslice A) :=
  if debug && (length (ss_buf s) <? len) then Panics PAssert else Done (SSlice (ss_buf s) len).
(* sized_slice/conv.rs:65-67 `as_ptr`, and a read: `s.as_ptr().add(k).read()` *)
Definition ss_ptr_read {A} (s : sslice A) (k : nat) : out A := mem_read (ss_buf s) k.
(* sized_slice/conv.rs:75-77 `as_mut_ptr`, and a write: `s.as_mut_ptr().add(k).write(x)` *)
Definition ss_ptr_write {A} (s : sslice A) (k : nat) (x : A) : out (sslice A) :=
  omap (fun buf => SSlice buf (ss_len s)) (mem_write (ss_buf s) k x).

(* sized_str/conv.rs:109-115 `from_raw_parts` *)
Definition st_from_raw_parts (debug : bool) (buf : list byte) (len : nat) : out sstr :=
  if debug && (length buf <? len) then Panics PAssert else ss_from_raw_parts debug (map Some buf) len.
(* sized_str/conv.rs:85-95 `from_utf8_unchecked` *)
Definition st_from_utf8_unchecked (debug : bool) (n : nat) (bs : list byte) : out sstr :=
  if debug && (n <? length bs) then Panics PAssert else st_unchecked n bs.
(* sized_str/conv.rs:131-133 `as_mut_ptr`, and a write through it *)
Definition st_ptr_write (s : sstr) (k : nat) (b : byte) : out sstr := ss_ptr_write s k b.

(* slot/mod.rs:104-117 `from_raw_parts`; [mem] is what the pointer refers to *)
Definition slot_from_raw_parts (mem : list byte) (len : nat) : slot := Slot mem len.
(* slot/mod.rs:212-218 `set_len_unchecked` *)
Definition slot_set_len_unchecked (debug : bool) (s : slot) (len : nat) : out slot :=
  if debug && (slot_capacity s <? len) then Panics PAssert else Done (Slot (s_buf s) len).
(* slot/mod.rs:133-135 `as_mut_ptr`, and a write through it *)
Definition slot_ptr_write (s : slot) (k : nat) (b : byte) : out slot :=
  if k <? length (s_buf s) then Done (Slot (firstn k (s_buf s) ++ b :: skipn (S k) (s_buf s)) (s_len s)) else Undefined UOutOfBounds.
(* slot/mod.rs:143-146 `as_slice`, for any length *)
Definition slot_view (s : slot) : out (list byte) := mem_slice (map Some (s_buf s)) 0 (s_len s).
