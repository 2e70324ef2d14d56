(* Slot<T>: oct/src/slot/mod.rs. Definitions only. *)
From Verif Require Import Base Streams Utf8 Types Traits Encode Decode Sized.
Set Implicit Arguments.

(* slot/mod.rs:69-74. The marker for T is the type that calls are given. *)
Record slot := Slot { s_buf : list byte; s_len : nat }.

(* slot/mod.rs:85-95 `with_capacity` *)
Definition slot_with_capacity (cap : nat) : slot := Slot (repeat x00 cap) 0.
(* slot/mod.rs:314-316 `new`: `with_capacity(T::MAX_ENCODED_SIZE)`; and `default`, 362-367 *)
Definition slot_new (size_of : size_of_fn) (t : ty) : option slot :=
  option_map (fun n => slot_with_capacity (N.to_nat n)) (max_size size_of t).
(* slot/mod.rs:226-228, 237-239, 246-248, 255-257 *)
Definition slot_capacity (s : slot) : nat := length (s_buf s).
(* slot/mod.rs:237-239 `len` *)
Definition slot_length (s : slot) : nat := s_len s.
(* slot/mod.rs:246-248 `is_empty` *)
Definition slot_is_empty (s : slot) : bool := slot_length s =? 0.
(* slot/mod.rs:255-257 `is_full` *)
Definition slot_is_full (s : slot) : bool := slot_length s =? slot_capacity s.
(* slot/mod.rs:143-146 `as_slice`, also AsRef, Borrow, Deref: `from_raw_parts(ptr, len)`, the first `len` octets (all of them in the
   buffer in a reachable state, C43) *)
Definition slot_as_slice (s : slot) : list byte := firstn (s_len s) (s_buf s).

(* slot/mod.rs:155-159 `as_mut_slice`, also AsMut, 321-326, BorrowMut, 348-353, DerefMut, 376-382: the whole buffer *)
Definition slot_as_mut_slice (s : slot) : list byte := s_buf s.
(* a change [f] of the octets of that slice *)
(* slot/mod.rs:155-159 *)
Definition slot_edit (f : list byte -> list byte) (s : slot) : slot := Slot (f (slot_as_mut_slice s)) (s_len s).

(* slot/mod.rs:195-200 `set_len`: the assertion, then 212-218 `set_len_unchecked` *)
Definition slot_set_len (s : slot) (len : nat) : slot * res eerr unit :=
  if len <=? slot_capacity s then (Slot (s_buf s) len, Ok tt) else (s, Panic PAssert).

(* slot/mod.rs:166-184 `copy_from_slice`: the assertion, `copy_nonoverlapping` to the start of the buffer, and the length *)
Definition slot_copy_from_slice (s : slot) (data : list byte) : slot * res eerr unit :=
  if length data <=? slot_capacity s then (Slot (data ++ skipn (length data) (s_buf s)) (length data), Ok tt)
  else (s, Panic PAssert).

(* slot/mod.rs:270-279 `write`: encodes into an output over the whole buffer; on success `set_len(position)`. On an error, or when a panic
   unwinds, what was written stays in the buffer. *)
Definition slot_write (checks : bool) (t : ty) (s : slot) (v : val) : slot * res eerr unit :=
  match encode checks t v (output_new (s_buf s)) with
  | (o, Ok _) => slot_set_len (Slot (o_buf o) (s_len s)) (output_position o)
  | (o, Err e) => (Slot (o_buf o) (s_len s), Err e)
  | (o, Panic p) => (Slot (o_buf o) (s_len s), Panic p)
  end.

(* slot/mod.rs:295-303 `read`: decodes from an input over the whole buffer *)
Definition slot_read (t : ty) (s : slot) : res derr val := snd (decode t (input_new (s_buf s))).

(* slot/mod.rs:388-395 `Index::index` for a number: `self.get(k).unwrap()` through Deref, so `as_slice` *)
Definition slot_index (s : slot) (k : nat) : res eerr byte :=
  match nth_error (slot_as_slice s) k with Some b => Ok b | None => Panic PIndex end.

(* slot/mod.rs:398-403 `IndexMut::index_mut` for a number, and an assignment to it: `self.get_mut(k).unwrap()` through DerefMut, so
   `as_mut_slice`, 155-159, the whole buffer *)
Definition slot_index_set (s : slot) (k : nat) (b : byte) : slot * res eerr unit :=
  if k <? length (s_buf s) then (Slot (firstn k (s_buf s) ++ b :: skipn (S k) (s_buf s)) (s_len s), Ok tt)
  else (s, Panic PIndex).

(* slot/mod.rs:406-427 `PartialEq` with byte slices *)
Definition slot_eqb (s : slot) (bs : list byte) : bool := bytes_eqb (slot_as_slice s) bs.

(* The safe operations that change a slot of type [t]. Through `as_mut_slice` (also AsMut, BorrowMut, DerefMut) a program can store any
   octets in the buffer; that is any number of [SSet]. *)
(* (a program's calls; no code of its own) *)
Inductive slot_op :=
| SWrite (v : val) | SCopy (data : list byte) | SSetLen (len : nat) | SSet (k : nat) (b : byte).

(* one of them, through the functions above *)
Definition slot_step (checks : bool) (t : ty) (s : slot) (op : slot_op) : slot * res eerr unit :=
  match op with
  | SWrite v => slot_write checks t s v
  | SCopy data => slot_copy_from_slice s data
  | SSetLen len => slot_set_len s len
  | SSet k b => slot_index_set s k b
  end.

(* A history of calls. A panicking call is caught by the program (`catch_unwind`), which goes on with the slot. *)
(* (no code of its own) *)
Fixpoint slot_run (checks : bool) (t : ty) (s : slot) (ops : list slot_op) : slot * list (res eerr unit) :=
  match ops with
  | [] => (s, [])
  | op :: ops' =>
    let (s1, r) := slot_step checks t s op in
    let (s2, rs) := slot_run checks t s1 ops' in
    (s2, r :: rs)
  end.
