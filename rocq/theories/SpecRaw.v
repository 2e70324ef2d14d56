(* Vocabulary of C109: programs that call the unsafe functions within their contracts. Definitions only. *)
From Verif Require Import Base Streams Utf8 Types Traits Encode Decode Mem SizedSlice SizedStr Slot Raw SpecContainers.
Set Implicit Arguments.

(* the first [len] cells hold items *)
Definition Initialised {A} (buf : list (option A)) (len : nat) : Prop := forall k, k < len -> exists x, nth_error buf k = Some (Some x).

(* The SizedSlices of capacity [n] that a program can make: those of safe programs, those made of raw parts, those with another length, as long as
   there are items up to it, and those that have been written to through a pointer. `copy_from_slice` is only given what there is room for. *)
Inductive RawReachable (debug : bool) (n : nat) : forall A, sslice A -> Prop :=
| RW_safe A (s : sslice A) : Reachable n s -> RawReachable debug n s
| RW_parts A (buf : list (option A)) len s :
    length buf = n -> len <= n -> Initialised buf len -> ss_from_raw_parts debug buf len = Done s -> RawReachable debug n s
| RW_set_len A (s : sslice A) len s' :
    RawReachable debug n s -> len <= n -> Initialised (ss_buf s) len -> ss_set_len debug s len = Done s' -> RawReachable debug n s'
| RW_write A (s : sslice A) k x s' : RawReachable debug n s -> k < n -> ss_ptr_write s k x = Done s' -> RawReachable debug n s'
| RW_clone A (cl : A -> option A) s s' : RawReachable debug n s -> ss_clone cl s = Done s' -> RawReachable debug n s'
| RW_each_ref A (s : sslice A) s' : RawReachable debug n s -> ss_each_ref s = Done s' -> RawReachable debug n s'
| RW_copy A (s : sslice A) data s' : RawReachable debug n s -> length data <= n -> ss_copy_from_slice s data = Done s' -> RawReachable debug n s'
| RW_set A (s : sslice A) k x s' : RawReachable debug n s -> ss_index_set s k x = Done s' -> RawReachable debug n s'.

(* The SizedStrs of capacity [n]; [whole] as in [StrReachable]. Writes are beyond the text. *)
Inductive RawStr (debug : bool) (n : nat) : bool -> sstr -> Prop :=
| RT_safe w s : StrReachable n w s -> RawStr debug n w s
| RT_parts buf len s : length buf = n -> len <= n -> valid_utf8 (firstn len buf) -> st_from_raw_parts debug buf len = Done s -> RawStr debug n true s
| RT_unchecked bs s : valid_utf8 bs -> length bs <= n -> st_from_utf8_unchecked debug n bs = Done s -> RawStr debug n true s
| RT_write w s k b s' : RawStr debug n w s -> st_length s <= k < n -> st_ptr_write s k b = Done s' -> RawStr debug n w s'
| RT_clone w s s' : RawStr debug n w s -> st_clone s = Done s' -> RawStr debug n false s'
| RT_change w s bs s' : RawStr debug n w s -> valid_utf8 bs -> length bs = st_length s -> st_change s bs = Done s' -> RawStr debug n w s'.

(* The Slots for the type [t]. *)
Inductive RawSlot (debug checks : bool) (t : ty) : slot -> Prop :=
| RS_new cap : RawSlot debug checks t (slot_with_capacity cap)
| RS_parts mem len : len <= length mem -> RawSlot debug checks t (slot_from_raw_parts mem len)
| RS_op s op s' r : RawSlot debug checks t s -> slot_step checks t s op = (s', r) -> RawSlot debug checks t s'
| RS_set_len s len s' : RawSlot debug checks t s -> len <= slot_capacity s -> slot_set_len_unchecked debug s len = Done s' -> RawSlot debug checks t s'
| RS_write s k b s' : RawSlot debug checks t s -> k < slot_capacity s -> slot_ptr_write s k b = Done s' -> RawSlot debug checks t s'.
