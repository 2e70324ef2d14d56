(* SizedSlice<T, N>: oct/src/sized_slice/mod.rs, conv.rs, iter.rs, cmp.rs and code.rs. Definitions only.

   T is a type [A]. `T::clone` is a function that returns an item, or [None] when it panics. References to items are the indices of the cells. *)
From Verif Require Import Base Streams Types Encode Decode Mem.
Set Implicit Arguments.

(* sized_slice/mod.rs:73-76. N is the length of the buffer. *)
Record sslice (A : Type) := SSlice { ss_buf : list (option A); ss_len : nat }.
Arguments SSlice {A} _ _.

(* oct/src/error/length_error.rs *)
Record length_error := LengthError { le_capacity : nat; le_len : nat }.

(* sized_slice/mod.rs:171-173, 180-182, 189-191, 196-198 *)
Definition ss_capacity {A} (s : sslice A) : nat := length (ss_buf s).
(* sized_slice/mod.rs:180-182 `len` *)
Definition ss_length {A} (s : sslice A) : nat := ss_len s.
(* sized_slice/mod.rs:189-191 `is_empty` *)
Definition ss_is_empty {A} (s : sslice A) : bool := ss_length s =? 0.
(* sized_slice/mod.rs:196-198 `is_full` *)
Definition ss_is_full {A} (s : sslice A) : bool := ss_length s =? ss_capacity s.

(* sized_slice/conv.rs:82-89 `as_slice`, and everything that goes through it: AsRef, Borrow, Deref, `&SizedSlice` as an iterator (sized_slice/iter.rs:59-68). The result is
   what the program sees when it looks at the items. `as_mut_slice`, sized_slice/conv.rs:94-101, shows the same. *)
Definition ss_as_slice {A} (s : sslice A) : out (list A) := mem_slice (ss_buf s) 0 (ss_len s).

(* sized_slice/conv.rs:94-101 `as_mut_slice`, and everything that goes through it: AsMut, BorrowMut, DerefMut, conv.rs:150-192, `iter_mut`, sized_slice/iter.rs:70-79,
   with a change [f] of the items *)
Definition ss_edit {A} (f : list A -> list A) (s : sslice A) : out (sslice A) :=
  omap (fun buf => SSlice buf (ss_len s)) (mem_edit (ss_buf s) 0 (ss_len s) f).

(* sized_slice/mod.rs:204-214 `new`, and TryFrom<&[T]>, sized_slice/conv.rs:205-212. [inl] is `Err`. *)
Fixpoint clone_into {A} (cl : A -> option A) (buf : list (option A)) (data : list A) : out (list (option A)) :=
  match buf, data with
  | _ :: buf', x :: data' =>
    match cl x with
    | Some y => omap (cons (Some y)) (clone_into cl buf' data')
    | None => Panics PUser
    end
  | _, _ => Done buf
  end.
(* sized_slice/mod.rs:204-214 *)
Definition ss_new {A} (cl : A -> option A) (n : nat) (data : list A) : out (length_error + sslice A) :=
  if n <? length data then Done (inl (LengthError n (length data)))
  else omap (fun buf => inr (SSlice buf (length data))) (clone_into cl (uninit A n) data).

(* sized_slice/iter.rs:27-43 `from_iter`: one call of `next` for each cell, until None *)
Fixpoint fill {St A} (next : iterator St A) (n : nat) (st : St) : list (option A) * nat * St :=
  match n with
  | O => ([], 0, st)
  | S n' =>
    match next st with
    | (None, st') => (uninit A n, 0, st')
    | (Some x, st') => let '(buf, len, st'') := fill next n' st' in (Some x :: buf, S len, st'')
    end
  end.
(* sized_slice/iter.rs:27-43 *)
Definition ss_from_iter {St A} (next : iterator St A) (n : nat) (st : St) : sslice A * St :=
  let '(buf, len, st') := fill next n st in (SSlice buf len, st').

(* sized_slice/conv.rs:194-203 `From<[T; N]>`. The drop of the array at the end of the call is in Owned.v. *)
Definition ss_from_array {A} (items : list A) : sslice A := SSlice (map Some items) (length items).

(* sized_slice/mod.rs:241-252 `default` *)
Definition ss_default (A : Type) (n : nat) : sslice A := SSlice (uninit A n) 0.

(* sized_slice/mod.rs:218-232 `clone`: `for i in 0..len`, through `get_unchecked` and `write` *)
Fixpoint clone_loop {A} (cl : A -> option A) (src dst : list (option A)) (i n : nat) : out (list (option A)) :=
  match n with
  | O => Done dst
  | S n' =>
    obind (mem_read src i) (fun x =>
    match cl x with
    | None => Panics PUser
    | Some y => obind (mem_write dst i y) (fun dst' => clone_loop cl src dst' (S i) n')
    end)
  end.
(* sized_slice/mod.rs:218-232 *)
Definition ss_clone {A} (cl : A -> option A) (s : sslice A) : out (sslice A) :=
  omap (fun buf => SSlice buf (ss_len s)) (clone_loop cl (ss_buf s) (uninit A (ss_capacity s)) 0 (ss_len s)).

(* sized_slice/mod.rs:81-95 `copy_from_slice`, with `set_len`, 160-164: the copy is not guarded; `set_len` asserts only in a debug build, and after the copy *)
Definition ss_copy_from_slice {A} (s : sslice A) (data : list A) : out (sslice A) :=
  omap (fun buf => SSlice buf (length data)) (mem_copy (ss_buf s) data).

(* sized_slice/mod.rs:99-121 `each_ref`, and `each_mut`, 125-147: the addresses of the items. A null pointer, which is no reference, is [None]. *)
Fixpoint addr_loop (buf : list (option nat)) (i n : nat) : out (list (option nat)) :=
  match n with
  | O => Done buf
  | S n' => obind (mem_write buf i i) (fun buf' => addr_loop buf' (S i) n')
  end.
(* sized_slice/mod.rs:99-121 *)
Definition ss_each_ref {A} (s : sslice A) : out (sslice nat) :=
  omap (fun buf => SSlice buf (ss_len s)) (addr_loop (uninit nat (ss_capacity s)) 0 (ss_len s)).
(* following a reference into [s] *)
(* (no code of the crate: `*r` for one of the references of sized_slice/mod.rs:99-121) *)
Definition ss_deref {A} (s : sslice A) (addr : nat) : out A := mem_read (ss_buf s) addr.

(* storing through a reference of `each_mut` *)
(* (no code of the crate: `*r = x` for one of the references of sized_slice/mod.rs:125-147) *)
Definition ss_store {A} (s : sslice A) (addr : nat) (x : A) : out (sslice A) :=
  omap (fun buf => SSlice buf (ss_len s)) (mem_write (ss_buf s) addr x).

(* sized_slice/conv.rs:119-136 `into_boxed_slice`, also `into_vec`, 145-147, and the From impls, 214-230. [size] is `size_of::<T>()`; [granted] says whether the
   allocator returns memory. `Layout::array(len)` cannot fail: the buffer of at least as many items exists. *)
Definition ss_into_boxed_slice {A} (size : N) (granted : bool) (s : sslice A) : out (list A) :=
  if (size * N.of_nat (ss_len s) =? 0)%N then Undefined UZeroAlloc
  else if granted then mem_slice (ss_buf s) 0 (ss_len s)
  else Panics PAssert.

(* sized_slice/mod.rs:263-270 `Index`: `self.get(..).unwrap()` for a number and for a range *)
Definition ss_index {A} (s : sslice A) (k : nat) : out A :=
  obind (ss_as_slice s) (fun items => match nth_error items k with Some x => Done x | None => Panics PIndex end).
(* sized_slice/mod.rs:263-270, a range *)
Definition ss_index_range {A} (s : sslice A) (a b : nat) : out (list A) :=
  obind (ss_as_slice s) (fun items =>
    if (a <=? b) && (b <=? length items) then Done (firstn (b - a) (skipn a items)) else Panics PIndex).
(* sized_slice/mod.rs:272-277 `IndexMut` for a number, and an assignment to it *)
Definition ss_index_set {A} (s : sslice A) (k : nat) (x : A) : out (sslice A) :=
  if k <? ss_len s then omap (fun buf => SSlice buf (ss_len s)) (mem_write (ss_buf s) k x) else Panics PIndex.

(* sized_slice/cmp.rs:29-96 *)
Definition ss_eq {A B} (eq : A -> B -> bool) (s : sslice A) (s' : sslice B) : out bool :=
  obind (ss_as_slice s) (fun x => omap (slice_eq eq x) (ss_as_slice s')).
(* sized_slice/cmp.rs:45-66: with an array, a slice or a Vec *)
Definition ss_eq_slice {A B} (eq : A -> B -> bool) (s : sslice A) (y : list B) : out bool :=
  omap (fun x => slice_eq eq x y) (ss_as_slice s).
(* sized_slice/cmp.rs:31-36 *)
Definition ss_cmp {A} (cmp : A -> A -> comparison) (s s' : sslice A) : out comparison :=
  obind (ss_as_slice s) (fun x => omap (slice_cmp cmp x) (ss_as_slice s')).
(* sized_slice/cmp.rs:68-73 *)
Definition ss_partial_cmp {A} (cmp : A -> A -> option comparison) (s s' : sslice A) : out (option comparison) :=
  obind (ss_as_slice s) (fun x => omap (slice_partial_cmp cmp x) (ss_as_slice s')).
(* sized_slice/cmp.rs:75-96: with an array, a slice or a Vec *)
Definition ss_partial_cmp_slice {A} (cmp : A -> A -> option comparison) (s : sslice A) (y : list A) : out (option comparison) :=
  omap (fun x => slice_partial_cmp cmp x y) (ss_as_slice s).

(* sized_slice/mod.rs:254-261 `hash`: the items one after another, without a length. [hash] is what `T::hash` calls on the hasher. *)
Definition ss_hash {A} (hash : A -> list hash_call) (s : sslice A) : out (list hash_call) :=
  omap (flat_map hash) (ss_as_slice s).

(* sized_slice/code.rs:33-48 `decode`: the length, its check, and then every cell of the buffer *)
Fixpoint dec_cells {A} (f : D A) (buf : list (option A)) (i : nat) : D (list (option A)) :=
  match buf with
  | [] => dok []
  | _ :: buf' => dbind (dmap_err (DItem i) f) (fun x => dmap (cons (Some x)) (dec_cells f buf' (S i)))
  end.
(* sized_slice/code.rs:33-48 *)
Definition ss_decode {A} (f : D A) (n : nat) : D (sslice A) :=
  dbind dec_usize (fun len =>
    if n <? Z.to_nat len then derror (DLen (DLength n (Z.to_nat len)))
    else dmap (fun buf => SSlice buf (Z.to_nat len)) (dec_cells f (uninit A n) 0)).

(* oct/src/sized_slice/code.rs:52-59 `encode`: that of the slice; [f] encodes an item *)
Definition ss_encode {A} (f : A -> E) (s : sslice A) : out E := omap (enc_slice f EItem) (ss_as_slice s).
