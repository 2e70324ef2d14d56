(* Memory that may be uninitialised, for the containers of oct/src/sized_slice, sized_iter and sized_str. Definitions only.

   A buffer `[MaybeUninit<T>; N]` is a list of N cells; a cell is [Some x] when it holds an item and [None] when it is uninitialised. Moving an
   item out of a cell (`assume_init_read`) or dropping it in place leaves its bits there, as in Rust. *)
From Verif Require Import Base.
Set Implicit Arguments.

(* What a call does when it is neither `Ok` nor `Err`: undefined behaviour, by kind. *)
(* the contracts of the unsafe functions called in oct/src/sized_slice, sized_iter and sized_str *)
Inductive ub :=
| UOutOfBounds    (* an access outside of the buffer *)
| UUninit         (* an uninitialised cell is used as an item *)
| UZeroAlloc      (* `alloc::alloc` with a layout of size zero *)
| UUnderflow      (* `unchecked_sub` of a larger number *)
| URange          (* `get_unchecked` of a range whose start exceeds its end *)
| UText.          (* `from_utf8_unchecked` of something that is not UTF-8 *)

(* (core: returning, unwinding, or neither) *)
Inductive out (A : Type) :=
| Done (a : A)
| Panics (p : panic)
| Undefined (u : ub).
Arguments Done {A} _.
Arguments Panics {A} _.
Arguments Undefined {A} _.

(* (auxiliary: one step after another) *)
Definition obind {A B} (m : out A) (f : A -> out B) : out B :=
  match m with Done a => f a | Panics p => Panics p | Undefined u => Undefined u end.
(* (auxiliary) *)
Definition omap {A B} (f : A -> B) (m : out A) : out B := obind m (fun a => Done (f a)).

(* `[const { MaybeUninit::uninit() }; N]` *)
(* as at oct/src/sized_slice/mod.rs:205 *)
Definition uninit (A : Type) (n : nat) : list (option A) := repeat None n.

(* `ptr.add(k).read()`, `get_unchecked(k).assume_init_read()`, or borrowing the item there *)
(* as at oct/src/sized_iter/mod.rs:139 *)
Definition mem_read {A} (buf : list (option A)) (k : nat) : out A :=
  match nth_error buf k with
  | None => Undefined UOutOfBounds
  | Some None => Undefined UUninit
  | Some (Some x) => Done x
  end.

(* `ptr.add(k).write(x)`, `get_unchecked_mut(k).write(x)` *)
(* as at oct/src/sized_slice/mod.rs:227 *)
Definition mem_write {A} (buf : list (option A)) (k : nat) (x : A) : out (list (option A)) :=
  if k <? length buf then Done (firstn k buf ++ Some x :: skipn (S k) buf) else Undefined UOutOfBounds.

(* `slice::from_raw_parts(ptr.add(start), len)`, with every item then read in order *)
(* as at oct/src/sized_slice/conv.rs:82-89 *)
Fixpoint mem_slice {A} (buf : list (option A)) (start len : nat) : out (list A) :=
  match len with
  | O => Done []
  | S len' => obind (mem_read buf start) (fun x => omap (cons x) (mem_slice buf (S start) len'))
  end.

(* `copy_nonoverlapping(data.as_ptr(), ptr, data.len())` *)
(* as at oct/src/sized_slice/mod.rs:81-95 *)
Definition mem_copy {A} (buf : list (option A)) (data : list A) : out (list (option A)) :=
  if length data <=? length buf then Done (map Some data ++ skipn (length data) buf) else Undefined UOutOfBounds.

(* `slice::from_raw_parts_mut(ptr.add(start), len)`, and whatever a program does to the items of that slice: [f] says what they are afterwards. A slice
   cannot change its length, so [f] is a function that keeps it. *)
(* as at oct/src/sized_slice/conv.rs:94-101 *)
Definition mem_edit {A} (buf : list (option A)) (start len : nat) (f : list A -> list A) : out (list (option A)) :=
  omap (fun items => firstn start buf ++ map Some (f items) ++ skipn (start + len) buf) (mem_slice buf start len).

(* A user's iterator: one call of `next` on a state gives an item or None, and the next state. Nothing says that None is final. *)
(* core: `Iterator::next`, called at oct/src/sized_slice/iter.rs:27-43 and oct/src/sized_str/mod.rs:154-178 *)
Definition iterator (S A : Type) : Type := S -> option A * S.

(* ---- core: slices as comparisons and hashers see them *)

(* `<[T] as PartialEq<[U]>>::eq`: the lengths, then item by item *)
(* called at oct/src/sized_slice/cmp.rs:38-66 *)
Fixpoint slice_eq {A B} (eq : A -> B -> bool) (x : list A) (y : list B) : bool :=
  match x, y with
  | [], [] => true
  | a :: x', b :: y' => eq a b && slice_eq eq x' y'
  | _, _ => false
  end.

(* `<[T] as Ord>::cmp`: the first pair of items that differs decides, then the lengths *)
(* called at oct/src/sized_slice/cmp.rs:31-36 *)
Fixpoint slice_cmp {A} (cmp : A -> A -> comparison) (x y : list A) : comparison :=
  match x, y with
  | [], [] => Eq
  | [], _ :: _ => Lt
  | _ :: _, [] => Gt
  | a :: x', b :: y' => match cmp a b with Eq => slice_cmp cmp x' y' | c => c end
  end.

(* `<[T] as PartialOrd>::partial_cmp` *)
(* called at oct/src/sized_slice/cmp.rs:68-96 *)
Fixpoint slice_partial_cmp {A} (cmp : A -> A -> option comparison) (x y : list A) : option comparison :=
  match x, y with
  | [], [] => Some Eq
  | [], _ :: _ => Some Lt
  | _ :: _, [] => Some Gt
  | a :: x', b :: y' => match cmp a b with Some Eq => slice_partial_cmp cmp x' y' | c => c end
  end.

(* One call on a `Hasher`. *)
(* core: `trait Hasher`, used at oct/src/sized_slice/mod.rs:254-261 *)
Inductive hash_call :=
| HWrite (bs : list byte)    (* `write`, and `write_u8` etc. *)
| HUsize (n : nat).          (* `write_usize`, which `write_length_prefix` calls *)

(* `<[T] as Hash>::hash`: the length, then `T::hash_slice`, which is the items one after another unless T overrides it *)
(* not called by the crate: what the hash of SizedSlice, oct/src/sized_slice/mod.rs:254-261, is compared with *)
Definition slice_hash {A} (hash_slice : list A -> list hash_call) (x : list A) : list hash_call :=
  HUsize (length x) :: hash_slice x.
(* `<str as Hash>::hash`: `write_str`, which is the octets and 0xFF *)
(* called at oct/src/sized_str/mod.rs:180-185 *)
Definition str_hash (bs : list byte) : list hash_call := [HWrite bs; HWrite [xff]].
