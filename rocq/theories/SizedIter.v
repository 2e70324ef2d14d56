(* SizedIter<T, N>: oct/src/sized_iter/mod.rs. Definitions only. *)
From Verif Require Import Base Mem SizedSlice.
Set Implicit Arguments.

(* sized_iter/mod.rs:31-36. [it_len] is the number of items that remain. *)
Record siter (A : Type) := SIter { it_buf : list (option A); it_pos : nat; it_len : nat }.
Arguments SIter {A} _ _ _.

(* sized_iter/mod.rs:41-45 `new`, called by oct/src/sized_slice/iter.rs:52-56 `into_iter` *)
Definition ss_into_iter {A} (s : sslice A) : siter A := SIter (ss_buf s) 0 (ss_len s).

(* sized_iter/mod.rs:49-58 `as_slice`, 81-86 AsRef *)
Definition it_as_slice {A} (i : siter A) : out (list A) := mem_slice (it_buf i) (it_pos i) (it_len i).

(* sized_iter/mod.rs:62-71 `as_mut_slice`, 74-79 AsMut, with a change [f] of the items *)
Definition it_edit {A} (f : list A -> list A) (i : siter A) : out (siter A) :=
  omap (fun buf => SIter buf (it_pos i) (it_len i)) (mem_edit (it_buf i) (it_pos i) (it_len i) f).

(* sized_iter/mod.rs:134-145 `next` *)
Definition it_next {A} (i : siter A) : out (option A * siter A) :=
  if it_len i =? 0 then Done (None, i)
  else omap (fun x => (Some x, SIter (it_buf i) (it_pos i + 1) (it_len i - 1))) (mem_read (it_buf i) (it_pos i)).

(* sized_iter/mod.rs:113-124 `next_back` *)
Definition it_next_back {A} (i : siter A) : out (option A * siter A) :=
  if it_len i =? 0 then Done (None, i)
  else omap (fun x => (Some x, SIter (it_buf i) (it_pos i) (it_len i - 1))) (mem_read (it_buf i) (it_pos i + it_len i - 1)).

(* sized_iter/mod.rs:148-175 `nth`: the result, the items dropped by the call, and the state. `start + index - 1` overflows when both are zero: a panic with
   overflow checks, and otherwise a range that ends far outside of the buffer. The cell read at last is number [index], not [pos + index]. *)
Definition it_nth {A} (checks : bool) (i : siter A) (index : nat) : out (option A * list A * siter A) :=
  if it_len i <? index then Done (None, [], i)
  else if it_pos i + index =? 0 then (if checks then Panics PArith else Undefined UOutOfBounds)
  else
    let start := it_pos i in
    let stop := it_pos i + index - 1 in
    if stop <? start then Undefined URange
    else if length (it_buf i) <? stop then Undefined UOutOfBounds
    else
      obind (mem_slice (it_buf i) start (stop - start)) (fun dropped =>
      omap (fun x => (Some x, dropped, SIter (it_buf i) (it_pos i + index) (it_len i - index))) (mem_read (it_buf i) index)).

(* sized_iter/mod.rs:178-182 `size_hint`; both bounds are this number. Also `ExactSizeIterator::len`. *)
Definition it_size_hint {A} (i : siter A) : out nat :=
  if it_len i <? it_pos i then Undefined UUnderflow else Done (it_len i - it_pos i).

(* sized_iter/mod.rs:88-109 `clone` *)
Definition it_clone {A} (cl : A -> option A) (i : siter A) : out (siter A) :=
  omap (fun buf => SIter buf (it_pos i) (it_len i)) (clone_loop cl (it_buf i) (uninit A (length (it_buf i))) (it_pos i) (it_len i)).

(* A sequence of calls from either end. *)
(* (a choice between `next`, oct/src/sized_iter/mod.rs:134, and `next_back`, 113) *)
Inductive end_of := Front | Back.
(* oct/src/sized_iter/mod.rs:134-145 or 113-124 *)
Definition it_step {A} (e : end_of) (i : siter A) : out (option A * siter A) :=
  match e with Front => it_next i | Back => it_next_back i end.
(* (a program's calls; no code of its own) *)
Fixpoint it_run {A} (es : list end_of) (i : siter A) : out (list (option A) * siter A) :=
  match es with
  | [] => Done ([], i)
  | e :: es' => obind (it_step e i) (fun '(r, i1) => omap (fun '(rs, i2) => (r :: rs, i2)) (it_run es' i1))
  end.
