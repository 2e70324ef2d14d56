(* Who drops the items of a SizedSlice: a container through its life, and the destructors run. Definitions only. *)
From Verif Require Import Base Mem SizedSlice SizedIter.
Set Implicit Arguments.

(* What happens to an item: the program's own destructor call, or a move out of the container to the caller, who then owns it. *)
(* (the observable effects of oct/src/sized_slice and oct/src/sized_iter on items; no code of its own) *)
Inductive event (A : Type) :=
| Dropped (x : A)
| Given (x : A).
Arguments Dropped {A} _.
Arguments Given {A} _.
(* (auxiliary) *)
Definition ev_item {A} (e : event A) : A := match e with Dropped x | Given x => x end.

(* What a variable holds. *)
(* oct/src/sized_slice/mod.rs:73-76, oct/src/sized_iter/mod.rs:31-36, and the types of core and alloc *)
Inductive holder (A : Type) :=
| HArray (items : list A)     (* an array [T; N] *)
| HSlice (s : sslice A)
| HIter (i : siter A)
| HVec (items : list A)       (* a Vec<T> or Box<[T]> *)
| HGone.                      (* moved away or dropped *)
Arguments HArray {A} _.
Arguments HSlice {A} _.
Arguments HIter {A} _.
Arguments HVec {A} _.
Arguments HGone {A}.

(* oct/src/sized_slice/conv.rs:119-147, 194-203, iter.rs:46-57, oct/src/sized_iter/mod.rs:113-175 *)
Inductive own_op :=
| OFrom          (* SizedSlice::from of an array *)
| OIntoIter      (* SizedSlice::into_iter *)
| OIntoVec       (* SizedSlice::into_vec, into_boxed_slice *)
| ONext (e : end_of)
| ONth (n : nat)
| ODrop.         (* the variable goes out of scope *)

(* One operation: the events and what is held after. Operations that do not apply to the type of the variable do not compile; here they do
   nothing. *)
Definition own_step {A} (checks : bool) (size : N) (op : own_op) (h : holder A) : out (list (event A) * holder A) :=
  match op, h with
  (* oct/src/sized_slice/conv.rs:194-203: the array is read through a pointer, and dropped at the end of the call as it was never moved *)
  | OFrom, HArray items => Done (map Dropped items, HSlice (ss_from_array items))
  (* oct/src/sized_slice/iter.rs:46-57: moves the buffer *)
  | OIntoIter, HSlice s => Done ([], HIter (ss_into_iter s))
  (* oct/src/sized_slice/conv.rs:119-136: moves the items *)
  | OIntoVec, HSlice s => omap (fun items => ([], HVec items)) (ss_into_boxed_slice size true s)
  | ONext e, HIter i =>
    omap (fun '(r, i') => (match r with Some x => [Given x] | None => [] end, HIter i')) (it_step e i)
  | ONth n, HIter i =>
    omap (fun '(r, dropped, i') => (map Dropped dropped ++ match r with Some x => [Given x] | None => [] end, HIter i')) (it_nth checks i n)
  (* MaybeUninit runs no destructor, and neither SizedSlice (oct/src/sized_slice) nor SizedIter (oct/src/sized_iter) implements Drop *)
  | ODrop, HSlice _ | ODrop, HIter _ => Done ([], HGone)
  | ODrop, HArray items | ODrop, HVec items => Done (map Dropped items, HGone)
  | _, _ => Done ([], h)
  end.

(* (a program's calls; no code of its own) *)
Fixpoint own_run {A} (checks : bool) (size : N) (ops : list own_op) (h : holder A) : out (list (event A) * holder A) :=
  match ops with
  | [] => Done ([], h)
  | op :: ops' =>
    obind (own_step checks size op h) (fun '(es, h1) => omap (fun '(es', h2) => (es ++ es', h2)) (own_run checks size ops' h1))
  end.
