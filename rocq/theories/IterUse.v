(* A SizedIter in the hands of core and alloc: loops, adaptors and `collect`. What they do is core's code; what they do it with is
   oct/src/sized_iter/mod.rs. Definitions only. *)
From Verif Require Import Base Mem SizedSlice SizedIter.
Set Implicit Arguments.

(* core: an iterator whose calls may panic or be undefined; oct/src/sized_iter/mod.rs:134 is one *)
Definition stepper (St A : Type) : Type := St -> out (option A * St).

(* core: `while let Some(x) = it.next() { … }`, which is what `for`, `fold`, `for_each`, `count`, `last`, `sum`, `min` and `max` do with
   oct/src/sized_iter/mod.rs:134-145. [Loops next st o]: the loop that starts at [st] ends with the outcome [o]: the items it saw, or what
   stopped it. A loop that does not end has no outcome. *)
Inductive Loops {St A} (next : stepper St A) : St -> out (list A) -> Prop :=
| L_end st st' : next st = Done (None, st') -> Loops next st (Done [])
| L_item st x st' o : next st = Done (Some x, st') -> Loops next st' o -> Loops next st (omap (cons x) o)
| L_panics st p : next st = Panics p -> Loops next st (Panics p)
| L_undefined st u : next st = Undefined u -> Loops next st (Undefined u).

(* core: `Take::next`, over oct/src/sized_iter/mod.rs:134-145 *)
Definition take_next {A} : stepper (nat * siter A) A := fun '(k, i) =>
  match k with
  | O => Done (None, (O, i))
  | S k' => omap (fun '(r, i') => (r, (k', i'))) (it_next i)
  end.

(* core: `Skip::next`, over oct/src/sized_iter/mod.rs:148-175 and 134-145: `nth(n)` the first time. What `nth` drops is left out. *)
Definition skip_next {A} (checks : bool) : stepper (nat * siter A) A := fun '(k, i) =>
  match k with
  | O => omap (fun '(r, i') => (r, (O, i'))) (it_next i)
  | S _ => omap (fun '(r, _, i') => (r, (O, i'))) (it_nth checks i k)
  end.

(* core: `Skip::fold`, over the same: `nth(n - 1)`, and then the loop over the rest *)
Inductive SkipFolds {A} (checks : bool) : nat -> siter A -> out (list A) -> Prop :=
| SF_none i o : Loops it_next i o -> SkipFolds checks 0 i o
| SF_short k i d i' : it_nth checks i k = Done (None, d, i') -> SkipFolds checks (S k) i (Done [])
| SF_rest k i x d i' o : it_nth checks i k = Done (Some x, d, i') -> Loops it_next i' o -> SkipFolds checks (S k) i o
| SF_panics k i p : it_nth checks i k = Panics p -> SkipFolds checks (S k) i (Panics p)
| SF_undefined k i u : it_nth checks i k = Undefined u -> SkipFolds checks (S k) i (Undefined u).

(* core: `StepBy::next`, over oct/src/sized_iter/mod.rs:148-175: `nth(0)` the first time, and `nth(step - 1)` from then on. The state holds
   `step_minus_one` and `first_take`. *)
Definition step_next {A} (checks : bool) : stepper (nat * bool * siter A) A := fun '(step, first, i) =>
  omap (fun '(r, _, i') => (r, (step, false, i'))) (it_nth checks i (if first then 0 else step)).

(* alloc: `RawVec::MIN_NON_ZERO_CAP`, by the size of an item; the capacity of a Vec of items of size zero has no bound. For `collect` over
   oct/src/sized_iter/mod.rs. *)
Definition least_capacity (size : N) : nat := if (size =? 1)%N then 8 else if (size <=? 1024)%N then 4 else 1.

(* alloc: `Vec::extend_desugared`, over oct/src/sized_iter/mod.rs:134-145 and 178-182. [Extends size acc cap i o]: the Vec holds [acc] and has
   the capacity [cap]. When it is full, `size_hint` is asked after the item has been taken, and the capacity grows to twice what it was or
   to what is needed. *)
Inductive Extends {A} (size : N) : list A -> nat -> siter A -> out (list A) -> Prop :=
| X_end acc cap i i' : it_next i = Done (None, i') -> Extends size acc cap i (Done acc)
| X_room acc cap i x i' o : it_next i = Done (Some x, i') -> size = 0%N \/ length acc <> cap ->
    Extends size (acc ++ [x]) cap i' o -> Extends size acc cap i o
| X_grow acc cap i x i' lower o : it_next i = Done (Some x, i') -> size <> 0%N -> length acc = cap -> it_size_hint i' = Done lower ->
    Extends size (acc ++ [x]) (max (least_capacity size) (max (2 * cap) (length acc + (lower + 1)))) i' o -> Extends size acc cap i o
| X_hint acc cap i x i' u : it_next i = Done (Some x, i') -> size <> 0%N -> length acc = cap -> it_size_hint i' = Undefined u ->
    Extends size acc cap i (Undefined u)
| X_panics acc cap i p : it_next i = Panics p -> Extends size acc cap i (Panics p)
| X_undefined acc cap i u : it_next i = Undefined u -> Extends size acc cap i (Undefined u).

(* alloc: `SpecFromIterNested::from_iter`, which is `collect` into a Vec or a boxed slice, over the same: the first item is taken, and then
   `size_hint` is asked *)
Inductive Collects {A} (size : N) : siter A -> out (list A) -> Prop :=
| C_none i i' : it_next i = Done (None, i') -> Collects size i (Done [])
| C_some i x i' lower o : it_next i = Done (Some x, i') -> it_size_hint i' = Done lower ->
    Extends size [x] (max (least_capacity size) (lower + 1)) i' o -> Collects size i o
| C_hint i x i' u : it_next i = Done (Some x, i') -> it_size_hint i' = Undefined u -> Collects size i (Undefined u)
| C_panics i p : it_next i = Panics p -> Collects size i (Panics p)
| C_undefined i u : it_next i = Undefined u -> Collects size i (Undefined u).

(* oct/src/sized_slice/iter.rs:27-43 `from_iter`, given a SizedIter: one call of `next` for each cell, until None *)
Fixpoint fill_from {A} (n : nat) (i : siter A) : out (list (option A) * nat * siter A) :=
  match n with
  | O => Done ([], 0, i)
  | S n' =>
    obind (it_next i) (fun '(r, i') =>
      match r with
      | None => Done (uninit A n, 0, i')
      | Some x => omap (fun '(buf, len, i'') => (Some x :: buf, S len, i'')) (fill_from n' i')
      end)
  end.
(* oct/src/sized_slice/iter.rs:27-43 *)
Definition ss_collect {A} (n : nat) (i : siter A) : out (sslice A * siter A) :=
  omap (fun '(buf, len, i') => (SSlice buf len, i')) (fill_from n i).
