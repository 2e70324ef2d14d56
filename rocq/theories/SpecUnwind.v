(* Vocabulary of the property about panics of the user's code. Definitions only. *)
From Verif Require Import Base Streams Types Decode Mem SizedSlice SizedIter Owned Unwind.
Set Implicit Arguments.

(* The variable holds these items, in this order. *)
Definition Holds {A} (h : holder A) (items : list A) : Prop :=
  match h with
  | HArray l | HVec l => l = items
  | HSlice s => ss_as_slice s = Done items
  | HIter i => it_as_slice i = Done items
  | HGone => items = []
  end.

(* The items that the user's code made, and those that have been released or handed out. *)
Definition made {A} (es : list (uevent A)) : list A := flat_map (fun e => match e with Made x => [x] | _ => [] end) es.
Definition gone {A} (es : list (uevent A)) : list A := flat_map (fun e => match e with Made _ => [] | Ended x | Moved x => [x] end) es.

Definition uses_nth {A} (c : ucall A) : bool := match c with KNth _ _ _ => true | _ => false end.
Definition uses_into_vec {A} (c : ucall A) : bool := match c with KIntoVec _ => true | _ => false end.

(* The calls that may lose items although they return: `decode`, which may fail, and reads items beyond the length (C56); and the end of a variable (C55). *)
Definition loses {A} (c : ucall A) : bool := match c with KDecode _ _ _ | KDrop _ => true | _ => false end.

(* The calls of the user's `clone` on the items, numbered from [k]: the copies, up to the first call that panics, and whether none did. *)
Inductive Cloned {A} (cl : nat -> A -> option A) : nat -> list A -> list A -> bool -> Prop :=
| Cl_all k : Cloned cl k [] [] true
| Cl_panics k x l : cl k x = None -> Cloned cl k (x :: l) [] false
| Cl_next k x l y copies ok : cl k x = Some y -> Cloned cl (S k) l copies ok -> Cloned cl k (x :: l) (y :: copies) ok.

(* The calls of `next`, at most [n] of them: the items up to the first None, or the first call that panics. *)
Inductive Collected {A} (next : nat -> answer A) : nat -> nat -> list A -> bool -> Prop :=
| Co_full k : Collected next k 0 [] true
| Co_stops k n : next k = Stops -> Collected next k (S n) [] true
| Co_panics k n : next k = Unwinds -> Collected next k (S n) [] false
| Co_next k n x items ok : next k = Gives x -> Collected next (S k) n items ok -> Collected next k (S n) (x :: items) ok.

(* The calls of the destructors of the items, up to the first that panics. *)
Inductive Released {A} (bad : nat -> A -> bool) : nat -> list A -> list A -> bool -> Prop :=
| Re_all k : Released bad k [] [] true
| Re_panics k x l : bad k x = true -> Released bad k (x :: l) [x] false
| Re_next k x l ended ok : bad k x = false -> Released bad (S k) l ended ok -> Released bad k (x :: l) (x :: ended) ok.

(* The items decoded one after another, [n] of them, or as many as come before the first failure. *)
Inductive Read {A} (f : D A) : nat -> input -> list A -> Prop :=
| Rd_all i : Read f 0 i []
| Rd_fails n i i' r : f i = (i', r) -> (forall x, r <> Ok x) -> Read f (S n) i []
| Rd_next n i i' x items : f i = (i', Ok x) -> Read f n i' items -> Read f (S n) i (x :: items).

(* The call makes the items; if [ok], it returns a new variable that holds them, and otherwise it panics. *)
Definition MakesThese {A} (checks : bool) (size : N) (c : ucall A) (vars : list (holder A)) (items : list A) (ok : bool) : Prop :=
  exists st, ucall_step checks size c vars = Done st /\ us_events st = map Made items /\ us_panicked st = negb ok /\
    (ok = false -> us_vars st = vars) /\ (ok = true -> exists h, us_vars st = vars ++ [h] /\ Holds h items).
