(* Vocabulary of the properties about SizedSlice, SizedIter and SizedStr. Definitions only. *)
From Verif Require Import Base Streams Utf8 Types Decode Mem SizedSlice SizedIter SizedStr.
Set Implicit Arguments.

(* Calling the iterator [length items] times gives the [items] in order, and leads to the state [st']. *)
Inductive Pulls {St A} (next : iterator St A) : St -> list A -> St -> Prop :=
| Pulls_nil st : Pulls next st [] st
| Pulls_cons st x st1 items st' : next st = (Some x, st1) -> Pulls next st1 items st' -> Pulls next st (x :: items) st'.

(* The iterator of a list. *)
Definition list_next {A} : iterator (list A) A := fun l => match l with [] => (None, []) | x :: r => (Some x, r) end.

(* The items are cloned one by one, none of the clones panicking. *)
Definition Clones {A} (cl : A -> option A) (items copies : list A) : Prop := Forall2 (fun x y => cl x = Some y) items copies.

(* The SizedSlices of capacity [n] that a safe program can make. Each [forall] ranges over what the program passes; a call that
   panics makes none. Storing through `as_mut_slice` is any number of [R_set]. *)
Inductive Reachable (n : nat) : forall A, sslice A -> Prop :=
| R_new A (cl : A -> option A) data s : ss_new cl n data = Done (inr s) -> Reachable n s
| R_from_iter St A (next : iterator St A) st s st' : ss_from_iter next n st = (s, st') -> Reachable n s
| R_from_array A (items : list A) : length items = n -> Reachable n (ss_from_array items)
| R_default A : Reachable n (ss_default A n)
| R_decode A (f : D A) i i' s : ss_decode f n i = (i', Ok s) -> Reachable n s
| R_clone A (cl : A -> option A) s s' : Reachable n s -> ss_clone cl s = Done s' -> Reachable n s'
| R_each_ref A (s : sslice A) s' : Reachable n s -> ss_each_ref s = Done s' -> Reachable n s'
| R_copy A (s : sslice A) data s' : Reachable n s -> ss_copy_from_slice s data = Done s' -> Reachable n s'
| R_set A (s : sslice A) k x s' : Reachable n s -> ss_index_set s k x = Done s' -> Reachable n s'.

(* The SizedIters a safe program can make. *)
Inductive IterReachable (n : nat) {A} : siter A -> Prop :=
| I_into_iter s : Reachable n s -> IterReachable n (ss_into_iter s)
| I_step i e r i' : IterReachable n i -> it_step e i = Done (r, i') -> IterReachable n i'
| I_nth i checks k r dropped i' : IterReachable n i -> it_nth checks i k = Done (r, dropped, i') -> IterReachable n i'
| I_clone cl i i' : IterReachable n i -> it_clone cl i = Done i' -> IterReachable n i'
| I_edit f i i' : IterReachable n i -> (forall l, length (f l) = length l) -> it_edit f i = Done i' -> IterReachable n i'.

(* A double-ended queue: the results of taking from the given ends, and what is left. *)
Fixpoint deque {A} (es : list end_of) (items : list A) : list (option A) * list A :=
  match es with
  | [] => ([], items)
  | Front :: es' =>
    match items with
    | [] => let (rs, l) := deque es' [] in (None :: rs, l)
    | x :: r => let (rs, l) := deque es' r in (Some x :: rs, l)
    end
  | Back :: es' =>
    match rev items with
    | [] => let (rs, l) := deque es' [] in (None :: rs, l)
    | x :: r => let (rs, l) := deque es' (rev r) in (Some x :: rs, l)
    end
  end.

(* The items that came from one end. *)
Fixpoint taken {A} (at_front : bool) (es : list end_of) (rs : list (option A)) : list A :=
  match es, rs with
  | Front :: es', Some x :: rs' => if at_front then x :: taken at_front es' rs' else taken at_front es' rs'
  | Back :: es', Some x :: rs' => if at_front then taken at_front es' rs' else x :: taken at_front es' rs'
  | _ :: es', None :: rs' => taken at_front es' rs'
  | _, _ => []
  end.

(* [x] comes before [y] in the lexicographic order of [lt]: a proper prefix, or smaller at the first difference. *)
Definition LexLess {A} (same lt : A -> A -> Prop) (x y : list A) : Prop :=
  exists p q, Forall2 same p q /\
    ((exists b y', x = p /\ y = q ++ b :: y') \/
     (exists a x' b y', x = p ++ a :: x' /\ y = q ++ b :: y' /\ lt a b)).

(* A comparison function that is a total order. *)
Definition TotalOrder {A} (cmp : A -> A -> comparison) : Prop :=
  (forall a b, cmp a b = Eq <-> a = b) /\
  (forall a b, cmp b a = CompOpp (cmp a b)) /\
  (forall a b c, cmp a b = Lt -> cmp b c = Lt -> cmp a c = Lt).

(* The SizedStrs of capacity [n] that a safe program can make. A Rust `str` is UTF-8, and a `char` is a scalar value. [whole] says that every one
   was made by a call that fills the whole buffer: not `default`, and not `clone`. *)
Inductive StrReachable (n : nat) : bool -> sstr -> Prop :=
| SR_new s st : valid_utf8 s -> st_new n s = Done (inr st) -> StrReachable n true st
| SR_from_char c st : is_scalar c = true -> st_from_char n c = Done (inr st) -> StrReachable n true st
| SR_from_utf8 bs st : st_from_utf8 n bs = Done (inr st) -> StrReachable n true st
| SR_from_iter St (next : iterator St Z) st0 st1 st : (forall a c b, next a = (Some c, b) -> is_scalar c = true) ->
    st_from_iter next n st0 = Done (st, st1) -> StrReachable n true st
| SR_decode i i' st : st_decode n i = (i', Ok (Done st)) -> StrReachable n true st
| SR_default : StrReachable n false (st_default n)
| SR_clone w s s' : StrReachable n w s -> st_clone s = Done s' -> StrReachable n false s'
| SR_change w s bs s' : StrReachable n w s -> valid_utf8 bs -> length bs = st_length s -> st_change s bs = Done s' -> StrReachable n w s'.
