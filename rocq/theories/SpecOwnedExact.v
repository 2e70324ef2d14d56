(* The lives a SizedSlice can have, when nth is not called. *)
From Verif Require Import Base SizedIter Owned.

Inductive life :=
| Left                          (* it goes out of scope as it is *)
| Converted                     (* into_vec or into_boxed_slice, and the result goes out of scope *)
| Iterated (ends : list end_of) (* into_iter, calls of next and next_back, and the iterator goes out of scope *).

Definition calls (l : life) : list own_op :=
  match l with
  | Left => [ODrop]
  | Converted => [OIntoVec; ODrop]
  | Iterated ends => OIntoIter :: map ONext ends ++ [ODrop]
  end.
