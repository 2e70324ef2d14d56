(* C55, exactly: which lives of a SizedSlice drop or give away each item exactly once. *)
From Coq Require Import Permutation.
From Verif Require Import Base Types Mem SizedSlice SizedIter Owned SpecContainers SpecOwnedExact OwnedExact.

(* Of a slice with items of some size: none is lost and none dropped or given twice exactly if it is empty and goes out of scope as it is, or holds
   something and is converted to a vector, or is iterated by at least as many calls as it has items. *)
Theorem C55_exact : forall n A (s : sslice A) items checks size l, Reachable n s -> ss_as_slice s = Done items -> (0 < size)%N ->
  ((exists es, own_run checks size (calls l) (HSlice s) = Done (es, HGone) /\ Permutation (map ev_item es) items) <->
   match l with Left => items = [] | Converted => items <> [] | Iterated ends => length items <= length ends end).
Proof. exact C55_exact_lemma. Qed.
Print Assumptions C55_exact.

(* And of one made from an array: exactly if nothing is ever taken out of it. *)
Theorem C55_array_exact : forall A (items : list A) checks size l, (0 < size)%N ->
  ((exists es, own_run checks size (OFrom :: calls l) (HArray items) = Done (es, HGone) /\ Permutation (map ev_item es) items) <->
   match l with Left => True | Converted => False | Iterated ends => items = [] \/ ends = [] end).
Proof. exact C55_array_exact_lemma. Qed.
Print Assumptions C55_array_exact.

Example C55_exact_case : let s := fst (ss_from_iter list_next 3 [7; 8]) in Reachable 3 s /\ ss_as_slice s = Done [7; 8] /\
  own_run true 8 (calls (Iterated [Back; Front; Front])) (HSlice s) = Done ([Given 8; Given 7], HGone) /\
  own_run true 8 (calls (Iterated [Back])) (HSlice s) = Done ([Given 8], HGone) /\
  own_run true 8 (OFrom :: calls (Iterated [Back])) (HArray [7; 8]) = Done ([Dropped 7; Dropped 8; Given 8], HGone).
Proof.
  intros s. split; [eapply (@R_from_iter _ _ _ list_next [7; 8]); reflexivity|]. repeat split.
Qed.
