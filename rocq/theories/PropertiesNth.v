(* C58, exactly: when nth and size_hint are right. *)
From Verif Require Import Base Types Mem SizedSlice SizedIter SpecContainers NthExact.

(* nth(k), after any calls of next and next_back, does what k + 1 calls of next would (gives item k of what is left, releases those before it, leaves
   those after it) exactly if nothing is left and k is not 0. *)
Theorem C58_nth_exact : forall n A (s : sslice A) items es rs i left checks k, Reachable n s -> ss_as_slice s = Done items ->
  it_run es (ss_into_iter s) = Done (rs, i) -> it_as_slice i = Done left ->
  ((exists i', it_nth checks i k = Done (nth_error left k, firstn k left, i') /\ it_as_slice i' = Done (skipn (S k) left)) <-> left = [] /\ k <> 0).
Proof. exact C58_nth_exact_lemma. Qed.
Print Assumptions C58_nth_exact.

(* size_hint gives the number of items left exactly if none was taken from the front. *)
Theorem C58_size_hint_exact : forall n A (s : sslice A) items es rs i left, Reachable n s -> ss_as_slice s = Done items ->
  it_run es (ss_into_iter s) = Done (rs, i) -> it_as_slice i = Done left -> (it_size_hint i = Done (length left) <-> taken true es rs = []).
Proof. exact C58_hint_exact_lemma. Qed.
Print Assumptions C58_size_hint_exact.

Example C58_exact_case : let s := fst (ss_from_iter list_next 2 [7; 8]) in
  Reachable 2 s /\ ss_as_slice s = Done [7; 8] /\
  it_run [Front; Back] (ss_into_iter s) = Done ([Some 7; Some 8], SIter [Some 7; Some 8] 1 0) /\ it_as_slice (SIter [Some 7; Some 8] 1 0) = Done [] /\
  it_run [Back] (ss_into_iter s) = Done ([Some 8], SIter [Some 7; Some 8] 0 1) /\ taken true [Back] [Some 8] = [].
Proof.
  intros s. split; [eapply (@R_from_iter _ _ _ list_next [7; 8]); reflexivity|]. repeat split.
Qed.
