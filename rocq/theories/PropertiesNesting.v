(* C95, exactly: how deep the calls of `decode` can be nested. *)
From Coq Require Import Lia.
From Verif Require Import Base Streams Types Decode Spec SpecCalls SpecRecursive Recursive SpecNesting NestingProofs.

(* Some input needs more than [n] nested calls if and only if there are definitions k = k0, .., kn each of which can begin the next. *)
Theorem C95_exact : forall defs, (forall k, compiled (defs k)) -> forall n k,
  (exists i, in_bounds i /\ ~ depth_suffices defs k n i) <-> chain defs n k.
Proof. exact C95_exact_lemma. Qed.
Print Assumptions C95_exact.

Theorem C95_limit : forall defs, (forall k, compiled (defs k)) -> forall n k,
  (forall i, in_bounds i -> depth_suffices defs k n i) <-> ~ chain defs n k.
Proof. exact C95_limit_lemma. Qed.
Print Assumptions C95_limit.

(* A program has finitely many definitions. Then there is a limit for [k] if and only if no cycle of calls is reached from [k], and the number of
   definitions, plus one, is such a limit if there is any. *)
Theorem C95_finite : forall defs N k, (forall k, compiled (defs k)) -> (forall i j, calls defs i j -> (j < N)%nat) ->
  ((exists n, forall i, in_bounds i -> depth_suffices defs k n i) <-> ~ exists j, comes defs k j /\ comes defs j j) /\
  ((exists n, forall i, in_bounds i -> depth_suffices defs k n i) <-> forall i, in_bounds i -> depth_suffices defs k (S N) i).
Proof. exact C95_finite_lemma. Qed.
Print Assumptions C95_finite.

(* `enum List` has a cycle and hence no limit; `struct Top` mentions itself, but behind a part that no input can be decoded to, and so two calls
   are enough, while one is not. *)
Example C95_exact_case :
  (forall k, compiled (list_defs k)) /\ comes list_defs 0 0 /\ (forall n, exists i, in_bounds i /\ ~ depth_suffices list_defs 0 n i) /\
  (forall k, compiled (never_defs k)) /\ (forall i j, calls never_defs i j -> (j < 3)%nat) /\ chain never_defs 1 0 /\
  (forall i, in_bounds i -> depth_suffices never_defs 0 2 i) /\ exists i, in_bounds i /\ ~ depth_suffices never_defs 0 1 i.
Proof.
  assert (C : chain never_defs 1 0) by (exists 2; split; [unfold calls; cbn; constructor; constructor; constructor | exact I]).
  refine (conj list_compiled (conj list_cycle (conj _ (conj never_compiled (conj never_below (conj C (conj _ _))))))).
  - exact (@C95_cycle_lemma list_defs 0 list_compiled list_cycle).
  - apply (C95_limit_lemma never_defs never_compiled), never_limited.
  - apply (C95_exact_lemma never_defs never_compiled), C.
Qed.
