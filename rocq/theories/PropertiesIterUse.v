(* C105, C106: SizedIter in the hands of core and alloc. *)
From Coq Require Import Lia.
From Verif Require Import Base Mem SizedSlice SizedIter SpecContainers IterUse IterUseProofs.

(* C105: a loop over what remains ends, and sees exactly that. *)
Theorem C105_loop : forall n A (i : siter A) rest, IterReachable n i -> it_as_slice i = Done rest ->
  forall o, Loops it_next i o <-> o = Done rest.
Proof. exact C105_loop_lemma. Qed.
Print Assumptions C105_loop.

(* `rev` *)
Theorem C105_rev : forall n A (i : siter A) rest, IterReachable n i -> it_as_slice i = Done rest ->
  forall o, Loops it_next_back i o <-> o = Done (rev rest).
Proof. exact C105_rev_lemma. Qed.
Print Assumptions C105_rev.

(* `take(k)` *)
Theorem C105_take : forall n A (i : siter A) rest k, IterReachable n i -> it_as_slice i = Done rest ->
  forall o, Loops take_next (k, i) o <-> o = Done (firstn k rest).
Proof. exact C105_take_lemma. Qed.
Print Assumptions C105_take.

(* collected into a SizedSlice of capacity [m]: the first [m], and the others are left *)
Theorem C105_collect : forall n A (i : siter A) rest m, IterReachable n i -> it_as_slice i = Done rest ->
  exists s i', ss_collect m i = Done (s, i') /\ ss_capacity s = m /\ ss_as_slice s = Done (firstn m rest) /\ it_as_slice i' = Done (skipn m rest).
Proof. exact C105_collect_lemma. Qed.
Print Assumptions C105_collect.

Example C105_case : IterReachable 4 (ss_into_iter (ss_from_array [1; 2; 3; 4])) /\ it_as_slice (ss_into_iter (ss_from_array [1; 2; 3; 4])) = Done [1; 2; 3; 4] /\
  Loops it_next (ss_into_iter (ss_from_array [1; 2; 3; 4])) (Done [1; 2; 3; 4]) /\
  Loops it_next_back (ss_into_iter (ss_from_array [1; 2; 3; 4])) (Done [4; 3; 2; 1]) /\
  Loops take_next (3, ss_into_iter (ss_from_array [1; 2; 3; 4])) (Done [1; 2; 3]) /\
  ss_collect 2 (ss_into_iter (ss_from_array [1; 2; 3; 4])) = Done (SSlice [Some 1; Some 2] 2, SIter [Some 1; Some 2; Some 3; Some 4] 2 2).
Proof.
  assert (H : IterReachable 4 (ss_into_iter (ss_from_array [1; 2; 3; 4]))) by (constructor; constructor; reflexivity).
  split; [exact H|]. split; [reflexivity|]. split; [apply (C105_loop _ _ _ _ H eq_refl); reflexivity|].
  split; [apply (C105_rev _ _ _ _ H eq_refl); reflexivity|]. split; [apply (C105_take _ _ _ _ 3 H eq_refl); reflexivity | reflexivity].
Qed.

(* C106: `collect` into a Vec never gives wrong items *)
Theorem C106_collect_sound : forall n A (i : siter A) rest size ys, IterReachable n i -> it_as_slice i = Done rest ->
  Collects size i (Done ys) -> ys = rest.
Proof. exact C106_sound_lemma. Qed.
Print Assumptions C106_collect_sound.

(* and exactly when it gives them, for the iterator of a slice and items of [size] octets; otherwise it is undefined *)
Theorem C106_collect_partial : forall n A (s : sslice A) items size, Reachable n s -> ss_as_slice s = Done items ->
  (length items = 0 \/ 2 <= length items /\ (size = 0%N \/ length items <= (if (size =? 1)%N then 8 else if (size <=? 1024)%N then 4 else 1)) ->
     forall o, Collects size (ss_into_iter s) o <-> o = Done items) /\
  (~ (length items = 0 \/ 2 <= length items /\ (size = 0%N \/ length items <= (if (size =? 1)%N then 8 else if (size <=? 1024)%N then 4 else 1))) ->
     forall o, Collects size (ss_into_iter s) o <-> o = Undefined UUnderflow).
Proof. exact C106_collect_lemma. Qed.
Print Assumptions C106_collect_partial.

(* extending a Vec that has room for all of them is right *)
Theorem C106_extend_partial : forall n A (i : siter A) rest size old cap, IterReachable n i -> it_as_slice i = Done rest ->
  length old + length rest <= cap -> forall o, Extends size old cap i o <-> o = Done (old ++ rest).
Proof. exact C106_extend_lemma. Qed.
Print Assumptions C106_extend_partial.

(* a loop over `skip(k)`: right only if nothing or more than everything is skipped; otherwise the first item comes twice *)
Theorem C106_skip_partial : forall n A (s : sslice A) items checks k, Reachable n s -> ss_as_slice s = Done items ->
  (Loops (skip_next checks) (k, ss_into_iter s) (Done (skipn k items)) <-> k = 0 \/ length items < k) /\
  (forall x, 0 < k -> nth_error items k = Some x -> forall o, Loops (skip_next checks) (k, ss_into_iter s) o <-> o = Done (x :: skipn k items)).
Proof. exact C106_skip_lemma. Qed.
Print Assumptions C106_skip_partial.

(* `skip(k).fold(…)`: one item less is skipped *)
Theorem C106_skip_fold_partial : forall n A (s : sslice A) items checks k, Reachable n s -> ss_as_slice s = Done items ->
  (k = 0 -> forall o, SkipFolds checks k (ss_into_iter s) o <-> o = Done items) /\
  (k = 1 -> forall o, SkipFolds checks k (ss_into_iter s) o <-> o = if checks then Panics PArith else Undefined UOutOfBounds) /\
  (2 <= k <= length items -> forall o, SkipFolds checks k (ss_into_iter s) o <-> o = Done (skipn (k - 1) items)) /\
  (1 + length items < k -> forall o, SkipFolds checks k (ss_into_iter s) o <-> o = Done []).
Proof. exact C106_skip_fold_lemma. Qed.
Print Assumptions C106_skip_fold_partial.

(* `step_by` never works, not even when there are no items *)
Theorem C106_step_by_refuted : forall n A (s : sslice A) checks step, Reachable n s ->
  forall o, Loops (step_next checks) (step, true, ss_into_iter s) o <-> o = if checks then Panics PArith else Undefined UOutOfBounds.
Proof. exact C106_step_lemma. Qed.
Print Assumptions C106_step_by_refuted.

Theorem C106_refuted :
  (* one item, or five, collected into a Vec *)
  (exists (s : sslice nat), Reachable 1 s /\ ss_as_slice s = Done [7] /\ Collects 8 (ss_into_iter s) (Undefined UUnderflow)) /\
  (exists (s : sslice nat), Reachable 5 s /\ ss_as_slice s = Done [1; 2; 3; 4; 5] /\ Collects 8 (ss_into_iter s) (Undefined UUnderflow)) /\
  (exists (s : sslice nat) checks, Reachable 3 s /\ ss_as_slice s = Done [10; 11; 12] /\
     Loops (skip_next checks) (1, ss_into_iter s) (Done [11; 11; 12])) /\
  (exists (s : sslice nat) checks, Reachable 3 s /\ ss_as_slice s = Done [10; 11; 12] /\ SkipFolds checks 2 (ss_into_iter s) (Done [11; 12])) /\
  (exists (s : sslice nat) checks, Reachable 3 s /\ ss_as_slice s = Done [10; 11; 12] /\
     Loops (step_next checks) (1, true, ss_into_iter s) (Panics PArith)).
Proof. exact C106_refutation. Qed.
Print Assumptions C106_refuted.

Example C106_case : Reachable 4 (ss_from_array [1; 2; 3; 4]) /\ Collects 8 (ss_into_iter (ss_from_array [1; 2; 3; 4])) (Done [1; 2; 3; 4]) /\
  Extends 8 [0] 9 (ss_into_iter (ss_from_array [1; 2; 3; 4])) (Done [0; 1; 2; 3; 4]).
Proof.
  assert (H : Reachable 4 (ss_from_array [1; 2; 3; 4])) by (constructor; reflexivity).
  split; [exact H|]. split; [apply (proj1 (C106_collect_partial _ _ _ _ 8%N H eq_refl)); [cbn; lia | reflexivity]|].
  apply (C106_extend_partial 4 _ _ [1; 2; 3; 4]); [constructor; exact H | reflexivity | cbn; lia | reflexivity].
Qed.
