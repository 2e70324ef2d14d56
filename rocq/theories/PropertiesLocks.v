(* C127: threads that encode at the same time. *)
From Coq Require Import Lia.
From Verif Require Import Base Streams Types Encode Guards SpecLazy SpecGuards Locks SpecLocks LockProofs.

(* C127: any number of threads encode, each its value to its output; the values may share Mutexes, in any nesting. At any moment of any execution, unless
   a Mutex leads to itself, either some thread can go on or all calls have ended, each as encoding its value with the contents of the cells. *)
Theorem C127_no_deadlock : forall checks g cs n s, Acyclic g -> KRuns g n (begin checks cs) s ->
  (exists s', kstep g s s') \/ Forall2 (Ended checks g) cs (k_tasks s).
Proof. exact @C127_progress_lemma. Qed.
Print Assumptions C127_no_deadlock.

(* No execution goes on forever: their lengths are limited. *)
Theorem C127_ends : forall checks g cs, exists most, forall n s, KRuns g n (begin checks cs) s -> n <= most.
Proof. exact @C127_ends_lemma. Qed.
Print Assumptions C127_ends.

(* A call that has ended has ended as if it had been the only one, also if others have not. *)
Theorem C127_outcome : forall checks g cs n s, KRuns g n (begin checks cs) s ->
  Forall2 (fun c x => forall r, snd x = KDone r -> Ended checks g c x) cs (k_tasks s).
Proof. exact @C127_outcome_lemma. Qed.
Print Assumptions C127_outcome.

(* Two threads: Mutex 2 holds Mutexes 0 and 1, which are octets; the other thread encodes a pair of 1 and 0, in this order. *)
Definition C127_cells : cells := fun a =>
  Guarded (if Z.eqb a 2 then VTuple [VLock false (VInt 0); VLock false (VInt 1)] else VInt (a + 5)) false 0 false false.
Definition C127_calls : list call :=
  let m := TLock Mutex (TInt U8) in
  [(TLock Mutex (TTuple [m; m]), VLock false (VInt 2), output_new (repeat x00 2)); (TTuple [m; m], VTuple [VLock false (VInt 1); VLock false (VInt 0)], output_new (repeat x00 2))].

Example C127_case : Acyclic C127_cells /\ Forall2 (Ended true C127_cells) C127_calls [(Output [x05; x06] 2, KDone (Ok tt)); (Output [x06; x05] 2, KDone (Ok tt))].
Proof.
  split.
  - exists (fun a => if Z.eqb a 2 then 1 else 0). intros a c t H. cbn [C127_cells g_val] in H. destruct (Z.eqb a 2) eqn:E; cbn [g_val] in H.
    + assert (Hc : forall u k, LockIn false C127_cells c u (VLock false (VInt k)) -> (k = 0 \/ k = 1)%Z -> c = k).
      { intros u k Hu Hk. destruct u; cbn [LockIn] in Hu; try contradiction. destruct l; destruct Hu as [Hu|Hu]; try tauto;
          (assert (Hv : exists z, g_val (C127_cells k) = VInt z) by (destruct Hk as [-> | ->]; eexists; reflexivity); destruct Hv as (z & Hv); rewrite Hv in Hu;
           exfalso; destruct u; cbn [LockIn] in Hu; try exact Hu; try (destruct w; exact Hu); try (destruct l; exact Hu)). }
      assert (Hcc : (c = 0 \/ c = 1)%Z).
      { destruct t; cbn [LockIn] in H; try contradiction; try (destruct w; contradiction); try (destruct l; contradiction);
          (destruct ts as [|t1 [|t2 ts]]; cbn [map Some_of] in H; try contradiction; [destruct H as [H|[]]; left; exact (Hc _ _ H (or_introl eq_refl))|];
           destruct H as [H|[H|H]]; [left; exact (Hc _ _ H (or_introl eq_refl)) | right; exact (Hc _ _ H (or_intror eq_refl)) | destruct ts; contradiction]). }
      destruct Hcc as [-> | ->]; cbn; lia.
    + exfalso. destruct t; cbn [LockIn] in H; try exact H; try (destruct w; exact H); try (destruct l; exact H).
  - repeat constructor; eexists _, _; split; reflexivity.
Qed.

(* A Mutex that holds itself, as one of a recursive type may: the thread has locked it and waits for it. *)
Example C127_cyclic_case : let g : cells := fun _ => Guarded (VLock false (VInt 0)) false 0 false false in
  exists s, KRuns g 1 (begin true [(TLock Mutex (TLock Mutex TUnit), VLock false (VInt 0), output_new [])]) s /\
    ~ (exists s', kstep g s s') /\ ~ Acyclic g.
Proof.
  cbn zeta. eexists. split; [econstructor; [apply (KStep_lock _ _ [] []); reflexivity | constructor]|]. split.
  - intros (s' & H). revert H. cbn. apply stuck. reflexivity.
  - intros (rank & Hr). specialize (Hr 0%Z 0%Z (TLock Mutex TUnit)). cbn in Hr. specialize (Hr (or_introl eq_refl)). lia.
Qed.
