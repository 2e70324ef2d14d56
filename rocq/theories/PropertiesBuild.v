(* C123: for which choices of features, and on which targets, the names in the crate resolve. *)
From Coq Require Import String List Bool.
From Verif Require Import SpecBuild SourceBuild BuildProofs.
Import ListNotations.
Local Open Scope string_scope.
Local Open Scope list_scope.

(* C123, in full: whatever features are chosen, and whatever atomics the target has, every name in the crate resolves. It is not so: *)
Theorem C123_refuted : ~ (forall b, Builds b src_crate).
Proof. exact (fun H => match C123_exact_lemma (Build true false true true true true true true) with conj A _ => match A (H _) with conj _ E => match Bool.diff_false_true E with end end end). Qed.
Print Assumptions C123_refuted.

(* It holds when both features are on, whatever the rest. *)
Theorem C123_partial : forall b, alloc b = true -> std b = true -> Builds b src_crate.
Proof. exact (fun b A S => proj2 (C123_exact_lemma b) (conj A S)). Qed.
Print Assumptions C123_partial.
Example C123_partial_case : Builds (Build true true false true false true false true) src_crate.
Proof. apply C123_partial; reflexivity. Qed.

(* And only then. *)
Theorem C123_exact : forall b, Builds b src_crate <-> alloc b = true /\ std b = true.
Proof. exact C123_exact_lemma. Qed.
Print Assumptions C123_exact.
Example C123_exact_case : ~ Builds (Build false false false true true true true true) src_crate.
Proof. intros H. apply C123_exact in H. destruct H. discriminate. Qed.

(* Each path that does not resolve, with the builds that it fails in: no other has to be changed for the names of every build to resolve. *)
Theorem C123_faults : forall b m p, Fault b src_crate m p <-> exists c, In (c, m, p) fault_table /\ holds b c = true.
Proof. exact C123_faults_lemma. Qed.
Print Assumptions C123_faults.
Example C123_faults_case :
  Fault (Build false true true true true true true true) src_crate ["decode"; "decode"] ["crate"; "error"; "CStringDecodeError"]
  /\ ~ Fault (Build false true true true true true true true) src_crate ["decode"; "decode"] ["crate"; "error"; "SystemTimeDecodeError"].
Proof.
  split.
  - apply C123_faults. exists alloc_off. split; [now left|reflexivity].
  - intros H. apply C123_faults in H. destruct H as (c & I & O).
    destruct I as [I|I]; [discriminate|]. destruct I as [I|I]; [injection I as <-; discriminate|].
    assert (N : some (fun t => path_eqb (snd (fst t)) ["decode"; "decode"] && path_eqb (snd t) ["crate"; "error"; "SystemTimeDecodeError"]) (skipn 2 fault_table) = false)
      by (vm_compute; reflexivity).
    apply Bool.not_true_iff_false in N. apply N, some_exists. exists (c, ["decode"; "decode"], ["crate"; "error"; "SystemTimeDecodeError"]). split; [exact I|reflexivity].
Qed.

(* A feature, or an atomic, only adds: what a build has, one with more has too, line for line. *)
Theorem C123_adds : forall b b', includes b b' ->
  (forall f cs, In f (files src_crate) -> In cs (conditions f) -> on b cs -> on b' cs) /\
  (forall m, Present b src_crate m -> Present b' src_crate m) /\
  (forall m n, Gives b src_crate m n -> Gives b' src_crate m n).
Proof. exact C123_adds_lemma. Qed.
Print Assumptions C123_adds.
Example C123_adds_case : includes (Build false false false true false false false false) (Build true false false true true false false false)
  /\ Gives (Build false false false true false false false false) src_crate ["error"] "LengthError"
  /\ ~ Present (Build false false false true false false false false) src_crate ["slot"].
Proof.
  refine (conj _ (conj _ _)).
  - intros key value. unfold option_on. cbn.
    repeat match goal with |- context [if (?a =? ?b)%string then _ else _] => destruct (a =? b)%string end; easy.
  - apply (gives_in _ _ src_down). vm_compute. reflexivity.
  - intros P. apply (all_present_in _ src_crate file_slot) in P; [vm_compute in P; discriminate|].
    exact (nth_error_In (files src_crate) 13 eq_refl).
Qed.

(* README.md:296: `alloc` is what `Slot` takes. *)
Theorem C123_slot : forall b, Gives b src_crate [] "Slot" <-> alloc b = true.
Proof. exact C123_slot_lemma. Qed.
Print Assumptions C123_slot.
Example C123_slot_case : Gives (Build true false false false false false false false) src_crate [] "Slot".
Proof. apply C123_slot. reflexivity. Qed.
