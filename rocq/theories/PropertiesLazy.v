(* C125: values that are computed when they are first looked at. *)
From Coq Require Import Lia.
From Verif Require Import Base Streams Types Encode Shared Lazy SpecLazy LazyProofs.

(* C125: if nothing has been computed yet then, whatever is encoded and whatever other threads look at, no closure has been called twice at any later moment,
   and those that have been called are those whose cells are computed or poisoned. *)
Theorem C125_once : forall s o p s' o' p', Fresh s -> LRuns (s, o, p) (s', o', p') ->
  NoDup (l_calls s') /\ forall a, In a (l_calls s') <-> forall f, l_cells s' a <> Waiting f.
Proof. exact @C125_once_lemma. Qed.
Print Assumptions C125_once.

(* What has been computed is kept, and what a cell gives is the same whoever looks at it first. *)
Theorem C125_kept : forall s o p s' o' p' a, LRuns (s, o, p) (s', o', p') ->
  view s' a = view s a /\ ((forall f, l_cells s a <> Waiting f) -> l_cells s' a = l_cells s a).
Proof. exact @C125_kept_lemma. Qed.
Print Assumptions C125_kept.

(* The call calls no closures but those of the lazy parts of the value, and of what these are computed to. *)
Theorem C125_only : forall checks t v s o s' o' p' a, Alone (s, o, lazy_encode checks t v) (s', o', p') ->
  In a (l_calls s') -> In a (l_calls s) \/ Part (view s) a t v.
Proof. exact @C125_only_lemma. Qed.
Print Assumptions C125_only.

(* The outcome, under each schedule, is that of encoding the value with its lazy parts computed; unless the call panics on a closure that panicked, and then
   what was written is the beginning of what would have been, whatever that closure might have returned. *)
Theorem C125_outcome : forall checks t v s o s' o' r d,
  LRuns (s, o, lazy_encode checks t v) (s', o', PDone r) -> output_position o <= output_capacity o -> (forall a x, view s a = Some x -> d a = x) ->
  encode checks t (forced d t v) o = (o', r) \/
  (r = Panic PUser /\ (exists a, l_cells s' a = Poisoned) /\
   exists more, output_as_slice (fst (encode checks t (forced d t v) o)) = output_as_slice o' ++ more).
Proof. exact @C125_outcome_lemma. Qed.
Print Assumptions C125_outcome.

(* It does not matter what has been computed already, nor what others look at meanwhile, also if a closure panics. *)
Theorem C125_same : forall checks t v o s1 s2 s1' s2' o1 o2 r1 r2, (forall a, view s1 a = view s2 a) ->
  LRuns (s1, o, lazy_encode checks t v) (s1', o1, PDone r1) -> LRuns (s2, o, lazy_encode checks t v) (s2', o2, PDone r2) -> o1 = o2 /\ r1 = r2.
Proof. exact @C125_same_lemma. Qed.
Print Assumptions C125_same.

(* The call ends if it keeps being scheduled. *)
Theorem C125_returns : forall checks t v s o, exists s' o' r, Alone (s, o, lazy_encode checks t v) (s', o', PDone r).
Proof. exact @C125_returns_lemma. Qed.
Print Assumptions C125_returns.

(* two references to one LazyLock, which is computed to an octet and a LazyCell; then a LazyCell *)
Definition C125_ty := let l := TWrap WRef (TWrap WLazyLock (TTuple [TInt U8; TWrap WLazyCell (TInt U16)])) in TTuple [l; l; TWrap WLazyCell (TInt U8)].
Definition C125_val := VTuple [VWrap (VWrap (VInt 0)); VWrap (VWrap (VInt 0)); VWrap (VInt 2)].
Definition C125_cells (last : option val) (a : Z) : lcell :=
  Waiting (if Z.eqb a 0 then Some (VTuple [VInt 1; VWrap (VInt 1)]) else if Z.eqb a 1 then Some (VInt 513) else last).
Definition C125_d (a : Z) : val := if Z.eqb a 0 then VTuple [VInt 1; VWrap (VInt 1)] else if Z.eqb a 1 then VInt 513 else VInt 9.

Example C125_case : let s := Store (C125_cells (Some (VInt 9))) [] in Fresh s /\ (forall a x, view s a = Some x -> C125_d a = x) /\
  (exists s', l_calls s' = [0; 1; 2]%Z /\
    Alone (s, output_new (repeat x00 8), lazy_encode true C125_ty C125_val) (s', Output [x01; x01; x02; x01; x01; x02; x09; x00] 7, PDone (Ok tt))) /\
  forced C125_d C125_ty C125_val = VTuple [VWrap (VWrap (VTuple [VInt 1; VWrap (VInt 513)])); VWrap (VWrap (VTuple [VInt 1; VWrap (VInt 513)])); VWrap (VInt 9)].
Proof.
  cbn zeta. split; [split; [reflexivity | intros a; eexists; reflexivity]|]. split.
  - intros a x. unfold view, C125_cells, C125_d. cbn [l_cells]. destruct (Z.eqb a 0), (Z.eqb a 1); intros H; inversion H; reflexivity.
  - split; [apply go_case; vm_compute; reflexivity | reflexivity].
Qed.

(* the last one panics, and another thread has looked at the second *)
Example C125_panic_case : let s := Store (C125_cells None) [] in Fresh s /\
  exists s', l_calls s' = [1; 0; 2]%Z /\
    LRuns (s, output_new (repeat x00 8), lazy_encode true C125_ty C125_val) (s', Output [x01; x01; x02; x01; x01; x02; x00; x00] 6, PDone (Panic PUser)).
Proof.
  cbn zeta. split; [split; [reflexivity | intros a; eexists; reflexivity]|].
  destruct (go_case (lazy_encode true C125_ty C125_val) (fst (force 1%Z (Store (C125_cells None) []))) (output_new (repeat x00 8))
    (Output [x01; x01; x02; x01; x01; x02; x00; x00] 6) (Panic PUser) [1; 0; 2]%Z) as (s' & Hc & Ha); [vm_compute; reflexivity|].
  exists s'. split; [exact Hc|]. econstructor; [apply (LStep_other _ _ _ 1%Z) | apply alone_runs; exact Ha].
Qed.
