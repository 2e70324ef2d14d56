(* C94, exactly: which recursive types decode to an end. *)
From Coq Require Import Lia.
From Verif Require Import Base Streams Types Decode SpecDecode SpecCalls SpecValues Recursive SpecRecursive SpecGrounded GroundedProofs.
Set Implicit Arguments.

(* Decoding comes to an end for every definition and every input if and only if no definition leads to another, and that one to a third, and so on
   for ever, without an octet being read on the way. *)
Theorem C94_exact : forall defs, (forall k, inhabited_def (defs k) = true) ->
  ((forall k i, in_bounds i -> exists n, depth_suffices defs k n i) <-> well_founded (fun j k => enters defs k j)).
Proof. exact returns_exactly. Qed.
Print Assumptions C94_exact.

(* A definition on a cycle without an octet never returns, whatever the input. *)
Theorem C94_cycle : forall defs k, leads defs k k -> forall n i, ~ depth_suffices defs k n i.
Proof. exact cycle_never_returns. Qed.
Print Assumptions C94_cycle.

Example C94_exact_case : (forall k, inhabited_def (marker_defs k) = true) /\ well_founded (fun j k => enters marker_defs k j) /\
  (forall k, inhabited_def (mutual_defs k) = true) /\ leads mutual_defs 0 0 /\ leads mutual_defs 1 1 /\ ~ enters mutual_defs 0 0 /\
  (forall rank top, ~ grounded marker_defs rank top) /\ depth_suffices marker_defs 0 2 (input_new [x00; x00]).
Proof.
  assert (Hm : forall k j, enters marker_defs k j -> k = 0 /\ j = 1).
  { intros [|k] j (ts & Hk & He); cbn in Hk; injection Hk as <-.
    - split; [reflexivity|]. inversion He as [|? ? ? H1 | ? ? ? HS H1 | | | | | | | | | |]; subst.
      + inversion H1. reflexivity.
      + inversion H1 as [|? ? ? H2 | ? ? ? HS2 H2 | | | | | | | | | |]; subst; [inversion H2 | inversion HS2].
    - inversion He as [|? ? ? H1 | ? ? ? HS H1 | | | | | | | | | |]; subst; inversion H1. lia. }
  assert (E01 : enters mutual_defs 0 1).
  { eexists. split; [reflexivity|]. apply En_later; [apply (@Si_struct _ 2 []); [reflexivity | constructor]|]. apply En_later; [constructor|].
    apply En_first, En_wrap, En_var. }
  assert (E10 : enters mutual_defs 1 0).
  { eexists. split; [reflexivity|]. apply En_later; [constructor; reflexivity|]. apply En_first, En_wrap, En_var. }
  split; [intros [|k]; reflexivity|]. split.
  { assert (H1 : forall k, k <> 0 -> Acc (fun j k => enters marker_defs k j) k) by (intros k Hk; constructor; intros j Hj; destruct (Hm _ _ Hj); lia).
    intros k. constructor. intros j Hj. apply H1. destruct (Hm _ _ Hj). lia. }
  split; [intros [|[|k]]; reflexivity|]. split; [apply (leads_more E01), leads_one, E10|]. split; [apply (leads_more E10), leads_one, E01|]. split.
  { intros (ts & Hk & He). cbn in Hk. injection Hk as <-. inversion He as [|? ? ? H1 | ? ? ? HS H1 | | | | | | | | | |]; subst; [inversion H1|].
    inversion H1 as [|? ? ? H2 | ? ? ? HS2 H2 | | | | | | | | | |]; subst; [inversion H2; lia|].
    inversion H2 as [|? ? ? H3 | ? ? ? HS3 H3 | | | | | | | | | |]; subst; inversion H3; subst.
    match goal with H : Enters _ (RVar 1) 0 |- _ => inversion H end. }
  split; [|vm_compute; discriminate]. intros rank top H. destruct (H 1) as [_ Hu]. specialize (Hu 1). cbn in Hu. lia.
Qed.
