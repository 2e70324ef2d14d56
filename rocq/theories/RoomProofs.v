(* Slot::new: C47. *)
From Coq Require Import Lia ZifyBool ZifyNat ZifyN.
From Verif Require Import Base Streams Utf8 Types Encode Decode Sized Slot Spec SpecCalls SpecDecode SpecSize SpecPeak PeakProofs SlotProofs.
Set Implicit Arguments.
Local Open Scope N_scope.

Lemma C47_exact_lemma so ch t s0 ops s rs : slot_new so t = Some s0 -> slot_run ch t s0 ops = (s, rs) -> EnumsOk t ->
  ((forall v bs, wt t v -> Appends (encode ch t v) bs (Ok tt) -> exists s', slot_write ch t s v = (s', Ok tt) /\ slot_as_slice s' = bs) <->
   or_zero (peak t) <= N.of_nat (slot_capacity s0)).
Proof.
  unfold slot_new. destruct (max_size so t) as [n|] eqn:Hm; [|discriminate]. cbn [option_map]. intros Hs Hr He. injection Hs as <-.
  destruct (@C43_lemma ch t _ _ _ _ Hr) as (_ & _ & Hcap & _).
  replace (N.of_nat (slot_capacity (slot_with_capacity (N.to_nat n)))) with n by (unfold slot_capacity, slot_with_capacity; cbn [s_buf]; rewrite repeat_length; lia).
  rewrite <- (@C35_exact_lemma so ch t n Hm He). split.
  - intros H v bs Hv Ha. specialize (H v bs Hv Ha). apply (proj1 (@C44_succeeds_lemma ch t s v bs Ha)) in H. lia.
  - intros H v bs Hv Ha. apply (proj2 (@C44_succeeds_lemma ch t s v bs Ha)). specialize (H v bs Hv Ha). lia.
Qed.
