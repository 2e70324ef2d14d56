From Coq Require Import Lia.
From Verif Require Import Base Streams Utf8 Types Traits Encode Decode Sized Spec SpecCalls SpecDecode SpecSource EncodeProofs SourceRun SourceDecodeAll SourceEncodeAll.

Lemma C114_wire_lemma : forall checks t, of_rust t -> exists d, forall n v o bs, d <= n -> wt t v -> output_position o <= output_capacity o ->
  ((exists o', run_encode checks n t v o = (o', Ok tt) /\ output_as_slice o' = output_as_slice o ++ bs) <->
   (Wire checks t v bs /\ length bs <= output_remaining o)).
Proof.
  intros checks t R. destruct (C114_encode_lemma checks t R) as [d H]. exists d. intros n v o bs Hn W P. rewrite (H n v o Hn W). apply C06_lemma; assumption.
Qed.
Lemma C114_round_trip_lemma : forall checks checks' size_of t, of_rust t -> dec_ety t <> None ->
  exists d, forall n m v o o' bs, d <= n -> d <= m -> wt t v -> RoundTrips t v -> output_position o <= output_capacity o ->
  run_encode checks n t v o = (o', Ok tt) -> output_as_slice o' = output_as_slice o ++ bs ->
  Yields (run_decode checks' (run_size size_of m) n t) bs (norm v).
Proof.
  intros checks checks' size_of t R E. destruct (C114_encode_lemma checks t R) as [d H]. destruct (C114_decode_lemma checks' size_of t E R) as [d' D].
  exists (Nat.max d d'). intros n m v o o' bs Hn Hm W T P A S. rewrite H in A by (lia || exact W). intros pre post. rewrite D by lia.
  apply (@C13_lemma checks t v o o' bs); assumption.
Qed.
