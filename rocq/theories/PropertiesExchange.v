(* C102: the exchange of messages that the documentation shows. *)
From Coq Require Import Lia.
From Verif Require Import Base Streams Types Encode Decode Sized Slot Spec SpecCalls SpecDecode SpecValues Exchange ExchangeProofs.
Set Implicit Arguments.

(* C102: whatever the network loses, repeats or reorders, and whether or not the receiver marks what it receives, reading gives a value that the sender
   posted, that of the datagram delivered last. The sender must be careful, and as in C13 the values must be of a kind that comes back. *)
Theorem C102_exchange_partial : forall checks t cap cap' ops x es data, cap <= cap' ->
  xrun checks t (Exchange (slot_with_capacity cap) [] (slot_with_capacity cap')) ops = (x, es) ->
  (forall c v, In (XPost c v) ops -> c = true /\ wt t v /\ RoundTrips t v /\ lossless v = true) -> last_delivered es = Some data ->
  exists v v', In (XPost true v) ops /\ Appends (encode checks t v) data (Ok tt) /\ slot_read t (x_receiver x) = Ok v' /\ erase v' = erase v.
Proof. exact C102_exchange_lemma. Qed.
Print Assumptions C102_exchange_partial.

(* nothing but the network stops a value that can be encoded and has room *)
Theorem C102_sent : forall checks t x v bs careful, Appends (encode checks t v) bs (Ok tt) -> length bs <= slot_capacity (x_sender x) ->
  exists s, xstep checks t x (XPost careful v) = (Exchange s (x_net x ++ [bs]) (x_receiver x), XSent bs).
Proof. exact C102_sent_lemma. Qed.
Print Assumptions C102_sent.

Theorem C102_delivered : forall checks t x k mark data, nth_error (x_net x) k = Some data -> length data <= slot_capacity (x_receiver x) ->
  exists s, xstep checks t x (XDeliver k mark) = (Exchange (x_sender x) (x_net x) s, XDelivered data) /\
    s_buf s = data ++ skipn (length data) (s_buf (x_receiver x)) /\ (mark = true -> slot_as_slice s = data).
Proof. exact C102_delivered_lemma. Qed.
Print Assumptions C102_delivered.

(* a sender that ignores the result of `write`, as the client of the documentation does: the receiver reads (2, 5) after (1, 5) and (2, 70000) were
   written *)
Theorem C102_exchange_refuted :
  let t := TTuple [TInt U8; TInt Usize] in
  let written v := v = VTuple [VInt 1; VInt 5] \/ v = VTuple [VInt 2; VInt 70000] in
  exists ops x es, (forall c v, In (XPost c v) ops -> written v) /\ (forall v, written v -> wt t v /\ RoundTrips t v /\ lossless v = true) /\
    xrun true t (Exchange (slot_with_capacity 3) [] (slot_with_capacity 3)) ops = (x, es) /\
    last_delivered es <> None /\ slot_read t (x_receiver x) = Ok (VTuple [VInt 2; VInt 5]).
Proof. exact C102_exchange_refuted_lemma. Qed.
Print Assumptions C102_exchange_refuted.

(* two vectors, the longer one first; delivered, then the shorter one, which arrives again after the other was lost *)
Definition two_posts : list xop :=
  [XPost true (VSeq [VInt 1; VInt 2; VInt 3]); XPost true (VSeq [VInt 9]); XDeliver 0 true; XDeliver 1 false; XLose 0; XDeliver 0 false].
Example C102_case : let t := TVec (TInt U8) in
  (forall c v, In (XPost c v) two_posts -> c = true /\ wt t v /\ RoundTrips t v /\ lossless v = true) /\
  (let (x, es) := xrun true t (Exchange (slot_with_capacity 8) [] (slot_with_capacity 9)) two_posts in
   es = [XSent [x03; x00; x01; x02; x03]; XSent [x01; x00; x09]; XDelivered [x03; x00; x01; x02; x03]; XDelivered [x01; x00; x09]; XNothing;
         XDelivered [x01; x00; x09]] /\
   x_receiver x = Slot [x01; x00; x09; x02; x03; x00; x00; x00; x00] 5 /\ slot_read t (x_receiver x) = Ok (VSeq [VInt 9])).
Proof.
  intros t. split; [|vm_compute; repeat split; reflexivity].
  intros c v [H|[H|[H|[H|[H|[H|[]]]]]]]; try discriminate H; injection H as <- <-;
    (split; [reflexivity|]; split; [|split; [|reflexivity]]); cbn; repeat constructor; unfold in_ity; cbn; lia.
Qed.
