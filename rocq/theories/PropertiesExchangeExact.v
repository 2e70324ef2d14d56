(* C102, exactly: for which types of messages it holds, and when a sender may ignore the result of `write`. *)
From Verif Require Import Base Streams Types Traits Encode Decode Sized Slot Spec SpecCalls SpecDecode SpecEq SpecSurvive SpecReach ComputeFacts Exchange SpecExchangeExact ExchangeExact.

(* Whatever is delivered is the encoding of a value that was posted, and stands at the start of the receiver's buffer. *)
Theorem C102_arrived : forall checks t cap cap' ops x es data, cap <= cap' ->
  xrun checks t (Exchange (slot_with_capacity cap) [] (slot_with_capacity cap')) ops = (x, es) ->
  (forall c v, In (XPost c v) ops -> c = true) -> last_delivered es = Some data ->
  (exists v, In (XPost true v) ops /\ Appends (encode checks t v) data (Ok tt)) /\ exists rest, s_buf (x_receiver x) = data ++ rest.
Proof. exact C102_arrived_lemma. Qed.
Print Assumptions C102_arrived.

(* In all exchanges of messages of type [t] what is read is a message that was sent, exactly if no fleeting type occurs in [t] (C13_exact). *)
Theorem C102_exact : forall checks t, EnumsOk t -> dec_ety t <> None ->
  ((forall cap cap' ops x es data, cap <= cap' ->
      xrun checks t (Exchange (slot_with_capacity cap) [] (slot_with_capacity cap')) ops = (x, es) ->
      (forall c v, In (XPost c v) ops -> c = true /\ wt t v) -> last_delivered es = Some data ->
      exists v v', In (XPost true v) ops /\ Appends (encode checks t v) data (Ok tt) /\ slot_read t (x_receiver x) = Ok v' /\ SameValue t v' v) <->
   occurs a_fleeting t = false).
Proof. exact C102_exact_lemma. Qed.
Print Assumptions C102_exact.

(* The result of `write` may be ignored where each value can be encoded and has room: the exchange is then that of a sender that looks at it. *)
Theorem C102_careless : forall checks t cap ops x, slot_capacity (x_sender x) = cap ->
  (forall c v, In (XPost c v) ops -> exists bs, Appends (encode checks t v) bs (Ok tt) /\ length bs <= cap) ->
  xrun checks t x ops = xrun checks t x (map looking ops).
Proof. exact C102_careless_lemma. Qed.
Print Assumptions C102_careless.

Example C102_exact_case :
  occurs a_fleeting (TTuple [TInt U8; TVec TString]) = false /\ occurs a_fleeting (TOption TSystemTime) = true /\
  (let ops := [XPost false (VStr [x61]); XDeliver 0 false; XPost false (VStr [x62; x63])] in
   forall c v, In (XPost c v) ops -> exists bs, Appends (encode true TString v) bs (Ok tt) /\ length bs <= 4).
Proof.
  refine (conj eq_refl (conj eq_refl _)). intros ops c v [I|[I|[I|[]]]]; try discriminate I; injection I as _ <-.
  - exists [x01; x00; x61]. split; [apply (appends_by_run true 9); vm_compute; reflexivity | cbn; repeat constructor].
  - exists [x02; x00; x62; x63]. split; [apply (appends_by_run true 9); vm_compute; reflexivity | cbn; repeat constructor].
Qed.
