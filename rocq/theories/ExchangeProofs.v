(* Proof of C102. *)
From Coq Require Import Lia ZifyBool ZifyNat ZifyN.
From Verif Require Import Base BaseFacts Streams StreamFacts Types TypesFacts Encode Decode Sized Slot Spec SpecCalls SpecDecode SpecValues
  EncodeFacts WireFacts EncodeCases RoundTrip EncodeProofs DecodeFacts DecodeProofs ValueProofs SlotProofs Exchange.
Set Implicit Arguments.

Section Exchanges.
  Variable ch : bool.
  Variable t : ty.
  Variable cap : nat.
  Variable cap' : nat.
  Hypothesis Hcap : cap <= cap'.
  Variable V : val -> Prop.

  Definition from_post (d : list byte) : Prop := length d <= cap /\ exists v, V v /\ Appends (encode ch t v) d (Ok tt).
  Definition xinv (x : exchange) (last : option (list byte)) : Prop :=
    slot_capacity (x_sender x) = cap /\ slot_capacity (x_receiver x) = cap' /\ Forall from_post (x_net x) /\
    match last with Some d => from_post d /\ exists rest, s_buf (x_receiver x) = d ++ rest | None => True end.

  Lemma forall_lose {A} (P : A -> Prop) k l : Forall P l -> Forall P (firstn k l ++ skipn (S k) l).
  Proof.
    intros H. apply Forall_app. split.
    - rewrite <- (firstn_skipn k l) in H. apply Forall_app in H. apply H.
    - rewrite <- (firstn_skipn (S k) l) in H. apply Forall_app in H. apply H.
  Qed.

  Lemma xstep_inv op x last x' e : xinv x last -> xstep ch t x op = (x', e) -> (forall c v, op = XPost c v -> c = true /\ V v) ->
    xinv x' (match e with XDelivered d => Some d | _ => last end).
  Proof.
    intros (H1 & H2 & H3 & H4) Hs Hp. destruct op as [c v|k mark|k]; cbn [xstep] in Hs.
    - destruct (Hp c v eq_refl) as [-> Hv]. destruct (slot_write ch t (x_sender x) v) as [s r] eqn:Hw.
      destruct (write_cases Hw) as (bs & Hb & Hbuf & Hr).
      assert (Hc : slot_capacity s = cap).
      { unfold slot_capacity in *. rewrite Hbuf, app_length, skipn_length. lia. }
      destruct r as [[]|er|p]; injection Hs as <- <-; (split; [exact Hc|]; split; [exact H2|]; split; [|exact H4]); cbn [x_net]; try exact H3.
      apply Forall_app. split; [exact H3|]. constructor; [|constructor]. destruct (C44_write_lemma Hw) as (Ha & _).
      split; [|exists v; auto]. unfold slot_as_slice. rewrite firstn_length. unfold slot_capacity in Hc. lia.
    - destruct (nth_error (x_net x) k) as [d|] eqn:Hd.
      + apply nth_error_In in Hd. rewrite Forall_forall in H3. pose proof (H3 _ Hd) as Hf. rewrite <- Forall_forall in H3.
        unfold slot_recv in Hs. injection Hs as <- <-. destruct Hf as [Hl Hf].
        set (s := Slot _ _). assert (Hsc : slot_capacity s = cap').
        { unfold s, slot_capacity in *. cbn [s_buf]. rewrite app_length, firstn_length, skipn_length. lia. }
        assert (Hsb : s_buf s = d ++ skipn (length d) (s_buf (x_receiver x))).
        { unfold s. cbn [s_buf]. rewrite Nat.min_l by lia. rewrite firstn_all. reflexivity. }
        assert (Hx : forall q, slot_capacity q = cap' /\ s_buf q = s_buf s -> xinv (Exchange (x_sender x) (x_net x) q) (Some d)).
        { intros q [Hq1 Hq2]. split; [exact H1|]. split; [exact Hq1|]. split; [exact H3|]. split; [split; assumption|].
          cbn [x_receiver]. rewrite Hq2, Hsb. eauto. }
        destruct mark; apply Hx; [|auto]. unfold slot_set_len. rewrite Hsc. destruct (_ <=? _); cbn [fst]; auto.
      + injection Hs as <- <-. split; [exact H1|]. split; [exact H2|]. split; assumption.
    - injection Hs as <- <-. split; [exact H1|]. split; [exact H2|]. split; [|exact H4]. apply forall_lose. exact H3.
  Qed.

  Lemma xrun_inv ops : forall x last x' es, xinv x last -> xrun ch t x ops = (x', es) -> (forall c v, In (XPost c v) ops -> c = true /\ V v) ->
    xinv x' (match last_delivered es with Some d => Some d | None => last end).
  Proof.
    induction ops as [|op ops IH]; intros x last x' es Hi Hr Hp; cbn [xrun] in Hr.
    - injection Hr as <- <-. exact Hi.
    - destruct (xstep ch t x op) as [x1 e] eqn:Hs. destruct (xrun ch t x1 ops) as [x2 es'] eqn:Hr'. injection Hr as <- <-.
      assert (Hi1 := xstep_inv Hi Hs (fun c v E => Hp c v (or_introl E))).
      specialize (IH _ _ _ _ Hi1 Hr' (fun c v E => Hp c v (or_intror E))).
      cbn [last_delivered]. destruct (last_delivered es'); [exact IH|]. destruct e; exact IH.
  Qed.
End Exchanges.

Lemma appends_yields ch t v bs : wt t v -> RoundTrips t v -> Appends (encode ch t v) bs (Ok tt) -> Yields (decode t) bs (norm v).
Proof.
  intros Hv Hr Ha. destruct (Ha (output_new (repeat x00 (length bs))) (new_wf _)) as (o & Ho & Hs).
  { unfold output_remaining, output_capacity, output_position. cbn. rewrite repeat_length. lia. }
  exact (C13_lemma Hv Hr (new_wf _) Ho Hs).
Qed.

Lemma C102_exchange_lemma ch t cap cap' ops x es data : cap <= cap' ->
  xrun ch t (Exchange (slot_with_capacity cap) [] (slot_with_capacity cap')) ops = (x, es) ->
  (forall c v, In (XPost c v) ops -> c = true /\ wt t v /\ RoundTrips t v /\ lossless v = true) -> last_delivered es = Some data ->
  exists v v', In (XPost true v) ops /\ Appends (encode ch t v) data (Ok tt) /\ slot_read t (x_receiver x) = Ok v' /\ erase v' = erase v.
Proof.
  intros Hcap Hr Hp Hd.
  assert (Hi : xinv ch t cap cap' (fun v => In (XPost true v) ops) (Exchange (slot_with_capacity cap) [] (slot_with_capacity cap')) None).
  { split; [apply repeat_length|]. split; [apply repeat_length|]. split; [constructor | exact I]. }
  assert (Hpp : forall c v, In (XPost c v) ops -> c = true /\ In (XPost true v) ops).
  { intros c v Hin. destruct (Hp c v Hin) as [-> _]. auto. }
  pose proof (@xrun_inv ch t cap cap' Hcap _ ops _ _ _ _ Hi Hr Hpp) as H. rewrite Hd in H. destruct H as (_ & _ & _ & (_ & v & Hin & Ha) & rest & Hb).
  destruct (Hp _ _ Hin) as (_ & Hv & Hrt & Hll). exists v, (norm v). split; [exact Hin|]. split; [exact Ha|].
  assert (Hy := @appends_yields ch t v data Hv Hrt Ha). split; [|apply erase_norm; exact Hll].
  unfold slot_read. rewrite Hb. specialize (Hy [] rest). cbn [app length] in Hy. unfold input_new. rewrite Hy. reflexivity.
Qed.

(* a value that can be encoded and has room is sent *)
Lemma C102_sent_lemma ch t x v bs careful : Appends (encode ch t v) bs (Ok tt) -> length bs <= slot_capacity (x_sender x) ->
  exists s, xstep ch t x (XPost careful v) = (Exchange s (x_net x ++ [bs]) (x_receiver x), XSent bs).
Proof.
  intros Ha Hl. destruct (proj2 (@C44_succeeds_lemma ch t (x_sender x) v bs Ha) Hl) as (s & Hw & Hs).
  exists s. cbn [xstep]. rewrite Hw, Hs. destruct careful; reflexivity.
Qed.

(* and what is in the network can be delivered, whatever the receiver's Slot holds *)
Lemma C102_delivered_lemma ch t x k mark data : nth_error (x_net x) k = Some data -> length data <= slot_capacity (x_receiver x) ->
  exists s, xstep ch t x (XDeliver k mark) = (Exchange (x_sender x) (x_net x) s, XDelivered data) /\
    s_buf s = data ++ skipn (length data) (s_buf (x_receiver x)) /\ (mark = true -> slot_as_slice s = data).
Proof.
  intros Hk Hl. cbn [xstep]. rewrite Hk. unfold slot_recv. rewrite Nat.min_l by exact Hl. rewrite firstn_all.
  eexists. split; [reflexivity|]. destruct mark.
  - unfold slot_set_len, slot_capacity in *. cbn [s_buf]. rewrite app_length.
    replace (length data <=? _) with true by lia. cbn [fst s_buf]. split; [reflexivity|]. intros _.
    unfold slot_as_slice. cbn [s_buf s_len]. rewrite firstn_app, Nat.sub_diag, firstn_all. apply app_nil_r.
  - split; [reflexivity | discriminate].
Qed.

(* a sender that does not look at the result: a value arrives that nobody wrote *)
Lemma C102_exchange_refuted_lemma :
  let t := TTuple [TInt U8; TInt Usize] in
  let written v := v = VTuple [VInt 1; VInt 5] \/ v = VTuple [VInt 2; VInt 70000] in
  exists ops x es, (forall c v, In (XPost c v) ops -> written v) /\ (forall v, written v -> wt t v /\ RoundTrips t v /\ lossless v = true) /\
    xrun true t (Exchange (slot_with_capacity 3) [] (slot_with_capacity 3)) ops = (x, es) /\
    last_delivered es <> None /\ slot_read t (x_receiver x) = Ok (VTuple [VInt 2; VInt 5]).
Proof.
  intros t written.
  exists [XPost false (VTuple [VInt 1; VInt 5]); XPost false (VTuple [VInt 2; VInt 70000]); XDeliver 1 true].
  do 2 eexists. split; [|split; [|split; [|split]]].
  - intros c v [H|[H|[H|[]]]]; try discriminate H; injection H as _ <-; unfold written; auto.
  - intros v [-> | ->]; (split; [cbn; unfold in_ity; cbn; lia | split; [cbn; auto | reflexivity]]).
  - vm_compute. reflexivity.
  - vm_compute. discriminate.
  - vm_compute. reflexivity.
Qed.
