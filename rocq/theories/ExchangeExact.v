(* The exact form of C102. *)
From Coq Require Import Lia.
From Verif Require Import Base BaseFacts Streams StreamFacts Types Traits TypesFacts Encode Decode Sized Slot Spec SpecCalls SpecDecode SpecPeak SpecWork SpecEq SpecSurvive SpecReach SpecValues
  EncodeFacts WireFacts EncodeCases RoundTrip EncodeProofs DecodeFacts DecodeProofs ValueProofs SlotProofs PeakProofs SurviveProofs ReachProofs WriteProofs Exchange SpecExchangeExact ExchangeProofs.
Set Implicit Arguments.

Lemma C102_arrived_lemma ch t cap cap' ops x es data : cap <= cap' ->
  xrun ch t (Exchange (slot_with_capacity cap) [] (slot_with_capacity cap')) ops = (x, es) ->
  (forall c v, In (XPost c v) ops -> c = true) -> last_delivered es = Some data ->
  (exists v, In (XPost true v) ops /\ Appends (encode ch t v) data (Ok tt)) /\ exists rest, s_buf (x_receiver x) = data ++ rest.
Proof.
  intros Hcap Hr Hp Hd.
  assert (Hi : xinv ch t cap cap' (fun v => In (XPost true v) ops) (Exchange (slot_with_capacity cap) [] (slot_with_capacity cap')) None).
  { split; [apply repeat_length|]. split; [apply repeat_length|]. split; [constructor | exact I]. }
  assert (Hpp : forall c v, In (XPost c v) ops -> c = true /\ In (XPost true v) ops).
  { intros c v Hin. pose proof (Hp c v Hin) as ->. auto. }
  pose proof (@xrun_inv ch t cap cap' Hcap _ ops _ _ _ _ Hi Hr Hpp) as H. rewrite Hd in H. destruct H as (_ & _ & _ & (_ & v & Hin & Ha) & rest & Hb).
  split; [exists v; auto | exists rest; exact Hb].
Qed.

Lemma C102_exact_lemma ch t : EnumsOk t -> dec_ety t <> None ->
  ((forall cap cap' ops x es data, cap <= cap' ->
      xrun ch t (Exchange (slot_with_capacity cap) [] (slot_with_capacity cap')) ops = (x, es) ->
      (forall c v, In (XPost c v) ops -> c = true /\ wt t v) -> last_delivered es = Some data ->
      exists v v', In (XPost true v) ops /\ Appends (encode ch t v) data (Ok tt) /\ slot_read t (x_receiver x) = Ok v' /\ SameValue t v' v) <->
   occurs a_fleeting t = false).
Proof.
  intros He Hd. split.
  - intros H. apply (@C13_exact_lemma ch t He Hd). intros v bs Hv Ha.
    set (x0 := Exchange (slot_with_capacity (length bs)) [] (slot_with_capacity (length bs))).
    destruct (@C102_sent_lemma ch t x0 v bs true Ha) as (s & E1); [cbn; unfold slot_capacity; cbn; rewrite repeat_length; lia|].
    set (x1 := Exchange s (x_net x0 ++ [bs]) (x_receiver x0)) in *.
    destruct (@C102_delivered_lemma ch t x1 0 true bs eq_refl) as (s' & E2 & B & _); [cbn; unfold slot_capacity; cbn; rewrite repeat_length; lia|].
    destruct (H (length bs) (length bs) [XPost true v; XDeliver 0 true] (Exchange s (x_net x1) s') [XSent bs; XDelivered bs] bs (le_n _)) as (w & v' & I & _ & R & S).
    + cbn [xrun]. fold x0. rewrite E1. fold x1. rewrite E2. reflexivity.
    + intros c w [I|[I|[]]]; [|discriminate I]. injection I as <- <-. auto.
    + reflexivity.
    + destruct I as [I|[I|[]]]; [|discriminate I]. injection I as <-. unfold slot_read in R. cbn [x_receiver] in R.
      rewrite B in R. unfold x1, x0 in R. cbn [x_receiver slot_with_capacity s_buf] in R.
      rewrite skipn_all2 in R by (rewrite repeat_length; lia). rewrite app_nil_r in R.
      destruct (decode t (input_new bs)) as [i' r] eqn:D. cbn [snd] in R. subst r. exists i', v'. auto.
  - intros F cap cap' ops x es data Hcap Hr Hp Hl.
    destruct (@C102_arrived_lemma ch t cap cap' ops x es data Hcap Hr (fun c v I => proj1 (Hp c v I)) Hl) as ((v & I & Ha) & rest & B).
    pose proof (proj2 (Hp _ _ I)) as Hv.
    pose proof (@survives_all t v Hv (@appends_representable ch t v data Hv Ha) F) as Hs.
    destruct (@C104_everywhere ch t v data He Hd Hv Ha Hs) as (v' & Y & S). exists v, v'. split; [exact I|]. split; [exact Ha|]. split; [|exact S].
    unfold slot_read. rewrite B. specialize (Y [] rest). cbn [app length] in Y. unfold input_new. rewrite Y. reflexivity.
Qed.

(* a sender that does not look at the result of `write`, when there is nothing to see *)
Lemma careless_step ch t cap x op : slot_capacity (x_sender x) = cap ->
  (forall c v, op = XPost c v -> exists bs, Appends (encode ch t v) bs (Ok tt) /\ length bs <= cap) ->
  xstep ch t x (looking op) = xstep ch t x op /\ slot_capacity (x_sender (fst (xstep ch t x op))) = cap.
Proof.
  intros Hc Hp. destruct op as [c v|k m|k]; cbn [looking].
  - destruct (Hp c v eq_refl) as (bs & Ha & Hl). rewrite <- Hc in Hl.
    destruct (proj2 (@C44_succeeds_lemma ch t (x_sender x) v bs Ha) Hl) as (s & Hw & Hs). cbn [xstep]. rewrite Hw. split; [destruct c; reflexivity|].
    destruct (write_cases Hw) as (b & Hb & Hbuf & _). cbn [fst x_sender]. unfold slot_capacity in *. rewrite Hbuf, app_length, skipn_length. lia.
  - split; [reflexivity|]. cbn [xstep]. destruct (nth_error (x_net x) k); [|exact Hc]. destruct (slot_recv (x_receiver x) l). exact Hc.
  - split; [reflexivity|exact Hc].
Qed.

Lemma C102_careless_lemma ch t cap ops : forall x, slot_capacity (x_sender x) = cap ->
  (forall c v, In (XPost c v) ops -> exists bs, Appends (encode ch t v) bs (Ok tt) /\ length bs <= cap) ->
  xrun ch t x ops = xrun ch t x (map looking ops).
Proof.
  induction ops as [|op ops IH]; intros x Hc Hp; [reflexivity|]. cbn [map xrun].
  destruct (@careless_step ch t cap x op Hc (fun c v E => Hp c v (or_introl E))) as [E1 E2]. rewrite E1.
  destruct (xstep ch t x op) as [x1 e] eqn:Hs. cbn [fst] in E2. rewrite (IH x1 E2 (fun c v I => Hp c v (or_intror I))). reflexivity.
Qed.
