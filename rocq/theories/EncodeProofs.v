(* Proofs of the properties of encoding, and of round trips. *)
From Coq Require Import Lia ZifyBool ZifyNat ZifyN.
From Verif Require Import Base BaseFacts Streams StreamFacts Utf8 Types TypesFacts Traits Encode Decode Spec SpecCalls
  EncodeFacts WireFacts EncodeCases DecodeFacts DecodeLocal RoundTrip.
Set Implicit Arguments.

Lemma fits_iff o bs : wf_out o -> (fits o bs <-> length bs <= output_remaining o).
Proof. unfold wf_out, fits, output_remaining, output_capacity, output_position. lia. Qed.

Lemma traces_appends m cs r : Traces m cs r -> Appends m (concat cs) r.
Proof.
  intros Ht o Hw Hr. apply fits_iff in Hr; [|exact Hw]. exists (append o (concat cs)).
  rewrite (Ht o), replay_fits by assumption. split; [reflexivity | apply append_slice; exact Hw].
Qed.

Lemma succeeds_appends m bs : Succeeds m bs -> Appends m bs (Ok tt).
Proof. intros (cs & Ht & <-). apply traces_appends. exact Ht. Qed.

Lemma appends_traces m cs r bs q : Traces m cs r -> Appends m bs q -> concat cs = bs /\ r = q.
Proof.
  intros Ht Ha. set (n := length (concat cs) + length bs). set (o := big_out n).
  assert (Hn : output_remaining o = n).
  { unfold output_remaining, output_capacity, output_position, o, big_out; cbn [o_buf o_pos]. rewrite repeat_length. lia. }
  destruct (Ha o) as (o' & Hm & Hs); [apply big_wf | rewrite Hn; unfold n; lia |].
  rewrite (Ht o), replay_fits in Hm by (try apply big_wf; apply big_fits; unfold n; lia).
  injection Hm as Ho Hr. split; [|exact Hr]. rewrite <- Ho in Hs.
  rewrite append_slice in Hs by apply big_wf. apply app_inv_head in Hs. exact Hs.
Qed.

Lemma appends_unique m a b r q : HasTrace m -> Appends m a r -> Appends m b q -> a = b /\ r = q.
Proof.
  intros (cs & x & Ht) H1 H2. destruct (appends_traces Ht H1) as [E1 E2]. destruct (appends_traces Ht H2) as [E3 E4].
  split; congruence.
Qed.

(* running against a particular output *)
Lemma trace_run m cs r o : Traces m cs r -> wf_out o ->
  (length (concat cs) <= output_remaining o /\ m o = (append o (concat cs), r)) \/
  (output_remaining o < length (concat cs) /\ exists bs e, m o = (append o bs, Panic (POutput e)) /\
     fits o bs /\ length bs < length (concat cs)
     /\ se_capacity e = output_capacity o /\ se_position e = output_position (append o bs)
     /\ output_remaining (append o bs) < se_count e).
Proof.
  intros Ht Hw. destruct (Nat.leb_spec (length (concat cs)) (output_remaining o)) as [Hf|Hf].
  - left. split; [exact Hf|]. rewrite (Ht o). apply replay_fits; [exact Hw | apply fits_iff; assumption].
  - right. split; [exact Hf|]. destruct (@replay_short cs r o Hw) as (done & c & rest & -> & H1 & H2 & H3).
    + rewrite fits_iff by exact Hw. lia.
    + rewrite (Ht o), H3. eexists _, _. split; [reflexivity|]. split; [exact H1|].
      cbn [se_capacity se_position se_count].
      rewrite concat_app in *. cbn [concat] in *. rewrite !app_length in *.
      pose proof (append_capacity H1) as Hc.
      unfold fits, output_remaining, output_capacity, output_position in *. rewrite app_length in H2.
      rewrite append_pos, Hc. repeat split; lia.
Qed.

Lemma C06_lemma ch t v o bs : wt t v -> output_position o <= output_capacity o ->
  ((exists o', encode ch t v o = (o', Ok tt) /\ output_as_slice o' = output_as_slice o ++ bs) <->
   (Wire ch t v bs /\ length bs <= output_remaining o)).
Proof.
  intros Hv Hw. split.
  - intros (o' & He & Hs). destruct (good_all ch t v Hv) as [x Hr Hx Hsx | cs e Hr Ht | cs Hc Hl Ht].
    + destruct Hsx as (cs & Ht & Hcx). destruct (trace_run Ht Hw) as [[Hl Hm]|(_ & y & e & Hm & _)]; rewrite Hm in He; [|discriminate].
      injection He as <-. rewrite append_slice in Hs by exact Hw. apply app_inv_head in Hs. subst. split; [exact Hx | exact Hl].
    + destruct (trace_run Ht Hw) as [[Hl Hm]|(_ & y & e' & Hm & _)]; rewrite Hm in He; discriminate.
    + destruct (trace_run Ht Hw) as [[Hl' Hm]|(_ & y & e' & Hm & _)]; rewrite Hm in He; discriminate.
  - intros [Hx Hl]. apply (succeeds_appends (wire_succeeds Hx Hv)); assumption.
Qed.

Lemma C07_lemma ch t v o o' r : output_position o <= output_capacity o -> encode ch t v o = (o', r) ->
  output_capacity o' = output_capacity o /\
  output_position o <= output_position o' <= output_capacity o /\
  firstn (output_position o) (o_buf o') = firstn (output_position o) (o_buf o) /\
  skipn (output_position o') (o_buf o') = skipn (output_position o') (o_buf o).
Proof.
  intros Hw He. destruct (encode_touches _ _ _ Hw He) as (bs & Hf & ->).
  unfold output_capacity, output_position in *. rewrite append_capacity, append_pos by exact Hf.
  split; [reflexivity|]. split; [unfold fits in Hf; lia|]. split; [apply append_prefix; exact Hw | apply append_suffix; exact Hw].
Qed.

Lemma C08_lemma ch t v o o' r : output_position o <= output_capacity o -> encode ch t v o = (o', r) ->
  (forall p, r <> Panic p) ->
  exists bs, output_as_slice o' = output_as_slice o ++ bs /\ Appends (encode ch t v) bs r.
Proof.
  intros Hw He Hp. destruct (encode_has_trace ch t v) as (cs & q & Ht).
  destruct (trace_run Ht Hw) as [[Hl Hm]|(_ & y & e & Hm & _)]; rewrite Hm in He; injection He as <- <-.
  - exists (concat cs). split; [apply append_slice; exact Hw | apply traces_appends; exact Ht].
  - exfalso. apply (Hp _ eq_refl).
Qed.

Lemma good_result ch t v cs r : wt t v -> Traces (encode ch t v) cs r ->
  (exists e, r = Err e) \/ r = Ok tt \/ (r = Panic PArith /\ ch = true /\ has_lowest_second v = true).
Proof.
  intros Hv Ht. destruct (good_all ch t v Hv) as [x Hr Hx (ds & Hd & _) | ds e Hr Hd | ds Hc Hl Hd];
    destruct (traces_unique Ht Hd) as [_ ->]; eauto.
Qed.

Lemma C09_lemma ch t v : wt t v -> exists bs r,
  (r = Ok tt \/ (exists e, r = Err e) \/ (r = Panic PArith /\ ch = true /\ has_lowest_second v = true)) /\
  forall o, output_position o <= output_capacity o ->
    (length bs <= output_remaining o -> exists o', encode ch t v o = (o', r) /\ output_as_slice o' = output_as_slice o ++ bs) /\
    (output_remaining o < length bs -> exists o' e, encode ch t v o = (o', Panic (POutput e))
       /\ se_capacity e = output_capacity o' /\ se_position e = output_position o' /\ output_remaining o' < se_count e).
Proof.
  intros Hv. destruct (encode_has_trace ch t v) as (cs & r & Ht). exists (concat cs), r. split.
  - destruct (@good_result ch t v cs r Hv Ht) as [?|[?|?]]; auto.
  - intros o Hw. split; [intros Hl; apply (traces_appends Ht); assumption|]. intros Hl.
    destruct (trace_run Ht Hw) as [[Hl' _]|(_ & y & e & Hm & Hf & Hlt & H1 & H2 & H3)]; [lia|].
    exists (append o y), e. split; [exact Hm|].
    unfold output_capacity in *. rewrite append_capacity by exact Hf. auto.
Qed.

Lemma C10_lemma ch t v : wt t v -> ch = false \/ has_lowest_second v = false ->
  exists bs, (Representable t v /\ Appends (encode ch t v) bs (Ok tt)) \/
             (~ Representable t v /\ exists e, Appends (encode ch t v) bs (Err e)).
Proof.
  intros Hv Hc. destruct (good_all ch t v Hv) as [x Hr Hx Hs | cs e Hr Ht | cs Hch Hl Ht].
  - exists x. left. split; [exact Hr | apply succeeds_appends; exact Hs].
  - exists (concat cs). right. split; [exact Hr|]. exists e. apply traces_appends; exact Ht.
  - destruct Hc; congruence.
Qed.

(* a successful call has written the encoding *)
Lemma encoded_wire ch t v o o' bs : wt t v -> output_position o <= output_capacity o -> encode ch t v o = (o', Ok tt) ->
  output_as_slice o' = output_as_slice o ++ bs -> Wire ch t v bs.
Proof. intros Hv Hw He Hs. apply (@C06_lemma ch t v o bs Hv Hw). eauto. Qed.

Lemma C13_lemma ch t v o o' bs : wt t v -> RoundTrips t v ->
  output_position o <= output_capacity o -> encode ch t v o = (o', Ok tt) -> output_as_slice o' = output_as_slice o ++ bs ->
  Yields (decode t) bs (norm v).
Proof. intros Hv Hr Hw He Hs. apply (@round_trip ch t v bs); try assumption. apply (@encoded_wire ch t v o o' bs Hv Hw He Hs). Qed.

Lemma encode_list_spec ch l : forall o o', Forall (fun p => wt (fst p) (snd p) /\ RoundTrips (fst p) (snd p)) l ->
  wf_out o -> encode_list ch l o = (o', Ok tt) ->
  exists bs, fits o bs /\ o' = append o bs /\ Parses (decode_list (map fst l)) bs (map (fun p => norm (snd p)) l).
Proof.
  induction l as [|[t v] l IH]; intros o o' Hl Hw He; cbn [encode_list] in He.
  - injection He as <-. exists []. split; [unfold fits, wf_out in *; cbn; lia|]. split; [rewrite append_nil by exact Hw; reflexivity|].
    cbn [map decode_list]. apply P_ok.
  - inversion Hl as [|? ? [Hv Hr] Hl']; subst. cbn [fst snd] in *. unfold eseq in He.
    destruct (encode ch t v o) as [o1 r1] eqn:E1. destruct r1 as [[]|?|?]; try discriminate.
    destruct (encode_touches _ _ _ Hw E1) as (b1 & Hf1 & ->).
    destruct (IH _ _ Hl' (append_wf Hf1) He) as (b2 & Hf2 & -> & Hp).
    exists (b1 ++ b2). split; [apply fits_append; assumption|]. split; [apply append_app; exact Hw|].
    cbn [map decode_list fst snd]. eapply P_bind.
    + apply (@C13_lemma ch t v o (append o b1) b1); try assumption. apply append_slice; exact Hw.
    + eapply P_bind_last; [exact Hp | apply P_ok].
Qed.

Lemma C14_lemma ch l o o' tail : Forall (fun p => wt (fst p) (snd p) /\ RoundTrips (fst p) (snd p)) l ->
  output_position o <= output_capacity o -> encode_list ch l o = (o', Ok tt) ->
  decode_list (map fst l) (Input (output_as_slice o' ++ tail) (output_position o)) =
  (Input (output_as_slice o' ++ tail) (output_position o'), Ok (map (fun p => norm (snd p)) l)).
Proof.
  intros Hl Hw He. destruct (encode_list_spec _ Hl Hw He) as (bs & Hf & -> & Hp).
  rewrite append_slice by exact Hw. specialize (Hp (output_as_slice o) tail). rewrite <- app_assoc.
  assert (Hlen : length (output_as_slice o) = output_position o).
  { unfold output_as_slice, output_position. rewrite firstn_length. unfold output_capacity, output_position in Hw. lia. }
  rewrite Hlen in Hp. unfold output_position at 2. rewrite append_pos. exact Hp.
Qed.

Lemma C17_lemma ch t v1 v2 b1 s : wt t v1 -> wt t v2 -> RoundTrips t v1 -> RoundTrips t v2 ->
  Appends (encode ch t v1) b1 (Ok tt) -> Appends (encode ch t v2) (b1 ++ s) (Ok tt) -> s = [] /\ norm v1 = norm v2.
Proof.
  intros Hv1 Hv2 Hr1 Hr2 He1 He2.
  assert (W1 : Wire ch t v1 b1).
  { pose proof (He1 (big_out (length b1)) (big_wf _)) as H. unfold output_remaining, output_capacity, output_position in H.
    cbn [big_out o_buf o_pos] in H. rewrite repeat_length, Nat.sub_0_r in H. apply (@C06_lemma ch t v1 (big_out (length b1)) b1 Hv1 (big_wf _)).
    apply H. lia. }
  assert (W2 : Wire ch t v2 (b1 ++ s)).
  { pose proof (He2 (big_out (length (b1 ++ s))) (big_wf _)) as H. unfold output_remaining, output_capacity, output_position in H.
    cbn [big_out o_buf o_pos] in H. rewrite repeat_length, Nat.sub_0_r in H. apply (@C06_lemma ch t v2 (big_out (length (b1 ++ s))) _ Hv2 (big_wf _)).
    apply H. lia. }
  pose proof (round_trip W1 Hv1 Hr1 [] s) as P1. pose proof (round_trip W2 Hv2 Hr2 [] []) as P2.
  cbn [app length Nat.add] in *. rewrite app_nil_r in P2. rewrite P1 in P2. injection P2 as Hl Hn.
  rewrite app_length in Hl. split; [apply length_zero_iff_nil; lia | exact Hn].
Qed.
