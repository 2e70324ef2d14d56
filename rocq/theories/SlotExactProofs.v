(* The exact forms of C44, C46 and C48. *)
From Coq Require Import Lia.
From Verif Require Import Base Streams Utf8 Types Traits Encode Decode Sized Slot Spec SpecCalls SpecDecode SpecValues SpecPeak SpecSurvive SpecReach
  BaseFacts StreamFacts AcceptFacts RoundTrip PeakProofs IntakeProofs SurviveProofs ReachProofs WriteProofs SlotProofs.
Set Implicit Arguments.

(* ---- a written value is read back *)

Lemma full_slot s : slot_length s = slot_capacity s -> slot_as_slice s = s_buf s.
Proof. unfold slot_length, slot_capacity, slot_as_slice. intros E. rewrite E. apply firstn_all. Qed.

Lemma C44_exact_lemma checks t : EnumsOk t -> dec_ety t <> None ->
  ((forall s v s', wt t v -> slot_write checks t s v = (s', Ok tt) -> exists v', slot_read t s' = Ok v' /\ SameValue t v' v) <-> occurs a_fleeting t = false).
Proof.
  intros Hx Hd. split.
  - intros H. apply (@C13_exact_lemma checks t Hx Hd). intros v bs Hv Ha.
    set (s := slot_with_capacity (length bs)).
    assert (Hc : slot_capacity s = length bs) by (unfold s, slot_capacity, slot_with_capacity; cbn [s_buf]; apply repeat_length).
    destruct (proj2 (@C44_succeeds_lemma checks t s v bs Ha)) as (s' & He & Hs); [lia|].
    destruct (@C44_write_lemma checks t s v s' He) as (_ & _ & Hcap).
    assert (Hb : s_buf s' = bs).
    { revert Hs. unfold slot_as_slice. intros Hs. unfold slot_capacity in Hcap, Hc.
      assert (Hl : length (firstn (s_len s') (s_buf s')) = length (s_buf s')) by (rewrite Hs; congruence).
      rewrite firstn_length in Hl. rewrite <- Hs. symmetry. apply firstn_all2. lia. }
    destruct (H s v s' Hv He) as (v' & Hr & He'). unfold slot_read in Hr. rewrite Hb in Hr. destruct (decode t (input_new bs)) as [i' r]. cbn [snd] in Hr. subst r. eauto.
  - intros Ho s v s' Hv He. destruct (@C44_write_lemma checks t s v s' He) as (Ha & _ & _).
    assert (Hk : Survives t v) by (apply survives_all; [exact Hv | exact (@appends_representable checks t v _ Hv Ha) | exact Ho]).
    destruct (@C104_everywhere checks t v _ Hx Hd Hv Ha Hk) as (v' & Hy & Hs). exists v'. split; [|exact Hs].
    unfold slot_read. pose proof (Hy [] (skipn (s_len s') (s_buf s'))) as E. unfold slot_as_slice in E. cbn [app length] in E. rewrite firstn_skipn in E.
    unfold input_new. rewrite E. reflexivity.
Qed.

(* ---- which octets are read *)

Lemma accepts_nothing t : EnumsOk t -> decodable t = true -> takes_octets t = false -> exists v, Accepts t [] v.
Proof.
  intros Hx Hd Ht. destruct (decodable_fine t Hx Hd) as (bs & v & [Ha _]). destruct (proj1 accepts_small _ _ _ Ha) as (n & Hn & Hl).
  unfold takes_octets in Ht. rewrite Hn in Ht. apply N.ltb_ge in Ht. destruct bs as [|b bs]; [eauto | cbn [length] in Hl; lia].
Qed.
Lemma parses_here t bs v : Accepts t bs v -> forall post, decode t (input_new (bs ++ post)) = (Input (bs ++ post) (length bs), Ok v).
Proof. intros Ha post. exact (accepts_parses Ha [] post). Qed.

Lemma reads_nothing t : EnumsOk t -> decodable t = true -> takes_octets t = false -> exists v, forall bs, decode t (input_new bs) = (input_new bs, Ok v).
Proof. intros Hx Hd Ht. destruct (accepts_nothing t Hx Hd Ht) as (v & Ha). exists v. intros bs. exact (parses_here Ha bs). Qed.
Lemma reads_something t : EnumsOk t -> takes_octets t = true -> exists bs v, decode t (input_new bs) = (Input bs (length bs), Ok v) /\ wt t v /\
  forall i' v', decode t (input_new []) <> (i', Ok v').
Proof.
  intros Hx Ht. destruct (octets_fine t Hx Ht) as (bs & v & [Ha Hw] & Hl). exists bs, v. pose proof (parses_here Ha []) as E. rewrite app_nil_r in E.
  split; [exact E|]. split; [exact Hw|]. intros i' v' E'. assert (Hi : wf_in (input_new [])) by (unfold wf_in; cbn; lia).
  destruct (@decode_accepts t _ _ _ Hx Hi E') as (b & post & Hb & _ & Ha').
  cbn in Hb. symmetry in Hb. apply app_eq_nil in Hb. destruct Hb as [-> _]. pose proof (parses_here Ha' bs) as E2. cbn [app length] in E2. rewrite E in E2. injection E2 as E2 _. lia.
Qed.

Lemma C46_exact_lemma t : EnumsOk t -> decodable t = true ->
  ((forall s, slot_length s <= slot_capacity s -> slot_read t s = snd (decode t (input_new (slot_as_slice s)))) <-> takes_octets t = false).
Proof.
  intros Hx Hd. split.
  - intros H. destruct (takes_octets t) eqn:E; [|reflexivity]. exfalso. destruct (reads_something t Hx E) as (bs & v & Hb & _ & Hn).
    specialize (H (Slot bs 0) (Nat.le_0_l _)). unfold slot_read, slot_as_slice in H. cbn [s_buf s_len firstn] in H. rewrite Hb in H. cbn [snd] in H.
    destruct (decode t (input_new [])) as [i' r]. cbn [snd] in H. subst r. exact (Hn _ _ eq_refl).
  - intros Ht s _. destruct (reads_nothing t Hx Hd Ht) as (v & Hv). unfold slot_read. rewrite !Hv. reflexivity.
Qed.
Lemma C48_exact_lemma t : EnumsOk t -> decodable t = true ->
  ((forall s data s', slot_copy_from_slice s data = (s', Ok tt) -> slot_read t s' = snd (decode t (input_new data))) <-> takes_octets t = false).
Proof.
  intros Hx Hd. split.
  - intros H. destruct (takes_octets t) eqn:E; [|reflexivity]. exfalso. destruct (reads_something t Hx E) as (bs & v & Hb & _ & Hn).
    specialize (H (Slot bs 0) [] (Slot bs 0) eq_refl). unfold slot_read in H. cbn [s_buf] in H. rewrite Hb in H. cbn [snd] in H.
    destruct (decode t (input_new [])) as [i' r]. cbn [snd] in H. subst r. exact (Hn _ _ eq_refl).
  - intros Ht s data s' _. destruct (reads_nothing t Hx Hd Ht) as (v & Hv). unfold slot_read. rewrite !Hv. reflexivity.
Qed.
