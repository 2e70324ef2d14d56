(* C11 and C14 as stated, from the lemmas about items and lists. *)
From Coq Require Import Lia ZifyBool ZifyNat ZifyN.
From Verif Require Import Base BaseFacts Streams StreamFacts Utf8 Types TypesFacts Traits Encode Decode Spec SpecCalls SpecDecode SpecValues
  EncodeFacts WireFacts RoundTrip EncodeProofs DecodeFacts ItemProofs ValueProofs.
Set Implicit Arguments.

Lemma C11_encode_lemma ch t vs bs e :
  (forall n, Appends (encode ch (TArray t n) (VSeq vs)) bs (Err e) -> exists k e', e = EItem k e' /\ FirstFailure ch t vs k e' bs) /\
  ((Z.of_nat (length vs) <= 65535)%Z ->
   forall t' wrap, (t' = TSlice t \/ t' = TVec t \/ (exists n, t' = TSizedSlice t n)) /\ wrap = EItem \/ t' = TLinked t /\ wrap = EItemTuple ->
   Appends (encode ch t' (VSeq vs)) bs (Err e) ->
   exists k e' lb ib, e = wrap k e' /\ bs = lb ++ ib /\ WireLen (length vs) lb /\ FirstFailure ch t vs k e' ib).
Proof.
  split.
  - intros n. apply array_err.
  - intros Hl t' wrap Ht Ha. assert (Hs : Appends (enc_slice (encode ch t) wrap vs) bs (Err e)).
    { destruct Ht as [[[->|[->|[n ->]]] ->]|[-> ->]]; exact Ha. }
    exact (@slice_err ch t wrap vs bs e Hl Hs).
Qed.

Lemma C11_long_lemma ch t vs t' :
  t' = TSlice t \/ t' = TVec t \/ (exists n, t' = TSizedSlice t n) \/ t' = TLinked t -> (65535 < Z.of_nat (length vs))%Z ->
  Appends (encode ch t' (VSeq vs)) [] (Err (ELen (EUsize (Z.of_nat (length vs))))).
Proof.
  intros Ht Hl. destruct Ht as [->|[->|[[n ->]| ->]]].
  1-3: exact (@slice_too_long ch t EItem vs Hl).
  exact (@slice_too_long ch t EItemTuple vs Hl).
Qed.

Lemma dec_keys_err t n : forall i acc x x' e, dec_keys (decode t) n i acc x = (x', Err e) ->
  exists k e', e = DItem (i + k) e' /\ k < n /\ DecodeFailure t x k e' x'.
Proof.
  induction n as [|n IH]; intros i acc x x' e H; cbn [dec_keys] in H; [discriminate|].
  unfold dbind, dmap_err in H. destruct (decode t x) as [x1 [v|e1|p1]] eqn:E1.
  - destruct (IH _ _ _ _ _ H) as (k & e' & -> & Hk & (vs & i1 & Hl & Hd & He)).
    exists (S k), e'. split; [f_equal; lia|]. split; [lia|]. exists (v :: vs), i1. split; [cbn; lia|]. split; [|exact He].
    cbn [repeat decode_list]. unfold dbind. rewrite E1, Hd. reflexivity.
  - injection H as <- <-. exists 0, e1. split; [f_equal; lia|]. split; [lia|]. exists [], x. auto.
  - discriminate.
Qed.

Lemma C11_decode_lemma t i i' e : in_bounds i ->
  (forall n, decode (TArray t n) i = (i', Err e) -> exists k e', e = DItem k e' /\ k < n /\ DecodeFailure t i k e' i') /\
  (forall t', t' = TVec t \/ t' = TLinked t \/ t' = THashSet t \/ (exists n, t' = TSizedSlice t n) -> decode t' i = (i', Err e) ->
   (exists n len, t' = TSizedSlice t n /\ e = DLen (DLength n len) /\ n < len /\ declares (unread i) len) \/
   exists k e' n, e = DItem k e' /\ k < n /\ (declares (unread i) n \/ exists len, t' = TSizedSlice t n /\ declares (unread i) len /\ len <= n) /\
     DecodeFailure t (Input (i_buf i) (i_pos i + 2)) k e' i').
Proof.
  intros Hw. split; [intros n; apply dec_array_err|]. intros t' Ht H.
  assert (Hd : forall a b, firstn 2 (unread i) = [a; b] -> declares (unread i) (Z.to_nat (b2z a + 256 * b2z b))).
  { intros a b Hab. exists a, b, (skipn 2 (unread i)). split; [rewrite <- (firstn_skipn 2 (unread i)) at 1; rewrite Hab; reflexivity|].
    pose proof (b2z_range a). pose proof (b2z_range b). lia. }
  destruct (dec_usize_cases Hw) as [(a & b & Hab & He)|(e1 & He)]; cycle 1.
  { destruct Ht as [->|[->|[->|[n ->]]]]; cbn [decode] in H; unfold dec_vec, dec_set, dec_sized_slice, dbind in H; rewrite He in H; discriminate. }
  specialize (Hd a b Hab).
  destruct Ht as [->|[->|[->|[n ->]]]]; cbn [decode] in H; unfold dec_vec, dec_set, dec_sized_slice, dbind in H; rewrite He in H; unfold dmap, dbind in H.
  - destruct (dec_items _ _ _ _) as [x2 [vs|e2|p2]] eqn:E2; [discriminate | | discriminate].
    injection H as <- <-. destruct (@dec_items_err _ _ _ _ _ _ E2) as (k & e' & -> & Hk & Hf). right. exists k, e', (Z.to_nat (b2z a + 256 * b2z b)). auto.
  - destruct (dec_items _ _ _ _) as [x2 [vs|e2|p2]] eqn:E2; [discriminate | | discriminate].
    injection H as <- <-. destruct (@dec_items_err _ _ _ _ _ _ E2) as (k & e' & -> & Hk & Hf). right. exists k, e', (Z.to_nat (b2z a + 256 * b2z b)). auto.
  - destruct (dec_keys _ _ _ _ _) as [x2 [vs|e2|p2]] eqn:E2; [discriminate | | discriminate].
    injection H as <- <-. destruct (@dec_keys_err _ _ _ _ _ _ _ E2) as (k & e' & -> & Hk & Hf). right. exists k, e', (Z.to_nat (b2z a + 256 * b2z b)). auto.
  - destruct (n <? Z.to_nat (b2z a + 256 * b2z b)) eqn:El.
    + injection H as <- <-. left. exists n, (Z.to_nat (b2z a + 256 * b2z b)). repeat split; [lia | exact Hd].
    + destruct (dec_items _ _ _ _) as [x2 [vs|e2|p2]] eqn:E2; [discriminate | | discriminate].
      injection H as <- <-. destruct (@dec_items_err _ _ _ _ _ _ E2) as (k & e' & -> & Hk & Hf). right. exists k, e', n.
      split; [reflexivity|]. split; [exact Hk|]. split; [|exact Hf]. right. exists (Z.to_nat (b2z a + 256 * b2z b)). repeat split; [exact Hd | lia].
Qed.

Lemma C14_equal_lemma ch l o o' tail : Forall (fun p => wt (fst p) (snd p) /\ RoundTrips (fst p) (snd p) /\ lossless (snd p) = true) l ->
  output_position o <= output_capacity o -> encode_list ch l o = (o', Ok tt) ->
  exists vs, decode_list (map fst l) (Input (output_as_slice o' ++ tail) (output_position o)) =
    (Input (output_as_slice o' ++ tail) (output_position o'), Ok vs) /\ map erase vs = map (fun p => erase (snd p)) l.
Proof.
  intros Hl Hw He. exists (map (fun p => norm (snd p)) l). split.
  - apply (@C14_lemma ch l o o' tail); [|exact Hw|exact He]. eapply Forall_impl; [|exact Hl]. cbn beta. tauto.
  - rewrite map_map. apply map_ext_in. intros p Hp. rewrite Forall_forall in Hl. apply erase_norm. apply Hl. exact Hp.
Qed.
