(* Proofs about collections, wrappers and single implementations. *)
From Coq Require Import Lia ZifyBool ZifyNat ZifyN.
From Verif Require Import Base BaseFacts Streams StreamFacts Utf8 Types TypesFacts Traits Encode Decode Spec SpecCalls
  EncodeFacts WireFacts EncodeCases DecodeFacts DecodeLocal RoundTrip EncodeProofs.
Set Implicit Arguments.

Lemma items_err ch t wrap vs : forall i cs e, Traces (enc_items (encode ch t) wrap i vs) cs (Err e) ->
  exists k e', FirstFailure ch t vs k e' (concat cs) /\ e = wrap (i + k) e'.
Proof.
  induction vs as [|v vs IH]; intros i cs e Ht; cbn [enc_items] in Ht.
  - destruct (traces_unique Ht T_eok) as [_ H]. discriminate.
  - destruct (encode_has_trace ch t v) as (ds & r & Hd). pose proof (T_map_err (wrap i) Hd) as Hm.
    destruct r as [[]|e'|p]; cbn [rmap_err] in Hm.
    + assert (Hrest : HasTrace (enc_items (encode ch t) wrap (S i) vs)).
      { apply HT_items, Forall_forall. intros x _. apply encode_has_trace. }
      destruct Hrest as (fs & q & Hf). destruct (traces_unique Ht (T_seq_ok Hm Hf)) as [Hc Hq]. subst q.
      destruct (IH _ _ _ Hf) as (k & e' & (pre & x & post & bss & b & -> & Hk & Hpre & Hx & Hbs) & ->).
      exists (S k), e'. split; [|f_equal; lia].
      exists (v :: pre), x, post, (concat ds :: bss), b. cbn [app length concat].
      split; [reflexivity|]. split; [lia|]. split; [constructor; [apply traces_appends; exact Hd | exact Hpre]|].
      split; [exact Hx|]. rewrite Hc, concat_app, Hbs, app_assoc. reflexivity.
    + destruct (traces_unique Ht (T_seq_stop _ Hm ltac:(discriminate))) as [Hc Hq]. injection Hq as ->.
      exists 0, e'. split; [|f_equal; lia]. exists [], v, vs, [], (concat ds). cbn [app length concat].
      split; [reflexivity|]. split; [reflexivity|]. split; [constructor|]. split; [|exact Hc].
      apply (traces_appends Hd).
    + destruct (traces_unique Ht (T_seq_stop _ Hm ltac:(discriminate))) as [_ Hq]. discriminate.
Qed.

Lemma appends_to_traces m bs r : HasTrace m -> Appends m bs r -> exists cs, Traces m cs r /\ concat cs = bs.
Proof. intros (cs & q & Ht) Ha. destruct (appends_traces Ht Ha) as [<- <-]. exists cs. auto. Qed.

Lemma slice_err ch t wrap vs bs e : (Z.of_nat (length vs) <= 65535)%Z ->
  Appends (enc_slice (encode ch t) wrap vs) bs (Err e) ->
  exists k e' lb ib, e = wrap k e' /\ bs = lb ++ ib /\ WireLen (length vs) lb /\ FirstFailure ch t vs k e' ib.
Proof.
  intros Hl Ha. assert (Hh : HasTrace (enc_slice (encode ch t) wrap vs)).
  { apply HT_slice. intros x. apply encode_has_trace. }
  destruct (appends_to_traces Hh Ha) as (cs & Ht & <-).
  set (lb := le_bytes 2 (Z.of_nat (length vs))).
  assert (Hlb : WireLen (length vs) lb) by (split; [exact Hl | apply le_repr_le_bytes]).
  destruct (S_len Hlb) as (ls & Hls & Hlse).
  assert (Hrest : HasTrace (enc_items (encode ch t) wrap 0 vs)).
  { apply HT_items, Forall_forall. intros x _. apply encode_has_trace. }
  destruct Hrest as (fs & q & Hf). destruct (traces_unique Ht (T_seq_ok Hls Hf)) as [Hc Hq]. subst q.
  destruct (@items_err ch t wrap vs _ _ _ Hf) as (k & e' & Hff & ->).
  exists k, e', lb, (concat fs). rewrite Hc, concat_app, Hlse. auto.
Qed.

Lemma array_err ch t n vs bs e : Appends (encode ch (TArray t n) (VSeq vs)) bs (Err e) ->
  exists k e', e = EItem k e' /\ FirstFailure ch t vs k e' bs.
Proof.
  intros Ha. destruct (appends_to_traces (encode_has_trace _ _ _) Ha) as (cs & Ht & <-).
  destruct (@items_err ch t EItem vs _ _ _ Ht) as (k & e' & Hff & ->). exists k, e'. auto.
Qed.

Lemma slice_too_long ch t wrap vs : (65535 < Z.of_nat (length vs))%Z ->
  Appends (enc_slice (encode ch t) wrap vs) [] (Err (ELen (EUsize (Z.of_nat (length vs))))).
Proof.
  intros Hl. change (@nil byte) with (@concat byte []). apply traces_appends. apply T_seq_stop; [|discriminate].
  change (Err (ELen (EUsize (Z.of_nat (length vs))))) with (rmap_err ELen (Err (EUsize (Z.of_nat (length vs))))).
  apply T_map_err. unfold enc_usize. replace ((0 <=? Z.of_nat (length vs)) && (Z.of_nat (length vs) <? 65536))%Z with false by lia.
  apply T_eerror.
Qed.

(* decoding *)
Lemma dec_items_err t n : forall i x x' e, dec_items (decode t) n i x = (x', Err e) ->
  exists k e', e = DItem (i + k) e' /\ k < n /\ DecodeFailure t x k e' x'.
Proof.
  induction n as [|n IH]; intros i x x' e H; cbn [dec_items] in H; [discriminate|].
  unfold dbind, dmap_err in H. destruct (decode t x) as [x1 [v|e1|p1]] eqn:E1.
  - unfold dmap, dbind in H. destruct (dec_items (decode t) n (S i) x1) as [x2 [vs|e2|p2]] eqn:E2; [discriminate | | discriminate].
    injection H as <- <-. destruct (IH _ _ _ _ E2) as (k & e' & -> & Hk & (ws & y & Hl & Hd & He)).
    exists (S k), e'. split; [f_equal; lia|]. split; [lia|]. exists (v :: ws), y. cbn [length repeat decode_list].
    split; [lia|]. split; [|exact He]. unfold dbind. rewrite E1, Hd. reflexivity.
  - injection H as <- <-. exists 0, e1. split; [f_equal; lia|]. split; [lia|]. exists [], x. cbn [length repeat decode_list].
    split; [reflexivity|]. split; [reflexivity | exact E1].
  - discriminate.
Qed.

Lemma dec_usize_cases i : wf_in i ->
  (exists a b, firstn 2 (unread i) = [a; b] /\ dec_usize i = (Input (i_buf i) (i_pos i + 2), Ok (b2z a + 256 * b2z b)%Z)) \/
  (exists e, dec_usize i = (i, Panic (PInput e))).
Proof.
  intros Hw. unfold dec_usize, dec_unsigned, dmap, dbind. rewrite dread_into_read.
  change (unread i) with (rest i).
  destruct (Nat.leb_spec 2 (length (rest i))) as [H|H].
  - left. rewrite dread_ok by assumption. destruct (rest i) as [|a [|b r]] eqn:E; cbn in H; try lia.
    exists a, b. cbn [firstn]. split; [reflexivity|]. cbn [of_le]. unfold dok. f_equal. f_equal. lia.
  - right. rewrite dread_short by assumption. eexists. reflexivity.
Qed.

Lemma dec_array_err t n i i' e : decode (TArray t n) i = (i', Err e) ->
  exists k e', e = DItem k e' /\ k < n /\ DecodeFailure t i k e' i'.
Proof.
  intros H. cbn [decode] in H. unfold dmap, dbind in H.
  destruct (dec_items (decode t) n 0 i) as [x2 [vs|e2|p2]] eqn:E2; [discriminate | | discriminate].
  injection H as <- <-. destruct (@dec_items_err _ _ _ _ _ _ E2) as (k & e' & -> & Hk & Hf). exists k, e'. auto.
Qed.

(* ---- wrappers *)

(* the value's error, as the containers around it present it: only RefCell adds a layer *)
Lemma wrapped_encode ch t v t' v' : Wrapped t v t' v' ->
  exists f, forall o, encode ch t' v' o = emap_err f (encode ch t v) o.
Proof.
  induction 1 as [ | w t' v' H (f & IH) | b t' v' H (f & IH) | t' v' H (f & IH) | l p t' v' H (f & IH) | t' v' H (f & IH)].
  - exists (fun e => e). intros o. unfold emap_err. destruct (encode ch t v o) as [o' [[]|e|p]]; reflexivity.
  - exists f. exact IH.
  - exists f. exact IH.
  - exists (fun e => EBadValue (f e)). intros o. cbn [encode]. unfold enc_refcell, emap_err at 1. rewrite IH. unfold emap_err.
    destruct (encode ch t v o) as [o' [[]|e|p]]; reflexivity.
  - exists f. exact IH.
  - exists f. intros o. cbn [encode map enc_fields]. unfold eseq, emap_err at 1. rewrite IH. unfold emap_err.
    destruct (encode ch t v o) as [o' [[]|e|p]]; reflexivity.
Qed.

(* the bytes written and the outcome are the same; only the error may be presented in more layers *)
Lemma wrapped_outcome ch t v t' v' : Wrapped t v t' v' -> forall o,
  fst (encode ch t' v' o) = fst (encode ch t v o) /\
  match snd (encode ch t v o) with
  | Ok _ => snd (encode ch t' v' o) = Ok tt
  | Err e => exists e', snd (encode ch t' v' o) = Err e'
  | Panic p => snd (encode ch t' v' o) = Panic p
  end.
Proof.
  intros H o. destruct (wrapped_encode ch H) as (f & Hf). rewrite Hf. unfold emap_err.
  destruct (encode ch t v o) as [o1 [[]|e|p]]; cbn [fst snd]; eauto.
Qed.
