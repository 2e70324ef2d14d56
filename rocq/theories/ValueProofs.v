(* Proofs of C13 (equality of the decoded value), C17 (all types without hash tables), C32 (decoding) and C33. *)
From Coq Require Import Lia ZifyBool ZifyNat ZifyN.
From Verif Require Import Base BaseFacts Streams StreamFacts Utf8 Types Traits Encode Decode TypesFacts Spec SpecCalls SpecDecode SpecValues
  EncodeFacts WireFacts RoundTrip EncodeProofs AcceptFacts DecodeProofs.
Set Implicit Arguments.
Local Open Scope Z_scope.

Lemma map_forall_eq {A B} (f g : A -> B) (p : A -> bool) l :
  Forall (fun x => p x = true -> f x = g x) l -> forallb p l = true -> map f l = map g l.
Proof.
  induction 1 as [|x l Hx Hl IH]; cbn [forallb map]; intros H; [reflexivity|].
  apply andb_true_iff in H. destruct H. f_equal; auto.
Qed.

Lemma erase_norm v : lossless v = true -> erase (norm v) = erase v.
Proof.
  induction v using val_ind_strong; cbn [lossless norm erase]; intros Hl; try reflexivity; try (f_equal; auto; fail).
  - rewrite map_map. f_equal. apply (map_forall_eq _ _ _ H Hl).
  - rewrite map_map. f_equal. apply (map_forall_eq _ _ _ H Hl).
  - apply Z.eqb_eq in Hl. subst n. unfold time_ns. rewrite Z.add_0_r, Z.quot_mul by lia. reflexivity.
  - apply andb_true_iff in Hl. destruct Hl. f_equal; auto.
  - apply andb_true_iff in Hl. destruct Hl as [Hl He]. apply andb_true_iff in Hl. destruct Hl.
    destruct e; [discriminate|]. f_equal; auto.
  - rewrite map_map. cbn [fst snd]. f_equal.
    apply map_forall_eq with (p := fun p => lossless (fst p) && lossless (snd p)); [|exact Hl].
    eapply Forall_impl; [|exact H]. cbn beta. intros [a b] [Ha Hb] Hab. cbn [fst snd] in *.
    apply andb_true_iff in Hab. destruct Hab. f_equal; auto.
  - rewrite map_map. f_equal. apply (map_forall_eq _ _ _ H Hl).
  - rewrite map_map. f_equal. apply (map_forall_eq _ _ _ H Hl).
Qed.

Lemma C13_equal_lemma ch t v o o' bs : wt t v -> RoundTrips t v -> lossless v = true ->
  (output_position o <= output_capacity o)%nat -> encode ch t v o = (o', Ok tt) -> output_as_slice o' = output_as_slice o ++ bs ->
  exists v', Yields (decode t) bs v' /\ erase v' = erase v.
Proof.
  intros Hv Hr Hl Hw He Hs. exists (norm v). split; [|apply erase_norm; exact Hl].
  apply (@C13_lemma ch t v o o' bs); try assumption.
Qed.

(* ---- C17 *)

(* the type whose decoder reads every encoding of [t] *)
Fixpoint carrier (t : ty) : ty :=
  match t with
  | TSlice t | TSizedSlice t _ | TVec t => TVec (carrier t)
  | TStr => TString
  | TCStr => TCString
  | TOption t => TOption (carrier t)
  | TResult a b => TResult (carrier a) (carrier b)
  | TTuple ts => TTuple (map carrier ts)
  | TArray t n => TArray (carrier t) n
  | TLinked t => TLinked (carrier t)
  | TWrap w t => TWrap w (carrier t)
  | TCow t => TCow (carrier t)
  | TRefCell t => TRefCell (carrier t)
  | TLock l t => TLock l (carrier t)
  | TRange t => TRange (carrier t)
  | TRangeFrom t => TRangeFrom (carrier t)
  | TRangeInclusive t => TRangeInclusive (carrier t)
  | TRangeTo t => TRangeTo (carrier t)
  | TRangeToInclusive t => TRangeToInclusive (carrier t)
  | TBound t => TBound (carrier t)
  | THashMap k v => THashMap (carrier k) (carrier v)
  | THashSet k => THashSet (carrier k)
  | TStruct ts => TStruct (map carrier ts)
  | TEnum r vs => TEnum r (map (fun x => (fst x, map carrier (snd x))) vs)
  | _ => t
  end.

Lemma carrier_fst (vs : list (option Z * list ty)) : map fst (map (fun x => (fst x, map carrier (snd x))) vs) = map fst vs.
Proof. rewrite map_map. reflexivity. Qed.

Lemma wire_carrier_all ch :
  (forall t v bs, Wire ch t v bs -> Wire ch (carrier t) v bs) /\
  (forall ts vs bs, WireFields ch ts vs bs -> WireFields ch (map carrier ts) vs bs) /\
  (forall t vs bs, WireItems ch t vs bs -> WireItems ch (carrier t) vs bs) /\
  (forall k v kvs bs, WireEntries ch k v kvs bs -> WireEntries ch (carrier k) (carrier v) kvs bs).
Proof.
  apply (@Wire_mutind ch
    (fun t v bs _ => Wire ch (carrier t) v bs) (fun ts vs bs _ => WireFields ch (map carrier ts) vs bs)
    (fun t vs bs _ => WireItems ch (carrier t) vs bs) (fun k v kvs bs _ => WireEntries ch (carrier k) (carrier v) kvs bs));
    intros; cbn [carrier map]; try (constructor; assumption).
  econstructor; [| |eassumption|eassumption].
  - rewrite (nth_error_map_some (fun x => (fst x, map carrier (snd x))) _ _ e0). reflexivity.
  - rewrite carrier_fst. assumption.
Qed.

Lemma all2_map_impl {A B} (f : A -> B -> Prop) (g : A -> A) ts : Forall (fun t => forall v, f t v -> f (g t) v) ts ->
  forall vs, all2 (map f ts) vs -> all2 (map f (map g ts)) vs.
Proof. induction 1; intros [|v vs]; cbn [map all2]; try tauto. intros [? ?]. split; auto. Qed.

Lemma wt_carrier t : forall v, wt t v -> wt (carrier t) v.
Proof.
  assert (HF : forall t vs, (forall v, wt t v -> wt (carrier t) v) -> Forall (wt t) vs -> Forall (wt (carrier t)) vs).
  { intros t' vs H. apply Forall_impl. exact H. }
  induction t using ty_ind_strong; intros v Hv; destruct v; cbn [carrier wt] in *; try contradiction; try assumption;
    try (apply IHt; assumption); try tauto; try (split; [tauto|]);
    try (apply HF; [assumption|tauto]); try (apply IHt2; assumption); try (apply IHt1; assumption);
    try (destruct Hv; split; auto; fail).
  - eapply all2_map_impl; eassumption.
  - destruct Hv as [_ Hv]. eapply Forall_impl; [|exact Hv]. cbn beta. intros [a b] [Ha Hb]. cbn [fst snd] in *. auto.
  - eapply all2_map_impl; eassumption.
  - destruct Hv as [Hok Hv]. split; [unfold enum_ok in *; rewrite carrier_fst; exact Hok|]. rewrite !map_map. cbn [snd].
    destruct (nth_error (map (fun x => map wt (snd x)) vs) i) as [ps|] eqn:E; [|contradiction].
    apply nth_error_map_inv in E. destruct E as (x & Ex & ->).
    rewrite (nth_error_map_some (fun x => map wt (map carrier (snd x))) _ _ Ex).
    rewrite Forall_forall in H. eapply all2_map_impl; [|exact Hv]. apply (H _ (nth_error_In _ _ Ex)).
Qed.

Lemma rt_all2 ts : Forall (fun t => contains is_hash t = false -> forall v, wt t v -> RoundTrips (carrier t) v) ts ->
  existsb (contains is_hash) ts = false -> forall vs, all2 (map wt ts) vs -> all2 (map RoundTrips (map carrier ts)) vs.
Proof.
  induction 1 as [|t ts Ht Hts IH]; intros Hc [|v vs]; cbn [map all2 existsb] in *; try tauto.
  apply orb_false_iff in Hc. intros [? ?]. split; [apply Ht; tauto | apply IH; tauto].
Qed.

Lemma rt_carrier t : contains is_hash t = false -> forall v, wt t v -> RoundTrips (carrier t) v.
Proof.
  assert (HF : forall t vs, (forall v, wt t v -> RoundTrips (carrier t) v) -> Forall (wt t) vs -> Forall (RoundTrips (carrier t)) vs).
  { intros t' vs H. apply Forall_impl. exact H. }
  induction t using ty_ind_strong; intros Hc v Hv; cbn [contains is_hash orb] in Hc; try discriminate;
    destruct v; cbn [wt] in Hv; try contradiction; cbn [carrier RoundTrips]; try exact I;
    repeat match goal with H : _ || _ = false |- _ => apply orb_false_iff in H; destruct H end;
    try (apply IHt; assumption); try (apply IHt1; assumption); try (apply IHt2; assumption); try (apply HF; [auto | tauto]);
    try (destruct Hv; split; apply IHt; assumption).
  - apply rt_all2; assumption.
  - specialize (IHt Hc _ Hv). destruct t; cbn [carrier] in IHt |- *; exact IHt.
  - apply rt_all2; assumption.
  - destruct Hv as [_ Hv]. rewrite !map_map. cbn [snd].
    destruct (nth_error (map (fun x => map wt (snd x)) vs) i) as [ps|] eqn:E; [|contradiction].
    apply nth_error_map_inv in E. destruct E as (x & Ex & ->).
    rewrite (nth_error_map_some (fun x => map RoundTrips (map carrier (snd x))) _ _ Ex).
    rewrite Forall_forall in H. pose proof (nth_error_In _ _ Ex) as Hin. apply rt_all2; [apply (H _ Hin) | | exact Hv].
    destruct (existsb (contains is_hash) (snd x)) eqn:Ex'; [|reflexivity].
    assert (existsb (fun x => existsb (contains is_hash) (snd x)) vs = true) by (apply existsb_exists; exists x; auto). congruence.
Qed.

Lemma appends_wire ch t v bs : wt t v -> Appends (encode ch t v) bs (Ok tt) -> Wire ch t v bs.
Proof.
  intros Hv Ha. pose proof (Ha (big_out (length bs)) (big_wf _)) as H. unfold output_remaining, output_capacity, output_position in H.
  cbn [big_out o_buf o_pos] in H. rewrite repeat_length, Nat.sub_0_r in H.
  apply (@C06_lemma ch t v (big_out (length bs)) bs Hv (big_wf _)). apply H. lia.
Qed.

Lemma C17_hashless_lemma ch t v1 v2 b1 s : wt t v1 -> wt t v2 -> contains is_hash t = false ->
  Appends (encode ch t v1) b1 (Ok tt) -> Appends (encode ch t v2) (b1 ++ s) (Ok tt) -> s = [] /\ norm v1 = norm v2.
Proof.
  intros Hv1 Hv2 Hc H1 H2. apply appends_wire in H1; [|exact Hv1]. apply appends_wire in H2; [|exact Hv2].
  apply (@C17_lemma ch (carrier t) v1 v2 b1 s); try (apply rt_carrier; assumption); try (apply wt_carrier; assumption);
    apply succeeds_appends, wire_succeeds; try (apply wt_carrier; assumption); apply wire_carrier_all; assumption.
Qed.

Lemma C17_equal_lemma ch t v1 v2 b1 s : wt t v1 -> wt t v2 -> contains is_hash t = false ->
  lossless v1 = true -> lossless v2 = true ->
  Appends (encode ch t v1) b1 (Ok tt) -> Appends (encode ch t v2) (b1 ++ s) (Ok tt) -> s = [] /\ erase v1 = erase v2.
Proof.
  intros Hv1 Hv2 Hc Hl1 Hl2 H1 H2. destruct (@C17_hashless_lemma ch t v1 v2 b1 s Hv1 Hv2 Hc H1 H2) as [Hs Hn]. split; [exact Hs|].
  rewrite <- (erase_norm v1 Hl1), <- (erase_norm v2 Hl2). f_equal. exact Hn.
Qed.

(* ---- C32 *)

Lemma dmap_run {A B} (f : A -> B) m i :
  dmap f m i = match m i with (i', Ok a) => (i', Ok (f a)) | (i', Err e) => (i', Err e) | (i', Panic p) => (i', Panic p) end.
Proof. unfold dmap, dbind. destruct (m i) as [i' [a|e|p]]; reflexivity. Qed.

Lemma C32_decode_lemma t i i' r : decode t i = (i', r) ->
  (forall w, decode (TWrap w t) i = (i', rmap VWrap r)) /\
  decode (TRefCell t) i = (i', rmap (VRefCell false) r) /\
  (forall l, decode (TLock l t) i = (i', rmap (VLock false) r)) /\
  decode (TTuple [t]) i = (i', rmap (fun v => VTuple [v]) r).
Proof.
  intros H. cbn [decode map dec_fields]. repeat split; intros;
    unfold dmap, dbind, dmap_err, dok, rmap; rewrite H; destruct r; reflexivity.
Qed.

Lemma C32_cow_lemma t i i' r : decode (owned t) i = (i', r) -> decode (TCow t) i = (i', rmap (VCow true) r).
Proof. intros H. cbn [decode]. rewrite dmap_run, decode_owned, H. destruct r; reflexivity. Qed.

(* ---- C33 *)

Lemma C33_lemma ch o b mk v bs : Borrows o b mk -> wt b v -> RoundTrips o (mk v) -> fills o (mk v) ->
  Appends (encode ch b v) bs (Ok tt) -> Yields (decode o) bs (norm (mk v)).
Proof.
  intros Hb Hv Hr Hf Ha. apply appends_wire in Ha; [|exact Hv].
  destruct Hb; (apply (@round_trip ch); [| |exact Hr]); try exact Hv; try exact Ha; try (constructor; exact Ha);
    inversion Ha; subst; cbn [fills] in Hf; cbn [wt] in *; try (constructor; assumption).
  - constructor; [lia|assumption|assumption].
  - split; [lia | assumption].
Qed.

Lemma C33_long_lemma ch n s bs : wt TStr (VStr s) -> (n < length s)%nat -> Appends (encode ch TStr (VStr s)) bs (Ok tt) ->
  Refuses (decode (TSizedStr n)) bs (DLen (DLength n (length s))).
Proof.
  intros Hv Hn Ha. apply appends_wire in Ha; [|exact Hv]. inversion Ha; subst. cbn [decode]. unfold dec_sized_str.
  eapply R_bind; [apply P_len; eassumption|]. rewrite Nat2Z.id. eapply R_bind_last; [apply P_read|].
  intros pre post. unfold sized_from_utf8. replace (n <? length s)%nat with true by lia. rewrite dmap_run. unfold dlift.
  rewrite Nat.add_0_r. reflexivity.
Qed.
