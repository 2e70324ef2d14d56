(* C73, C74: encoding decoded values again, and machines with pointers of different sizes. *)
From Coq Require Import Lia.
From Verif Require Import Base Streams Utf8 Types TypesFacts Traits Encode Decode BaseFacts Spec SpecCalls SpecDecode SpecPortable WireFacts
  EncodeFacts EncodeCases AcceptFacts EncodeProofs DecodeProofs RoundTrip ValueProofs.
Set Implicit Arguments.
Local Open Scope Z_scope.

Lemma wireint_fits i z bs : WireInt i z bs -> int_fits i z.
Proof. destruct 1 as [[]| |]; cbn; try lia; exact I || congruence. Qed.

Lemma owned_representable t v : Representable (owned t) v <-> Representable t v.
Proof. destruct t; reflexivity. Qed.

Lemma assigned_unique vs i d d' : Assigned vs i d -> Assigned vs i d' -> d = d'.
Proof.
  intros H. revert d'. induction H as [i d Hn|Hn|i d Hn H IH]; intros d' H'; inversion H'; subst; try congruence.
  f_equal. auto.
Qed.

Lemma accepts_representable_all :
  (forall t bs v, Accepts t bs v -> Representable t v) /\
  (forall ts bs vs, AcceptsFields ts bs vs -> all2 (map Representable ts) vs) /\
  (forall t bs vs, AcceptsItems t bs vs -> Forall (Representable t) vs) /\
  (forall k v bs l, AcceptsEntries k v bs l -> Forall (fun p => Representable k (fst p) /\ Representable v (snd p)) l).
Proof.
  apply (@Accepts_mutind
    (fun t bs v _ => Representable t v) (fun ts bs vs _ => all2 (map Representable ts) vs)
    (fun t bs vs _ => Forall (Representable t) vs)
    (fun k v bs l _ => Forall (fun p => Representable k (fst p) /\ Representable v (snd p)) l));
    intros; cbn [Representable map all2];
    repeat match goal with H : WireLen _ _ |- _ => destruct H as [? _] end;
    try assumption; try (split; assumption); try exact I; try (constructor; auto; fail).
  - apply (wireint_fits w).
  - apply (wireint_fits w).
  - split.
    + intros d' Hd. rewrite (assigned_unique Hd a). apply (wireint_fits w).
    + rewrite (nth_error_map_some (fun x => map Representable (snd x)) _ _ e1). exact H.
  - split.
    + pose proof (firstn_le_length len vs). rewrite firstn_length. lia.
    + apply Forall_forall. intros x Hx. rewrite Forall_forall in H. apply H.
      rewrite <- (firstn_skipn len vs), in_app_iff. left. exact Hx.
  - eapply putall_forall; [exact p | constructor|]. assumption.
  - eapply addall_forall; [exact a0 | constructor|]. assumption.
  - apply owned_representable. assumption.
Qed.
Lemma accepts_representable t bs v : Accepts t bs v -> Representable t v.
Proof. apply (proj1 accepts_representable_all). Qed.

(* a decoded value is in normal form *)
Lemma accepts_norm_all :
  (forall t bs v, Accepts t bs v -> norm v = v) /\
  (forall ts bs vs, AcceptsFields ts bs vs -> Forall (fun v => norm v = v) vs) /\
  (forall t bs vs, AcceptsItems t bs vs -> Forall (fun v => norm v = v) vs) /\
  (forall k v bs l, AcceptsEntries k v bs l -> Forall (fun p => norm (fst p) = fst p /\ norm (snd p) = snd p) l).
Proof.
  assert (Hm : forall vs, Forall (fun v => norm v = v) vs -> map norm vs = vs).
  { induction 1 as [|v vs Hv _ IH]; cbn [map]; congruence. }
  apply (@Accepts_mutind
    (fun t bs v _ => norm v = v) (fun ts bs vs _ => Forall (fun v => norm v = v) vs)
    (fun t bs vs _ => Forall (fun v => norm v = v) vs)
    (fun k v bs l _ => Forall (fun p => norm (fst p) = fst p /\ norm (snd p) = snd p) l));
    intros; cbn [norm]; try reflexivity; try congruence; try (rewrite Hm by assumption; reflexivity); try (constructor; auto; fail).
  - rewrite Hm; [reflexivity|]. apply Forall_forall. intros x Hx. rewrite Forall_forall in H. apply H.
    rewrite <- (firstn_skipn len vs), in_app_iff. left. exact Hx.
  - assert (Hk : Forall (fun p => norm (fst p) = fst p /\ norm (snd p) = snd p) m).
    { eapply putall_forall; [exact p | constructor|]. assumption. }
    f_equal. clear - Hk. induction Hk as [|[a b] m [Ha Hb] _ IH]; cbn [map fst snd] in *; congruence.
  - rewrite Hm; [reflexivity|]. eapply addall_forall; [exact a0 | constructor|]. assumption.
  - unfold time_ns. rewrite Z.add_0_r, Z.quot_mul by lia. reflexivity.
Qed.

Lemma C73_lemma ch t i i' v : EnumsOk t -> char_free t = true -> ch = false \/ has_lowest_second v = false ->
  in_bounds i -> decode t i = (i', Ok v) ->
  exists bs, Appends (encode ch t v) bs (Ok tt) /\ (RoundTrips t v -> Yields (decode t) bs v).
Proof.
  intros Hok Hc Hl Hb Hd. destruct (@decode_exact t i i' v Hok Hb Hd) as (bs & post & _ & _ & Ha).
  pose proof (accepts_wt Ha Hc) as Hv.
  destruct (@C10_lemma ch t v Hv Hl) as (bs' & [(Hr & He) | (Hr & _)]); [|destruct (Hr (accepts_representable Ha))].
  exists bs'. split; [exact He|]. intros Hrt.
  pose proof (@appends_wire ch t v bs' Hv He) as Hw.
  pose proof (round_trip Hw Hv Hrt) as Hp. rewrite (proj1 accepts_norm_all _ _ _ Ha) in Hp. exact Hp.
Qed.

Lemma int_fits_on b i z : 16 <= b -> int_fits i z -> int_on b i z.
Proof.
  intros Hb. pose proof (Z.pow_le_mono_r 2 16 b). pose proof (Z.pow_le_mono_r 2 15 (b - 1)).
  destruct i; cbn; trivial; change (2 ^ 16) with 65536 in *; change (2 ^ 15) with 32768 in *; lia.
Qed.

Lemma all2_weaken {A} (f g : ty -> A -> Prop) ts : Forall (fun t => forall v, f t v -> g t v) ts ->
  forall vs, all2 (map f ts) vs -> all2 (map g ts) vs.
Proof. induction 1 as [|t ts Ht _ IH]; intros [|v vs]; cbn [map all2]; intuition. Qed.

Lemma representable_on b t : 16 <= b -> forall v, Representable t v -> IntsOn b t v.
Proof.
  intros Hb. induction t using ty_ind_strong; intros v Hr; destruct v; cbn [Representable IntsOn] in *; try exact I; try tauto;
    try (eapply Forall_impl; [|exact (proj2 Hr)]; intros ?; auto; fail);
    try (eapply Forall_impl; [|exact Hr]; intros ?; auto; fail);
    try (apply (all2_weaken Representable _ H); exact Hr);
    try (intuition auto; fail); try (apply int_fits_on; assumption).
  - eapply Forall_impl; [|exact Hr]. intros [x y] [H1 H2]. auto.
  - destruct Hr as [_ Hr]. rewrite nth_error_map in *. destruct (nth_error vs i) as [x|] eqn:Hx; cbn [option_map] in *; [|exact Hr].
    rewrite Forall_forall in H. apply (all2_weaken Representable _ (H x (nth_error_In _ _ Hx))). exact Hr.
Qed.

Lemma C74_read_lemma b t i i' v : 16 <= b -> EnumsOk t -> in_bounds i -> decode t i = (i', Ok v) -> IntsOn b t v.
Proof.
  intros Hb Hok Hi Hd. destruct (@decode_exact t i i' v Hok Hi Hd) as (bs & post & _ & _ & Ha).
  apply representable_on; [exact Hb|]. apply (accepts_representable Ha).
Qed.

Lemma wt_norm_accepts ch t v bs : wt t v -> RoundTrips t v -> Appends (encode ch t v) bs (Ok tt) -> Yields (decode t) bs (norm v).
Proof. intros Hv Hr He. apply (round_trip (@appends_wire ch t v bs Hv He) Hv Hr). Qed.

Lemma C74_lemma ch b1 b2 t v bs : 16 <= b1 -> 16 <= b2 -> EnumsOk t -> char_free t = true ->
  wt_on b1 t v -> RoundTrips t v -> Appends (encode ch t v) bs (Ok tt) ->
  wt_on b2 t v /\ Yields (decode t) bs (norm v) /\ wt_on b2 t (norm v).
Proof.
  intros H1 H2 Hok Hc [Hv _] Hr He. pose proof (@wt_norm_accepts ch t v bs Hv Hr He) as Hy.
  pose proof (proj1 (@accepts_iff t Hok bs (norm v)) Hy) as Ha. split; [|split; [exact Hy|]].
  - split; [exact Hv|]. apply representable_on; [exact H2|].
    assert (Hw : Wire ch t v bs) by (apply appends_wire; assumption).
    destruct (good_all ch t v Hv) as [x Hx _ _ | ds e Hn Ht | ds _ _ Ht]; [exact Hx|exfalso..].
    + pose proof (appends_traces Ht He). intuition discriminate.
    + pose proof (appends_traces Ht He). intuition discriminate.
  - split; [apply (accepts_wt Ha Hc)|]. apply representable_on; [exact H2 | apply (accepts_representable Ha)].
Qed.

Lemma C74_write_lemma ch b t v bs : 16 <= b -> wt t v -> Appends (encode ch t v) bs (Ok tt) -> wt_on b t v.
Proof.
  intros Hb Hv He. split; [exact Hv|]. apply representable_on; [exact Hb|].
  destruct (good_all ch t v Hv) as [x Hx _ _ | ds e Hn Ht | ds _ _ Ht]; [exact Hx|exfalso..].
  - pose proof (appends_traces Ht He). intuition discriminate.
  - pose proof (appends_traces Ht He). intuition discriminate.
Qed.
