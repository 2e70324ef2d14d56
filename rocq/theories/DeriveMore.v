(* C40: the derived constant bounds the encodings; C41: causes of decoding errors. *)
From Coq Require Import Lia ZifyBool ZifyNat ZifyN.
From Verif Require Import Base BaseFacts Streams StreamFacts Utf8 Types TypesFacts Traits Encode Decode Sized Spec SpecCalls SpecDecode SpecSize SpecDerive
  EncodeFacts WireFacts EncodeProofs SizeProofs DeriveProofs.
Set Implicit Arguments.

Lemma bounded_fields ch ts ns vs bss : Forall2 (Bounded ch) ts ns -> Forall2 wt ts vs -> FieldBytes ch ts vs bss ->
  (N.of_nat (length (concat bss)) <= sum ns)%N.
Proof.
  intros H. revert vs bss. induction H as [|t n ts ns Hb H IH]; intros vs bss Hw Hf; inversion Hf; subst; inversion Hw; subst.
  - cbn. lia.
  - cbn [concat sum fold_right]. change (fold_right N.add 0%N ns) with (sum ns). rewrite app_length.
    match goal with Ha : Appends _ ?b _, Hv : wt t ?v |- _ => pose proof (Hb v b Hv Ha) end.
    match goal with Hx : Forall2 wt ts ?vs, Hy : FieldBytes _ ts ?vs ?bs |- _ => specialize (IH vs bs Hx Hy) end. lia.
Qed.

Lemma C40_struct_bound_lemma ch ts ns : Forall2 (Bounded ch) ts ns -> Bounded ch (TStruct ts) (sum ns).
Proof.
  intros H v bs Hv Ha. destruct v; try contradiction. cbn [wt] in Hv. apply all2_forall2 in Hv.
  apply C37_encode_lemma in Ha. destruct Ha as (bss & Hf & ->). eapply bounded_fields; eassumption.
Qed.

Lemma largest_ge l x : In x l -> (x <= largest l)%N.
Proof.
  induction l as [|y l IH]; intros H; [contradiction|]. cbn [largest fold_right]. change (fold_right N.max 0%N l) with (largest l).
  destruct H as [->|H]; [lia|]. specialize (IH H). lia.
Qed.

Lemma C40_enum_bound_lemma ch r vs nss : Forall2 (fun x ns => Forall2 (Bounded ch) (snd x) ns) vs nss ->
  Bounded ch (TEnum r vs) (int_size r + largest (map sum nss)).
Proof.
  intros H v bs Hv Ha. destruct v; try contradiction. cbn [wt] in Hv. destruct Hv as [Hok Hv].
  apply C39_encode_lemma in Ha; [|exact Hok]. destruct Ha as (e & ts & d & db & bss & Hk & Has & Hwi & Hf & ->).
  rewrite (nth_error_map_some (fun x => map wt (snd x)) _ _ Hk) in Hv. cbn [snd] in Hv. apply all2_forall2 in Hv.
  assert (Hx : exists ns, In ns nss /\ Forall2 (Bounded ch) ts ns).
  { clear - H Hk. revert i Hk. induction H as [|[e' ts'] m vs nss H1 H IH]; intros [|k] Hk; cbn [nth_error] in *; try discriminate.
    - injection Hk as -> ->. exists m. split; [left; reflexivity | exact H1].
    - destruct (IH _ Hk) as (ns & Hi & Hb). exists ns. split; [right; exact Hi | exact Hb]. }
  destruct Hx as (ns & Hi & Hb). pose proof (bounded_fields Hb Hv Hf). pose proof (wireint_len Hwi).
  pose proof (@largest_ge (map sum nss) (sum ns) (in_map sum _ _ Hi)). rewrite app_length. lia.
Qed.

Lemma droot_exists z e : DOf z e -> into_generic_dety z = true ->
  exists c, DWithin c e /\ ((exists g, DRoot c g) \/ exists r d, c = DUnassigned r d).
Proof.
  induction 1; cbn [into_generic_dety]; intros Hg; try discriminate;
    try (eexists; split; [apply DW_here | solve [left; eexists; constructor | right; eexists; eexists; reflexivity]]).
  - apply andb_prop in Hg. destruct (IHDOf (proj1 Hg)) as (c & Hw & Hc). exists c. split; [constructor; exact Hw | exact Hc].
  - apply andb_prop in Hg. destruct (IHDOf (proj2 Hg)) as (c & Hw & Hc). exists c. split; [constructor; exact Hw | exact Hc].
  - apply andb_prop in Hg. destruct (IHDOf (proj2 Hg)) as (c & Hw & Hc). exists c. split; [constructor; exact Hw | exact Hc].
  - destruct d; [|discriminate]. destruct (IHDOf Hg) as (c & Hw & Hc). exists c. split; [constructor; exact Hw | exact Hc].
Qed.

Lemma C38_written_lemma ch r vs k fs bs : enum_ok r vs -> Appends (encode ch (TEnum r vs) (VEnum k fs)) bs (Ok tt) ->
  exists d db rest, Assigned (map fst vs) k d /\ WireInt r d db /\ bs = db ++ rest.
Proof.
  intros Hok Ha. apply C39_encode_lemma in Ha; [|exact Hok]. destruct Ha as (e & ts & d & db & bss & Hn & Has & Hdb & _ & ->).
  exists d, db, (concat bss). repeat split; assumption.
Qed.
