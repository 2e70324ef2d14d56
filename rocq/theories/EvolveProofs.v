(* Adding variants behind the existing ones: C80. *)
From Coq Require Import Lia.
From Verif Require Import Base Streams Utf8 Types Traits Encode Decode Spec SpecCalls SpecDecode SpecDerive SpecEvolve
  BaseFacts TypesFacts WireFacts AcceptFacts EncodeFacts EncodeProofs ValueProofs DecodeProofs DeriveProofs SizeProofs RoundTrip PortableProofs.
Set Implicit Arguments.

Scheme Extends_ind3 := Induction for Extends Sort Prop
with ExtendsAll_ind3 := Induction for ExtendsAll Sort Prop
with ExtendsVariants_ind3 := Induction for ExtendsVariants Sort Prop.
Combined Scheme Extends_mutind from Extends_ind3, ExtendsAll_ind3, ExtendsVariants_ind3.

Lemma extends_all_same ts : ExtendsAll ts ts.
Proof. induction ts; constructor; [constructor | assumption]. Qed.
Lemma extends_variants_same vs : ExtendsVariants vs vs.
Proof. induction vs as [|[d ts] vs IH]; constructor; [apply extends_all_same | assumption]. Qed.

Lemma variants_nth vs vs' : ExtendsVariants vs vs' -> forall i d ts, nth_error vs i = Some (d, ts) ->
  exists ts', nth_error vs' i = Some (d, ts') /\ ExtendsAll ts ts'.
Proof.
  induction 1 as [|d ts ts' vs vs' H1 H2 IH]; intros [|i] e us Hi; cbn [nth_error] in *; try discriminate; [|eauto].
  injection Hi as <- <-. eauto.
Qed.
Lemma variants_fst vs vs' : ExtendsVariants vs vs' -> map fst vs = map fst vs'.
Proof. induction 1; cbn [map fst]; congruence. Qed.

Lemma nth_app {A} (l m : list A) i x : nth_error l i = Some x -> nth_error (l ++ m) i = Some x.
Proof. intros H. rewrite nth_error_app1; [exact H|]. apply nth_error_Some. congruence. Qed.

Lemma assigned_app vs new i d : Assigned vs i d -> Assigned (vs ++ new) i d.
Proof. induction 1; [apply A_explicit | apply A_first | apply A_next]; try apply nth_app; assumption. Qed.

(* a part of a definition that compiles compiles *)
Lemma discriminants_from_app vs new : forall prev ds, discriminants_from prev (vs ++ new) = Some ds ->
  exists ds1 ds2, discriminants_from prev vs = Some ds1 /\ ds = ds1 ++ ds2.
Proof.
  induction vs as [|v vs IH]; intros prev ds H; [exists [], ds; split; reflexivity|].
  cbn [app discriminants_from] in *. destruct (next_discriminant prev v) as [d|]; [|discriminate].
  destruct (discriminants_from (Some d) (vs ++ new)) as [ds'|] eqn:E; [|discriminate]. cbn [option_map] in H. apply some_inj in H. subst ds.
  destruct (IH _ _ E) as (ds1 & ds2 & H1 & ->). exists (d :: ds1), ds2. rewrite H1. split; reflexivity.
Qed.
Lemma nodup_app {A} (a b : list A) : NoDup (a ++ b) -> NoDup a.
Proof.
  induction a as [|x a IH]; cbn [app]; intros H; [constructor|]. inversion H; subst. constructor; [|auto].
  intros Hi. apply H2. apply in_or_app. left. exact Hi.
Qed.
Lemma enum_ok_app r vs vs' new : map fst vs = map fst vs' -> enum_ok r (vs' ++ new) -> enum_ok r vs.
Proof.
  unfold enum_ok. intros -> H. rewrite map_app in H. destruct (discriminants (map fst vs' ++ map fst new)) as [ds|] eqn:E; [|contradiction].
  unfold discriminants in *. destruct (discriminants_from_app _ _ _ E) as (ds1 & ds2 & -> & ->). destruct H as [H1 H2].
  apply Forall_app in H1. split; [tauto | apply (nodup_app _ _ H2)].
Qed.

Lemma extends_enums :
  (forall t t', Extends t t' -> EnumsOk t' -> EnumsOk t) /\
  (forall ts ts', ExtendsAll ts ts' -> Forall EnumsOk ts' -> Forall EnumsOk ts) /\
  (forall vs vs', ExtendsVariants vs vs' -> Forall (fun x => Forall EnumsOk (snd x)) vs' -> Forall (fun x => Forall EnumsOk (snd x)) vs).
Proof.
  apply (@Extends_mutind
    (fun t t' _ => EnumsOk t' -> EnumsOk t)
    (fun ts ts' _ => Forall EnumsOk ts' -> Forall EnumsOk ts)
    (fun vs vs' _ => Forall (fun x => Forall EnumsOk (snd x)) vs' -> Forall (fun x => Forall EnumsOk (snd x)) vs));
    intros; cbn [EnumsOk] in *; try tauto; try (constructor; fail).
  - apply fold_and_map. apply H. apply fold_and_map. assumption.
  - apply fold_and_map. apply H. apply fold_and_map. assumption.
  - destruct H0 as [H1 H2]. split; [apply (@enum_ok_app _ _ _ _ (variants_fst e) H1)|]. apply fold_and_map in H2. apply Forall_app in H2. destruct H2 as [H2 _].
    apply fold_and_map. assert (Hx : Forall (fun x => Forall EnumsOk (snd x)) vs') by (eapply Forall_impl; [|exact H2]; cbn beta; intros; apply fold_and_map; assumption).
    specialize (H Hx). eapply Forall_impl; [|exact H]; cbn beta; intros; apply fold_and_map; assumption.
  - inversion H1; subst. constructor; auto.
  - inversion H1; subst. constructor; auto.
Qed.
Lemma extends_enums_ok t t' : Extends t t' -> EnumsOk t' -> EnumsOk t.
Proof. apply (proj1 extends_enums). Qed.

(* ---- values *)
Lemma enums_variant r vs : EnumsOk (TEnum r vs) -> Forall (fun x => Forall EnumsOk (snd x)) vs.
Proof. intros [_ H]. apply fold_and_map in H. eapply Forall_impl; [|exact H]; cbn beta; intros; apply fold_and_map; assumption. Qed.

Lemma extends_wt_all :
  (forall t t', Extends t t' -> EnumsOk t' -> forall v, wt t v -> wt t' v) /\
  (forall ts ts', ExtendsAll ts ts' -> Forall EnumsOk ts' -> forall vs, all2 (map wt ts) vs -> all2 (map wt ts') vs) /\
  (forall vs vs', ExtendsVariants vs vs' -> Forall (fun x => Forall EnumsOk (snd x)) vs' ->
     forall i e ts ts' fs, nth_error vs i = Some (e, ts) -> nth_error vs' i = Some (e, ts') -> all2 (map wt ts) fs -> all2 (map wt ts') fs).
Proof.
  apply (@Extends_mutind
    (fun t t' _ => EnumsOk t' -> forall v, wt t v -> wt t' v)
    (fun ts ts' _ => Forall EnumsOk ts' -> forall vs, all2 (map wt ts) vs -> all2 (map wt ts') vs)
    (fun vs vs' _ => Forall (fun x => Forall EnumsOk (snd x)) vs' ->
     forall i e ts ts' fs, nth_error vs i = Some (e, ts) -> nth_error vs' i = Some (e, ts') -> all2 (map wt ts) fs -> all2 (map wt ts') fs));
    intros; try assumption; cbn [EnumsOk] in *;
    try (match goal with H : wt _ ?v |- wt _ ?v => destruct v; cbn [wt] in *; try contradiction; try exact I; try (intuition auto; fail) end);
    try (split; [tauto|]); repeat match goal with H : _ /\ Forall _ _ |- _ => destruct H end;
    try (eapply Forall_impl; [|eassumption]; cbn beta; intuition auto; fail).
  - apply H; [apply fold_and_map|]; assumption.
  - apply H; [apply fold_and_map|]; assumption.
  - destruct H1 as [_ H1].
    destruct (nth_error (map (fun x => map wt (snd x)) vs) i) as [ps|] eqn:E; [|contradiction].
    apply nth_error_map_inv in E. destruct E as ([d ts] & Ex & ->). cbn [snd] in H1.
    destruct (variants_nth e _ Ex) as (ts' & Ex' & _).
    rewrite (nth_error_map_some (fun x => map wt (snd x)) _ _ (nth_app _ new _ Ex')). cbn [snd].
    eapply H; try eassumption. pose proof (enums_variant H0) as Hv. apply Forall_app in Hv. tauto.
  - cbn [map] in *. destruct vs; [contradiction|]. cbn [all2] in *. inversion H1; subst. intuition auto.
  - destruct i; discriminate.
  - inversion H1; subst. cbn [snd] in *. destruct i as [|i]; cbn [nth_error] in *; [|eauto]. injection H2 as <- <-. injection H3 as <-. auto.
Qed.
Lemma extends_wt t t' v : Extends t t' -> EnumsOk t' -> wt t v -> wt t' v.
Proof. intros H Hok. apply (proj1 extends_wt_all _ _ H Hok). Qed.

(* ---- encoding, whatever the outcome *)
Definition Same (a b : E) := forall o, a o = b o.
Lemma same_seq a a' b b' : Same a a' -> Same b b' -> Same (eseq a b) (eseq a' b').
Proof. intros Ha Hb o. unfold eseq. rewrite Ha. destruct (a' o) as [o' [?|?|?]]; auto. Qed.
Lemma same_map_err f g a a' : (forall e, f e = g e) -> Same a a' -> Same (emap_err f a) (emap_err g a').
Proof. intros Hf Ha o. unfold emap_err. rewrite Ha. destruct (a' o) as [o' [?|?|?]]; rewrite ?Hf; auto. Qed.
Lemma same_refl a : Same a a.
Proof. intros o. reflexivity. Qed.
Lemma same_items {A} (f g : A -> E) wrap l : Forall (fun x => Same (f x) (g x)) l -> forall i, Same (enc_items f wrap i l) (enc_items g wrap i l).
Proof. induction 1; intros i; cbn [enc_items]; [apply same_refl|]. apply same_seq; [apply same_map_err; auto | auto]. Qed.
Lemma same_entries f f' g g' l : Forall (fun p => Same (f (fst p)) (f' (fst p)) /\ Same (g (snd p)) (g' (snd p))) l -> Same (enc_entries f g l) (enc_entries f' g' l).
Proof. induction 1 as [|[k v] l [H1 H2] H IH]; cbn [enc_entries]; [apply same_refl|]. repeat apply same_seq; assumption. Qed.
Lemma same_keys f g l : Forall (fun x => Same (f x) (g x)) l -> Same (enc_keys f l) (enc_keys g l).
Proof. induction 1; cbn [enc_keys]; [apply same_refl|]. apply same_seq; assumption. Qed.

(* [Comp x x']: what compiles after the change compiled before it, with the same error type *)
Definition Comp (x x' : option ety) := forall e, x' = Some e -> x = Some e.

Lemma comp_all_generic l l' : Forall2 Comp l l' -> all_generic l' = true -> all_generic l = true.
Proof.
  induction 1 as [|x x' l l' H1 H2 IH]; intros H; [reflexivity|]. cbn [all_generic] in *. destruct x' as [e|]; [|discriminate].
  rewrite (H1 _ eq_refl). apply andb_true_iff in H. destruct H as [-> H]. cbn [andb]. auto.
Qed.
Lemma comp_all_same e l l' : Forall2 Comp l l' -> all_same l' e = true -> all_same l e = true.
Proof.
  induction 1 as [|x x' l l' H1 H2 IH]; intros H; [reflexivity|]. cbn [all_same] in *. destruct x' as [y|]; [|discriminate].
  rewrite (H1 _ eq_refl). apply andb_true_iff in H. destruct H as [-> H]. cbn [andb]. auto.
Qed.

Lemma extends_ety_all :
  (forall t t', Extends t t' -> Comp (enc_ety t) (enc_ety t')) /\
  (forall ts ts', ExtendsAll ts ts' -> Forall2 Comp (map enc_ety ts) (map enc_ety ts')) /\
  (forall vs vs', ExtendsVariants vs vs' -> forallb (fun x => all_generic (map enc_ety (snd x))) vs' = true ->
     forallb (fun x => all_generic (map enc_ety (snd x))) vs = true).
Proof.
  apply (@Extends_mutind
    (fun t t' _ => Comp (enc_ety t) (enc_ety t'))
    (fun ts ts' _ => Forall2 Comp (map enc_ety ts) (map enc_ety ts'))
    (fun vs vs' _ => forallb (fun x => all_generic (map enc_ety (snd x))) vs' = true ->
     forallb (fun x => all_generic (map enc_ety (snd x))) vs = true)); intros; cbn [enc_ety map forallb snd] in *; try assumption; try (constructor; assumption);
    try (intros x Hx; assumption); try reflexivity; try (intros x Hx);
    try (match goal with H : Comp (enc_ety ?t) (enc_ety ?t') |- _ =>
           destruct (enc_ety t') as [y|] eqn:?; [|discriminate]; rewrite (H _ eq_refl); clear H; cbn [option_map] in *; try assumption end);
    try (match goal with H : Comp (enc_ety ?t) (enc_ety ?t') |- _ =>
           destruct (enc_ety t') as [z|] eqn:?; [|discriminate]; rewrite (H _ eq_refl); clear H; cbn [option_map] in *; try assumption end).
  - inversion H as [H1 H2|a a' l l' H1 H2 H3 H4]; [rewrite <- H2 in Hx; discriminate|]. rewrite <- H4 in Hx. rewrite <- ?H3.
    destruct a' as [y|]; [|discriminate]. rewrite (H1 _ eq_refl). destruct (all_same l' y) eqn:Es; [|discriminate].
    rewrite (comp_all_same _ H2 Es). assumption.
  - destruct (all_generic (map enc_ety ts')) eqn:Eg; [|discriminate]. rewrite (comp_all_generic H Eg). assumption.
  - rewrite forallb_app in Hx. destruct (forallb _ vs') eqn:Eg; [|discriminate]. rewrite (H eq_refl).
    cbn [andb] in Hx. destruct (forallb _ new); [assumption | discriminate].
  - apply andb_true_iff in H1. destruct H1 as [H1 H2]. rewrite (comp_all_generic H H1). cbn [andb]. auto.
Qed.
Lemma extends_ety t t' e : Extends t t' -> enc_ety t' = Some e -> enc_ety t = Some e.
Proof. intros H. apply (proj1 extends_ety_all _ _ H). Qed.

Lemma all_same_in l e : all_same l e = true -> forall x, In x l -> x <> None.
Proof.
  induction l as [|[y|] l IH]; cbn [all_same]; intros H x Hx; [contradiction| |discriminate]. apply andb_true_iff in H. destruct H as [_ H].
  destruct Hx as [<-|Hx]; [discriminate | eauto].
Qed.
Lemma all_generic_in l : all_generic l = true -> forall x, In x l -> x <> None.
Proof.
  induction l as [|[y|] l IH]; cbn [all_generic]; intros H x Hx; [contradiction| |discriminate]. apply andb_true_iff in H. destruct H as [_ H].
  destruct Hx as [<-|Hx]; [discriminate | eauto].
Qed.

Lemma extends_encode_all ch :
  (forall t t', Extends t t' -> EnumsOk t' -> enc_ety t' <> None -> forall v, wt t v -> Same (encode ch t v) (encode ch t' v)) /\
  (forall ts ts', ExtendsAll ts ts' -> Forall EnumsOk ts' -> (forall x, In x (map enc_ety ts') -> x <> None) ->
     forall conv vs, all2 (map wt ts) vs -> Same (enc_fields (map (encode ch) ts) conv vs) (enc_fields (map (encode ch) ts') conv vs)) /\
  (forall vs vs', ExtendsVariants vs vs' -> Forall (fun x => Forall EnumsOk (snd x)) vs' ->
     forallb (fun x => all_generic (map enc_ety (snd x))) vs' = true ->
     forall i e ts ts' conv fs, nth_error vs i = Some (e, ts) -> nth_error vs' i = Some (e, ts') -> all2 (map wt ts) fs ->
     Same (enc_fields (map (encode ch) ts) conv fs) (enc_fields (map (encode ch) ts') conv fs)).
Proof.
  apply (@Extends_mutind
    (fun t t' _ => EnumsOk t' -> enc_ety t' <> None -> forall v, wt t v -> Same (encode ch t v) (encode ch t' v))
    (fun ts ts' _ => Forall EnumsOk ts' -> (forall x, In x (map enc_ety ts') -> x <> None) ->
     forall conv vs, all2 (map wt ts) vs -> Same (enc_fields (map (encode ch) ts) conv vs) (enc_fields (map (encode ch) ts') conv vs))
    (fun vs vs' _ => Forall (fun x => Forall EnumsOk (snd x)) vs' ->
     forallb (fun x => all_generic (map enc_ety (snd x))) vs' = true ->
     forall i e ts ts' conv fs, nth_error vs i = Some (e, ts) -> nth_error vs' i = Some (e, ts') -> all2 (map wt ts) fs ->
     Same (enc_fields (map (encode ch) ts) conv fs) (enc_fields (map (encode ch) ts') conv fs)));
    intros; try apply same_refl; cbn [EnumsOk enc_ety] in *;
    try (match goal with H : wt _ ?v |- Same (encode _ _ ?v) _ => destruct v; cbn [wt] in *; try contradiction end); cbn [encode] in *;
    try apply same_refl;
    repeat match goal with H : _ /\ _ |- _ => destruct H end;
    try (match goal with H : option_map _ (enc_ety ?t') <> None |- _ => assert (enc_ety t' <> None) by (intros He; rewrite He in H; apply H; reflexivity) end);
    repeat (first [apply same_seq | apply same_map_err; [reflexivity|] | apply same_refl]);
    try (match goal with IH : _ -> _ -> forall v, wt ?t v -> Same (encode _ ?t v) _ |- Same (encode _ ?t _) _ => apply IH; assumption end);
    try (apply same_items; eapply Forall_impl; [|eassumption]; auto; fail);
    try (apply same_keys; eapply Forall_impl; [|eassumption]; auto; fail).
  - apply H; try assumption. intros He. rewrite He in H2. congruence.
  - destruct (enc_ety t') as [a|] eqn:Ea; [|congruence]. destruct (enc_ety e') as [b|] eqn:Eb; [|congruence].
    apply same_map_err; [|apply H0; try assumption; congruence]. intros x. unfold result_conv.
    rewrite Ea, Eb, (extends_ety e0 Ea), (extends_ety e1 Eb). reflexivity.
  - apply H; [apply fold_and_map; assumption | | assumption].
    destruct (map enc_ety ts') as [|[a|] l]; try congruence. destruct (all_same l a) eqn:Es; [|congruence].
    intros x [<-|Hx]; [discriminate | apply (all_same_in _ _ Es Hx)].
  - apply H; [apply fold_and_map; assumption | | assumption].
    destruct (all_generic (map enc_ety ts')) eqn:Eg; [|congruence]. apply (all_generic_in _ Eg).
  - unfold enc_refcell. destruct mut_borrowed; [apply same_refl|]. apply same_map_err; auto.
  - destruct (enc_ety k') eqn:Ea; [|congruence]. destruct (enc_ety v') eqn:Eb; [|congruence].
    apply same_entries. eapply Forall_impl; [|eassumption]. cbn beta. intros p [Hp1 Hp2]. split; [apply H | apply H0]; try assumption; congruence.
  - destruct (nth_error (map (fun x => map wt (snd x)) vs) i) as [ps|] eqn:E; [|contradiction].
    apply nth_error_map_inv in E. destruct E as ([d ts] & Ex & ->). cbn [snd] in *.
    destruct (variants_nth e _ Ex) as (ts' & Ex' & _).
    assert (Hfv : Forall (fun x => Forall EnumsOk (snd x)) vs').
    { match goal with Hf : fold_right and True _ |- _ => apply fold_and_map in Hf; apply Forall_app in Hf; destruct Hf as [Hf _];
        eapply Forall_impl; [|exact Hf]; cbn beta; intros; apply fold_and_map; assumption end. }
    unfold enum_ok in *. rewrite map_app in *. destruct (discriminants (map fst vs' ++ map fst new)) as [ds|] eqn:Ed; [|contradiction].
    unfold discriminants in Ed. destruct (discriminants_from_app _ _ _ Ed) as (ds1 & ds2 & Ed1 & ->).
    unfold discriminants in *. rewrite (variants_fst e), Ed1 in *. unfold enc_enum.
    rewrite (nth_error_map_some (fun x => map (encode ch) (snd x)) _ _ Ex). rewrite (nth_error_map_some (fun x => map (encode ch) (snd x)) _ _ Ex' : nth_error (map _ vs') i = _) || idtac.
    rewrite map_app, (nth_app _ _ _ (nth_error_map_some (fun x => map (encode ch) (snd x)) _ _ Ex')). cbn [snd].
    destruct (nth_error ds1 i) as [d'|] eqn:Ei.
    + rewrite (nth_app _ ds2 _ Ei). apply same_seq; [apply same_refl|].
      rewrite forallb_app in H1. destruct (forallb (fun x => all_generic (map enc_ety (snd x))) vs') eqn:Eg; [|cbn [andb] in H1; congruence].
      eapply H; try eassumption. reflexivity.
    + exfalso. assert (Hl : length ds1 = length (map fst vs')) by (eapply discriminants_from_spec; exact Ed1).
      apply nth_error_None in Ei. assert (Hsome : nth_error vs' i <> None) by congruence. apply nth_error_Some in Hsome. rewrite map_length in Hl. lia.
  - cbn [map] in *. destruct vs; [contradiction|]. cbn [all2 enc_fields] in *. inversion H1; subst. destruct H3 as [H3 H3'].
    apply same_seq; [apply same_map_err; [reflexivity|]; apply H; try assumption; apply H2; left; reflexivity|].
    apply H0; try assumption. intros x Hx. apply H2. right. exact Hx.
  - destruct i; discriminate.
  - inversion H1; subst. cbn [snd forallb] in *. apply andb_true_iff in H2. destruct H2 as [Hg H2].
    destruct i as [|i]; cbn [nth_error] in *; [|eauto]. injection H3 as <- <-. injection H4 as <-. apply H; try assumption. apply (all_generic_in _ Hg).
Qed.

Lemma C80_encode_lemma ch t t' v o : Extends t t' -> EnumsOk t' -> enc_ety t' <> None -> wt t v ->
  wt t' v /\ encode ch t' v o = encode ch t v o.
Proof.
  intros Hx Hok Hc Hv. split; [apply (@extends_wt t t' v Hx Hok Hv)|]. symmetry. apply (proj1 (extends_encode_all ch) _ _ Hx Hok Hc _ Hv).
Qed.

(* ---- decoding *)
Lemma extends_owned t t' : Extends t t' -> Extends (owned t) (owned t').
Proof. intros H. destruct H; cbn [owned]; constructor; assumption. Qed.
Lemma owned_enums t : EnumsOk t -> EnumsOk (owned t).
Proof. destruct t; cbn [owned EnumsOk]; auto. Qed.

Lemma extends_accepts_all :
  (forall t bs v, Accepts t bs v -> forall t', Extends t t' -> EnumsOk t' -> Accepts t' bs v) /\
  (forall ts bs vs, AcceptsFields ts bs vs -> forall ts', ExtendsAll ts ts' -> Forall EnumsOk ts' -> AcceptsFields ts' bs vs) /\
  (forall t bs vs, AcceptsItems t bs vs -> forall t', Extends t t' -> EnumsOk t' -> AcceptsItems t' bs vs) /\
  (forall k v bs l, AcceptsEntries k v bs l -> forall k' v', Extends k k' -> Extends v v' -> EnumsOk k' -> EnumsOk v' -> AcceptsEntries k' v' bs l).
Proof.
  apply (@Accepts_mutind
    (fun t bs v _ => forall t', Extends t t' -> EnumsOk t' -> Accepts t' bs v)
    (fun ts bs vs _ => forall ts', ExtendsAll ts ts' -> Forall EnumsOk ts' -> AcceptsFields ts' bs vs)
    (fun t bs vs _ => forall t', Extends t t' -> EnumsOk t' -> AcceptsItems t' bs vs)
    (fun k v bs l _ => forall k' v', Extends k k' -> Extends v v' -> EnumsOk k' -> EnumsOk v' -> AcceptsEntries k' v' bs l)); intros;
    try (match goal with H : Extends (_ _) _ |- _ => inversion H; subst; clear H | H : Extends (_ _ _) _ |- _ => inversion H; subst; clear H
           | H : ExtendsAll _ _ |- _ => inversion H; subst; clear H | H : Extends TF32 _ |- _ => inversion H; subst; clear H end);
    try (match goal with H : Extends _ _ |- _ => inversion H; subst; clear H; [constructor; assumption] end);
    cbn [EnumsOk] in *; try (match goal with H : _ /\ _ |- _ => destruct H end); try (econstructor; eauto; fail);
    try (econstructor; eauto using X_same, extends_all_same; fail).
  - constructor. apply H; [assumption | apply fold_and_map; assumption].
  - constructor. apply H; [assumption | apply fold_and_map; assumption].
  - match goal with Hv : ExtendsVariants _ _, Hn : nth_error _ _ = Some (_, _) |- _ => pose proof (variants_fst Hv) as Hm; destruct (variants_nth Hv _ Hn) as (ts' & Hx & Hf) end.
    econstructor; [assumption | apply (nth_app _ new _ Hx) | rewrite map_app; apply assigned_app; rewrite <- Hm; eassumption | assumption|].
    apply H; [assumption|]. match goal with Hf : fold_right and True _ |- _ => apply fold_and_map in Hf; rewrite Forall_forall in Hf;
      specialize (Hf _ (in_or_app _ _ _ (or_introl (nth_error_In _ _ Hx)))); apply fold_and_map in Hf; exact Hf end.
  - constructor. apply H; [apply extends_owned; assumption | apply owned_enums; assumption].
  - match goal with Hf : Forall EnumsOk (_ :: _) |- _ => inversion Hf; subst end. constructor; auto.
Qed.

Lemma C80_decode_lemma t t' i i' v : Extends t t' -> EnumsOk t' -> in_bounds i -> decode t i = (i', Ok v) -> decode t' i = (i', Ok v).
Proof.
  intros Hx Hok Hw Hd. destruct (@decode_exact t i i' v (extends_enums_ok Hx Hok) Hw Hd) as (bs & post & Hu & Hi & Ha).
  pose proof (proj1 extends_accepts_all _ _ _ Ha _ Hx Hok) as Ha'. pose proof (accepts_parses Ha') as Hp.
  unfold unread in Hu. pose proof (firstn_skipn (i_pos i) (i_buf i)) as Hb. rewrite Hu in Hb.
  unfold in_bounds, input_position, input_capacity in Hw.
  assert (Hl : length (firstn (i_pos i) (i_buf i)) = i_pos i) by (rewrite firstn_length; lia).
  specialize (Hp (firstn (i_pos i) (i_buf i)) post). rewrite Hb, Hl in Hp. subst i'. destruct i as [buf pos]. exact Hp.
Qed.

(* an old decoder and a new variant *)
Lemma C80_forward_lemma ch r vs new i fs bs : enum_ok r (vs ++ new) -> wt (TEnum r (vs ++ new)) (VEnum i fs) -> length vs <= i ->
  Appends (encode ch (TEnum r (vs ++ new)) (VEnum i fs)) bs (Ok tt) ->
  exists d db rest, Assigned (map fst (vs ++ new)) i d /\ bs = db ++ rest /\ Refuses (decode (TEnum r vs)) db (DUnassigned r d).
Proof.
  intros Hok Hv Hi Ha. apply C39_encode_lemma in Ha; [|exact Hok]. destruct Ha as (e & ts & d & db & bss & Hn & Has & Hdb & _ & ->).
  exists d, db, (concat bss). split; [exact Has|]. split; [reflexivity|].
  pose proof (@enum_ok_app r vs vs new eq_refl Hok) as Hok'.
  assert (Hl : length db = wire_width r).
  { pose proof (wireint_len Hdb) as Hl. destruct r; cbn in Hl |- *; lia. }
  destruct (@C39_decode_lemma r vs db Hok' Hl) as (d' & Hin & Hd' & Hc).
  assert (Hdi : in_ity r d).
  { unfold enum_ok in Hok. destruct (discriminants (map fst (vs ++ new))) as [ds|] eqn:Ed; [|contradiction]. destruct Hok as [Hf _].
    rewrite Forall_forall in Hf. apply Hf. eapply nth_error_In. apply (@discriminants_assigned _ _ i d Ed). exact Has. }
  assert (d' = d).
  { pose proof (P_int Hin Hd' [] []) as P1. pose proof (P_int Hdi Hdb [] []) as P2. rewrite P1 in P2. congruence. }
  subst d'.
  destruct Hc as [(k & e' & ts' & Hk & Hak & _)|[_ Hr]]; [|exact Hr].
  exfalso. apply (assigned_app (map fst new)) in Hak. rewrite <- map_app in Hak.
  assert (k = i); [|subst k; assert (nth_error vs i <> None) as Hs by congruence; apply nth_error_Some in Hs; lia].
  unfold enum_ok in Hok. destruct (discriminants (map fst (vs ++ new))) as [ds|] eqn:Ed; [|contradiction]. destruct Hok as [_ Hnd].
  apply (@discriminants_assigned _ _ k d Ed) in Hak. apply (@discriminants_assigned _ _ i d Ed) in Has.
  rewrite NoDup_nth_error in Hnd. apply Hnd; [|congruence]. apply nth_error_Some. congruence.
Qed.
