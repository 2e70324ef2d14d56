(* C65: exactly which fields can be derived for. *)
From Coq Require Import Lia ZifyBool ZifyNat ZifyN.
From Verif Require Import Base BaseFacts Streams StreamFacts Utf8 Types Traits Encode Decode TypesFacts Spec SpecCalls SpecDecode SpecDerive ErrorProofs.
Set Implicit Arguments.

Lemma infallible_generic y : into_infallible_ety y = true -> into_generic_ety y = true.
Proof.
  induction y; cbn; try discriminate; try reflexivity; try assumption.
  - intros H. apply andb_true_iff in H as [H1 H2]. rewrite IHy1, IHy2 by assumption. reflexivity.
  - intros H. apply andb_true_iff in H as [H1 H2]. auto.
Qed.
Lemma into_generic_back x y : into_ety x y = true -> into_generic_ety y = true -> into_generic_ety x = true.
Proof.
  unfold into_ety. intros H Hy. apply orb_true_iff in H as [H|H]; [apply ety_eqb_eq in H; congruence|].
  destruct y; try discriminate; [apply infallible_generic|]; exact H.
Qed.

Lemma all_generic_elim ts : Forall (fun t => forall y, enc_ety t = Some y -> into_generic_ety y = true -> contains enc_opaque t = false) ts ->
  all_generic (map enc_ety ts) = true -> existsb (contains enc_opaque) ts = false.
Proof.
  induction 1 as [|t ts Ht H IH]; [reflexivity|]. cbn [map all_generic existsb]. destruct (enc_ety t) as [y|] eqn:E; [|discriminate].
  intros Hg. apply andb_true_iff in Hg as [H1 H2]. rewrite (Ht y eq_refl H1), (IH H2). reflexivity.
Qed.

Lemma enc_refused t : forall y, enc_ety t = Some y -> into_generic_ety y = true -> contains enc_opaque t = false.
Proof.
  induction t using ty_ind_strong; intros y Hy Hg; cbn [contains enc_opaque orb]; cbn [enc_ety] in Hy; try reflexivity; try (apply IHt with y; assumption);
    try (destruct (enc_ety t) as [y0|]; [|discriminate]; injection Hy as <-; cbn in Hg; try discriminate Hg; exact (IHt _ eq_refl Hg)).
  - destruct (enc_ety t1) as [y1|]; [|discriminate]. destruct (enc_ety t2) as [y2|]; [|discriminate].
    destruct (into_ety y2 y1) eqn:Ei; [|discriminate]. injection Hy as <-. rewrite (IHt1 _ eq_refl Hg), (IHt2 _ eq_refl (into_generic_back _ _ Ei Hg)). reflexivity.
  - destruct ts as [|t ts]; [discriminate|]. cbn [map] in Hy. destruct (enc_ety t) as [y0|] eqn:Ey; [|discriminate].
    destruct (all_same _ _) eqn:Es; [|discriminate]. injection Hy as <-. inversion H; subst. cbn [existsb]. rewrite (H2 _ Ey Hg). cbn.
    apply all_same_forall in Es. rewrite Forall_map in Es. clear - H3 Es Hg. induction ts as [|u ts IH]; [reflexivity|].
    inversion H3; inversion Es; subst. cbn. rewrite (H1 _ H6 Hg). auto.
  - destruct (enc_ety t1) as [y1|]; [|discriminate]. destruct (enc_ety t2) as [y2|]; [|discriminate].
    destruct (ety_eqb y1 y2) eqn:Ei; [|discriminate]. apply ety_eqb_eq in Ei. injection Hy as <-. subst. rewrite (IHt1 _ eq_refl Hg), (IHt2 _ eq_refl Hg). reflexivity.
  - destruct (all_generic _) eqn:Eg; [|discriminate]. apply all_generic_elim; assumption.
  - destruct (forallb _ _) eqn:Eg; [|discriminate]. clear - H Eg. induction vs as [|[d ts] vs IH]; [reflexivity|].
    cbn [existsb snd]. cbn [forallb snd] in Eg. apply andb_true_iff in Eg as [E1 E2]. inversion H; subst. cbn [snd] in H2. rewrite (all_generic_elim H2 E1). auto.
Qed.

Lemma all_generic_d_elim ts : Forall (fun t => forall y, dec_ety t = Some y -> into_generic_dety y = true -> contains dec_opaque t = false) ts ->
  all_generic_d (map dec_ety ts) = true -> existsb (contains dec_opaque) ts = false.
Proof.
  induction 1 as [|t ts Ht H IH]; [reflexivity|]. cbn [map all_generic_d existsb]. destruct (dec_ety t) as [y|] eqn:E; [|discriminate].
  intros Hg. apply andb_true_iff in Hg as [H1 H2]. rewrite (Ht y eq_refl H1), (IH H2). reflexivity.
Qed.

Lemma dec_refused t : (forall z, dec_ety t = Some z -> into_generic_dety z = true -> contains dec_opaque t = false) /\
  (forall z, dec_ety (owned t) = Some z -> into_generic_dety z = true -> contains dec_opaque t = false).
Proof.
  induction t using ty_ind_strong; cbn [owned];
  lazymatch goal with
  | |- ?P /\ ?P => cut P; [intros Hcut; split; exact Hcut|]
  | |- _ => split; [intros z Hz; discriminate Hz|]
  end; intros z Hz Hg; cbn [dec_ety] in Hz; cbn [contains dec_opaque orb]; try reflexivity; try (exact (proj1 IHt _ Hz Hg));
    try (destruct (dec_ety t) as [y0|] eqn:Ey; [|discriminate]; injection Hz as <-; cbn in Hg; exact (proj1 IHt _ eq_refl Hg)).
  - injection Hz as <-. discriminate Hg.
  - destruct (dec_ety t1) as [y1|]; [|discriminate]. destruct (dec_ety t2) as [y2|]; [|discriminate].
    destruct (dety_eqb y1 y2); [|discriminate]. injection Hz as <-. discriminate Hg.
  - destruct ts as [|t ts]; [discriminate|]. cbn [map] in Hz. destruct (dec_ety t) as [y0|] eqn:Ey; [|discriminate].
    destruct (all_same_d _ _) eqn:Es; [|discriminate]. injection Hz as <-. inversion H; subst. cbn [existsb]. rewrite (proj1 H2 _ Ey Hg). cbn.
    apply all_same_d_forall in Es. rewrite Forall_map in Es. clear - H3 Es Hg. induction ts as [|u ts IH]; [reflexivity|].
    inversion H3; inversion Es; subst. cbn. rewrite (proj1 H1 _ H6 Hg). auto.
  - destruct w; try discriminate; exact (proj1 IHt _ Hz Hg).
  - apply (proj2 IHt z); [|exact Hg]. rewrite <- Hz. destruct t; reflexivity.
  - destruct (dec_ety t1) as [y1|]; [|discriminate]. destruct (dec_ety t2) as [y2|]; [|discriminate].
    destruct (dety_eqb y1 y2) eqn:Ei; [|discriminate]. apply dety_eqb_eq in Ei. injection Hz as <-. subst. cbn in Hg.
    rewrite (proj1 IHt1 _ eq_refl Hg), (proj1 IHt2 _ eq_refl Hg). reflexivity.
  - destruct (all_generic_d _) eqn:Eg; [|discriminate]. apply all_generic_d_elim; [|exact Eg]. eapply Forall_impl; [|exact H]. cbn; tauto.
  - destruct (forallb _ _) eqn:Eg; [|discriminate]. clear - H Eg. induction vs as [|[d ts] vs IH]; [reflexivity|].
    cbn [existsb snd]. cbn [forallb snd] in Eg. apply andb_true_iff in Eg as [E1 E2]. inversion H; subst.
    cbn [snd] in H2. rewrite all_generic_d_elim; [auto| |exact E1]. eapply Forall_impl; [|exact H2]. cbn; tauto.
Qed.

Lemma existsb_none A (f : A -> bool) l : existsb f l = false <-> Forall (fun x => f x = false) l.
Proof.
  induction l as [|x l IH]; cbn; [split; auto|]. rewrite orb_false_iff, IH. split; [intros []; constructor; assumption|inversion 1; auto].
Qed.

Lemma C65_encode_exact_lemma :
  (forall ts, Forall (fun t => enc_ety t <> None) ts -> (enc_ety (TStruct ts) <> None <-> Forall (fun t => contains enc_opaque t = false) ts)) /\
  (forall r vs, Forall (fun x => Forall (fun t => enc_ety t <> None) (snd x)) vs ->
     (enc_ety (TEnum r vs) <> None <-> Forall (fun x => Forall (fun t => contains enc_opaque t = false) (snd x)) vs)).
Proof.
  split.
  - intros ts H. split.
    + cbn [enc_ety]. destruct (all_generic _) eqn:E; [|congruence]. intros _. apply existsb_none. apply all_generic_elim; [|exact E].
      apply Forall_forall. intros t _. apply enc_refused.
    + intros Hc. apply (proj1 C65_encode_lemma). rewrite Forall_forall in *. auto.
  - intros r vs H. split.
    + cbn [enc_ety]. destruct (forallb _ _) eqn:E; [|congruence]. intros _. rewrite forallb_forall in E. apply Forall_forall. intros x Hx.
      apply existsb_none. apply all_generic_elim; [|exact (E x Hx)]. apply Forall_forall. intros t _. apply enc_refused.
    + intros Hc. apply (proj2 C65_encode_lemma). rewrite Forall_forall in *. intros x Hx. specialize (H x Hx). specialize (Hc x Hx). cbn beta in *.
      rewrite Forall_forall in *. auto.
Qed.
Lemma C65_decode_exact_lemma :
  (forall ts, Forall (fun t => dec_ety t <> None) ts -> (dec_ety (TStruct ts) <> None <-> Forall (fun t => contains dec_opaque t = false) ts)) /\
  (forall r vs, Forall (fun x => Forall (fun t => dec_ety t <> None) (snd x)) vs ->
     (dec_ety (TEnum r vs) <> None <-> Forall (fun x => Forall (fun t => contains dec_opaque t = false) (snd x)) vs)).
Proof.
  split.
  - intros ts H. split.
    + cbn [dec_ety]. destruct (all_generic_d _) eqn:E; [|congruence]. intros _. apply existsb_none. apply all_generic_d_elim; [|exact E].
      apply Forall_forall. intros t _. apply dec_refused.
    + intros Hc. apply (proj1 C65_decode_lemma). rewrite Forall_forall in *. auto.
  - intros r vs H. split.
    + cbn [dec_ety]. destruct (forallb _ _) eqn:E; [|congruence]. intros _. rewrite forallb_forall in E. apply Forall_forall. intros x Hx.
      apply existsb_none. apply all_generic_d_elim; [|exact (E x Hx)]. apply Forall_forall. intros t _. apply dec_refused.
    + intros Hc. apply (proj2 C65_decode_lemma). rewrite Forall_forall in *. intros x Hx. specialize (H x Hx). specialize (Hc x Hx). cbn beta in *.
      rewrite Forall_forall in *. auto.
Qed.
