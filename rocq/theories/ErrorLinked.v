(* C85: exactly which types have an encoding error that is an Error. *)
From Verif Require Import Base Types Traits Encode Decode TypesFacts Spec SpecCalls SpecDecode SpecDerive SpecText ErrorText ErrorProofs ErrorExact TextProofs.
Set Implicit Arguments.

Lemma infallible_error y : into_infallible_ety y = true -> ety_is_error y = true.
Proof.
  induction y; cbn; try discriminate; try reflexivity; try assumption.
  - intros H. apply andb_true_iff in H as [H1 H2]. rewrite IHy1, IHy2 by assumption. reflexivity.
  - intros H. apply andb_true_iff in H as [H1 H2]. auto.
Qed.
Lemma generic_error y : into_generic_ety y = true -> ety_is_error y = true.
Proof.
  induction y; cbn; try discriminate; try reflexivity; try assumption.
  intros H. apply andb_true_iff in H as [H1 H2]. rewrite IHy1, IHy2 by assumption. reflexivity.
Qed.
Lemma into_error_back x y : into_ety x y = true -> ety_is_error y = true -> ety_is_error x = true.
Proof.
  unfold into_ety. intros H Hy. apply orb_true_iff in H as [H|H]; [apply ety_eqb_eq in H; congruence|].
  destruct y; try discriminate; [apply infallible_error|apply generic_error]; exact H.
Qed.
Lemma all_generic_linked ts : Forall (fun t => forall y, enc_ety t = Some y -> ety_is_error y = true -> contains is_linked t = false) ts ->
  all_generic (map enc_ety ts) = true -> existsb (contains is_linked) ts = false.
Proof.
  induction 1 as [|t ts Ht H IH]; [reflexivity|]. cbn [map all_generic existsb]. destruct (enc_ety t) as [y|] eqn:E; [|discriminate].
  intros Hg. apply andb_true_iff in Hg as [H1 H2]. rewrite (Ht y eq_refl (generic_error _ H1)), (IH H2). reflexivity.
Qed.
Lemma error_not_linked t : forall y, enc_ety t = Some y -> ety_is_error y = true -> contains is_linked t = false.
Proof.
  induction t using ty_ind_strong; intros y Hy Hg; cbn [contains is_linked orb]; cbn [enc_ety] in Hy; try reflexivity; try (apply IHt with y; assumption);
    try (destruct (enc_ety t) as [y0|]; [|discriminate]; injection Hy as <-; cbn in Hg; try discriminate Hg; exact (IHt _ eq_refl Hg)).
  - destruct (enc_ety t1) as [y1|]; [|discriminate]. destruct (enc_ety t2) as [y2|]; [|discriminate].
    destruct (into_ety y2 y1) eqn:Ei; [|discriminate]. injection Hy as <-. rewrite (IHt1 _ eq_refl Hg), (IHt2 _ eq_refl (into_error_back _ _ Ei Hg)). reflexivity.
  - destruct ts as [|t ts]; [discriminate|]. cbn [map] in Hy. destruct (enc_ety t) as [y0|] eqn:Ey; [|discriminate].
    destruct (all_same _ _) eqn:Es; [|discriminate]. injection Hy as <-. inversion H; subst. cbn [existsb]. rewrite (H2 _ Ey Hg). cbn.
    apply all_same_forall in Es. rewrite Forall_map in Es. clear - H3 Es Hg. induction ts as [|u ts IH]; [reflexivity|].
    inversion H3; inversion Es; subst. cbn. rewrite (H1 _ H6 Hg). auto.
  - destruct (enc_ety t1) as [y1|]; [|discriminate]. destruct (enc_ety t2) as [y2|]; [|discriminate].
    destruct (ety_eqb y1 y2) eqn:Ei; [|discriminate]. apply ety_eqb_eq in Ei. injection Hy as <-. subst. rewrite (IHt1 _ eq_refl Hg), (IHt2 _ eq_refl Hg). reflexivity.
  - destruct (all_generic _) eqn:Eg; [|discriminate]. apply all_generic_linked; assumption.
  - destruct (forallb _ _) eqn:Eg; [|discriminate]. clear - H Eg. induction vs as [|[d ts] vs IH]; [reflexivity|].
    cbn [existsb snd]. cbn [forallb snd] in Eg. apply andb_true_iff in Eg as [E1 E2]. inversion H; subst. cbn [snd] in H2. rewrite (all_generic_linked H2 E1). auto.
Qed.

Lemma C85_exact_lemma t y : enc_ety t = Some y -> (ety_is_error y = true <-> contains is_linked t = false).
Proof. intro H. split; [apply error_not_linked; exact H|intro N; exact (enc_is_error _ N H)]. Qed.
