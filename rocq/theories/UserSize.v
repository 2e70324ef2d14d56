(* Proof of C101. *)
From Coq Require Import Lia ZifyBool ZifyNat ZifyN.
From Verif Require Import Base BaseFacts Streams StreamFacts Utf8 Types TypesFacts Traits Encode Decode Sized Slot Spec SpecCalls SpecDecode SpecSize
  EncodeFacts WireFacts EncodeCases EncodeProofs DecodeFacts SizeProofs User SpecUser UserProofs UserSafety.
Set Implicit Arguments.
Local Open Scope N_scope.

Notation Wi := SpecUser.WithinSize.

Lemma w_within n m : Within n m -> Wi m n.
Proof.
  intros (cs & r & Ht & Hl) o Hw. rewrite (Ht o).
  assert (Hb : (output_position (fst (replay cs r o)) <= output_capacity (fst (replay cs r o)))%nat).
  { apply (@keeps_replay (fun o o' => output_position o <= output_capacity o -> output_position o' <= output_capacity o')%nat); auto.
    intros o1 d. apply write_in_bounds. }
  split; [exact Hb|]. clear Hb.
  assert (Hd : fits o (concat cs) \/ ~ fits o (concat cs)) by (unfold fits; lia). destruct Hd as [Hf|Hf].
  - rewrite replay_fits by assumption. unfold output_position. cbn [fst]. rewrite append_pos. lia.
  - destruct (replay_short cs r Hw Hf) as (done & c & rest & Hcs & Hf1 & Hf2 & Hr). rewrite Hr.
    unfold output_position. cbn [fst]. rewrite append_pos. rewrite Hcs, concat_app, app_length in Hl. lia.
Qed.
Lemma w_seq n m a b : Wi a n -> Wi b m -> Wi (eseq a b) (n + m).
Proof.
  intros Ha Hb o Ho. unfold eseq. specialize (Ha o Ho). destruct (a o) as [o1 [[]|e|p]]; cbn [fst] in *; try (split; [apply Ha | lia]).
  destruct Ha as [Ha1 Ha2]. destruct (Hb o1 Ha1) as [Hb1 Hb2]. split; [exact Hb1 | lia].
Qed.
Lemma w_map_err n f a : Wi a n -> Wi (emap_err f a) n.
Proof. intros Ha o Ho. unfold emap_err. specialize (Ha o Ho). destruct (a o) as [o1 [[]|e|p]]; exact Ha. Qed.
Lemma w_mono n m a : n <= m -> Wi a n -> Wi a m.
Proof. intros H Ha o Ho. destruct (Ha o Ho). split; [assumption | lia]. Qed.
Lemma w_items (f : val -> E) n wrap l : Forall (fun x => Wi (f x) n) l -> forall i, Wi (enc_items f wrap i l) (n * N.of_nat (length l)).
Proof.
  induction 1 as [|x l Hx Hl IH]; intros i; cbn [enc_items length]; [apply w_within, B_ok|].
  eapply w_mono; [|apply w_seq; [apply w_map_err; exact Hx | apply IH]]. lia.
Qed.

Section Size.
  Variable ch : bool.
  Variable us : nat -> impl.
  Variable cs : nat -> contract.
  Variable sz : nat -> option N.
  Variable so : size_of_fn.
  Variable uso : uty -> N.
  Hypothesis Hus : forall k n v, sz k = Some n -> c_valid (cs k) v -> Wi (u_encode (us k) v) n.
  Let size := umax_size sz so uso.
  Let good (t : uty) := USizeOk sz so uso t -> forall n, size t = Some n -> forall v, Typed cs t v -> Wi (uencode ch us t v) n.

  Lemma w_fields conv ts : Forall good ts -> Forall (USizeOk sz so uso) ts ->
    forall vs n, sum_opt (map size ts) = Some n -> all2 (map (Typed cs) ts) vs -> Wi (enc_fields (map (uencode ch us) ts) conv vs) n.
  Proof.
    induction 1 as [|t ts Ht Hts IH]; intros Ho [|v vs] n Hn Hv; cbn [map all2 enc_fields sum_opt] in *; try contradiction; [apply w_within, B_ok|].
    destruct (size t) as [m|] eqn:Em; [|discriminate].
    destruct (sum_opt (map size ts)) as [k|]; [|discriminate]. injection Hn as <-. destruct Hv. inversion_clear Ho.
    apply w_seq; [apply w_map_err; apply Ht; auto | apply IH; auto].
  Qed.

  Ltac uoptn := match goal with H : option_map _ (umax_size ?z ?s ?u ?t) = Some _ |- _ =>
    let k := fresh "k" in destruct (umax_size z s u t) as [k|] eqn:?; [|discriminate]; cbn [option_map] in H; apply some_inj in H; rewrite <- H in *; clear H end.

  Lemma user_within t : good t.
  Proof.
    unfold good, size.
    induction t using uty_ind_strong; cbn [USizeOk umax_size]; intros Hok m Hm v Hv; try discriminate; [eapply Hus; eassumption | apply w_within; eapply within; eassumption | ..];
      destruct v; cbn [Typed] in Hv; try contradiction; cbn [uencode]; try (apply IHt; assumption);
      try uoptn; try (eapply w_mono; [|apply w_seq; [apply w_within, (@B_num 1); reflexivity | first [apply IHt; [assumption|reflexivity|assumption] | apply w_map_err, IHt; [assumption|reflexivity|assumption]]]]; lia);
      try (eapply w_mono; [|apply w_within, (@B_num 1); reflexivity]; lia).
    - destruct Hok as (H1 & H2 & Hs). destruct (umax_size _ _ _ t1) as [a|]; [|discriminate]. destruct (umax_size _ _ _ t2) as [b|]; [|discriminate].
      apply some_inj in Hm. subst m. specialize (Hs _ _ eq_refl eq_refl).
      eapply w_mono; [|apply w_seq; [apply w_within, (@B_num 1); reflexivity | apply IHt1; [assumption|reflexivity|assumption]]].
      destruct (N.ltb_spec (uso t2) (uso t1)); lia.
    - destruct Hok as (H1 & H2 & Hs). destruct (umax_size _ _ _ t1) as [a|]; [|discriminate]. destruct (umax_size _ _ _ t2) as [b|]; [|discriminate].
      apply some_inj in Hm. subst m. specialize (Hs _ _ eq_refl eq_refl).
      eapply w_mono; [|apply w_seq; [apply w_within, (@B_num 1); reflexivity | apply w_map_err, IHt2; [assumption|reflexivity|assumption]]].
      destruct (N.ltb_spec (uso t2) (uso t1)); lia.
    - apply fold_and in Hok. apply w_fields; assumption.
    - destruct Hv as [Hl Hv]. subst n. apply w_items. eapply Forall_impl; [|exact Hv]. cbn beta. intros x Hx. apply IHt; auto.
    - unfold enc_refcell. destruct mut_borrowed; [apply w_within, B_err | apply w_map_err, IHt; assumption].
    - destruct Hv. replace (k * 2) with (k + k) by lia. apply w_seq; apply IHt; auto.
    - destruct Hv. replace (k * 2) with (k + k) by lia. apply w_seq; apply IHt; auto.
    - apply fold_and in Hok. apply w_fields; assumption.
    - destruct Hv as [_ Hv]. destruct (discriminants (map fst vs)) as [ds|]; [|apply w_within, B_panic].
      destruct (nth_error ds i) as [d|]; [|apply w_within, B_panic].
      destruct (nth_error (map (fun x => map (Typed cs) (snd x)) vs) i) as [ps|] eqn:E; [|contradiction].
      apply nth_error_map_inv in E. destruct E as (x & Ex & ->).
      rewrite (nth_error_map_some (fun x => map (uencode ch us) (snd x)) _ _ Ex).
      pose proof (nth_error_map_some (fun x => option_map (N.add (int_size r)) (sum_opt (map (umax_size sz so uso) (snd x)))) _ _ Ex) as Ey.
      destruct (max_opt_le _ Hm _ Ey) as (n & Hn & Hle).
      destruct (sum_opt (map (umax_size sz so uso) (snd x))) as [k|] eqn:Ek; [|discriminate]. injection Hn as <-.
      eapply w_mono; [exact Hle|]. apply w_seq; [apply w_map_err, w_within, B_int|].
      apply fold_and in Hok. rewrite Forall_forall in Hok, H. pose proof (nth_error_In _ _ Ex) as Hin.
      specialize (Hok _ Hin). cbn beta in Hok. apply fold_and in Hok.
      apply w_fields; [exact (H _ Hin) | assumption | exact Ek | assumption].
  Qed.
End Size.

Lemma C101_lemma ch us cs sz so uso : (forall k n v, sz k = Some n -> c_valid (cs k) v -> SpecUser.WithinSize (u_encode (us k) v) n) ->
  forall t n v, umax_size sz so uso t = Some n -> USizeOk sz so uso t -> Typed cs t v -> SpecUser.WithinSize (uencode ch us t v) n.
Proof. intros Hus t n v Hn Hok Hv. exact (@user_within ch us cs sz so uso Hus t Hok n Hn v Hv). Qed.

Lemma C101_plain_lemma f so uso t : (forall t, uso t = so (plain f t)) ->
  umax_size (fun k => max_size so (f k)) so uso t = max_size so (plain f t).
Proof.
  intros Hu. induction t using uty_ind_strong; cbn [umax_size plain max_size]; rewrite ?IHt, ?IHt1, ?IHt2, ?Hu; try reflexivity.
  - f_equal. rewrite map_map. apply map_ext_Forall. exact H.
  - f_equal. rewrite map_map. apply map_ext_Forall. exact H.
  - f_equal. rewrite map_map. apply map_ext_Forall. eapply Forall_impl; [|exact H]. intros [e ts] Hx. cbn [snd fst] in *.
    rewrite map_map. do 2 f_equal. apply map_ext_Forall. exact Hx.
Qed.
