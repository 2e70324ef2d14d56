(* C72: builds with and without overflow checks. *)
From Coq Require Import Lia.
From Verif Require Import Base Streams Utf8 Types TypesFacts Traits Encode Decode Sized Slot Mem SizedSlice SizedIter Owned
  Spec SpecCalls SpecStreams StreamFacts EncodeFacts EncodeProofs.
Set Implicit Arguments.

(* The first call does what the second does, or panics on arithmetic. *)
Definition Checked (a b : E) : Prop := forall o, a o = b o \/ exists o', a o = (o', Panic PArith).

Lemma K_refl a : Checked a a.
Proof. intros o. left. reflexivity. Qed.

Lemma K_seq a b c d : Checked a b -> Checked c d -> Checked (eseq a c) (eseq b d).
Proof.
  intros Ha Hc o. unfold eseq. destruct (Ha o) as [-> | (o' & ->)].
  - destruct (b o) as [o' [|e|p]]; [apply Hc | left; reflexivity..].
  - right. eauto.
Qed.

Lemma K_map f a b : Checked a b -> Checked (emap_err f a) (emap_err f b).
Proof.
  intros Ha o. unfold emap_err. destruct (Ha o) as [-> | (o' & ->)]; [left; reflexivity | right; eauto].
Qed.

Lemma K_items {A} (f g : A -> E) wrap l : (forall x, Checked (f x) (g x)) -> forall i, Checked (enc_items f wrap i l) (enc_items g wrap i l).
Proof.
  intros H. induction l as [|x l IH]; intros i; cbn [enc_items]; [apply K_refl|].
  apply K_seq; [apply K_map, H | apply IH].
Qed.
Lemma K_slice {A} (f g : A -> E) wrap l : (forall x, Checked (f x) (g x)) -> Checked (enc_slice f wrap l) (enc_slice g wrap l).
Proof. intros H. apply K_seq; [apply K_refl | apply K_items, H]. Qed.

Lemma K_fields conv fs gs : Forall2 (fun f g => forall v, Checked (f v) (g v)) fs gs ->
  forall vs, Checked (enc_fields fs conv vs) (enc_fields gs conv vs).
Proof.
  induction 1 as [|f g fs gs Hf Hl IH]; intros [|v vs]; cbn [enc_fields]; try apply K_refl.
  apply K_seq; [apply K_map, Hf | apply IH].
Qed.
Lemma K_entries fk fv gk gv kvs : (forall x, Checked (fk x) (gk x)) -> (forall x, Checked (fv x) (gv x)) ->
  Checked (enc_entries fk fv kvs) (enc_entries gk gv kvs).
Proof.
  intros Hk Hv. induction kvs as [|[k v] l IH]; cbn [enc_entries]; [apply K_refl|].
  apply K_seq; [apply Hk | apply K_seq; [apply Hv | exact IH]].
Qed.
Lemma K_keys f g ks : (forall x, Checked (f x) (g x)) -> Checked (enc_keys f ks) (enc_keys g ks).
Proof.
  intros H. induction ks as [|k l IH]; cbn [enc_keys]; [apply K_refl|]. apply K_seq; [apply H | exact IH].
Qed.

Lemma forall2_map {A B} (P : A -> Prop) (R : B -> B -> Prop) f g l :
  Forall P l -> (forall x, P x -> R (f x) (g x)) -> Forall2 R (map f l) (map g l).
Proof. intros H Hr. induction H; cbn; constructor; auto. Qed.

Ltac kk :=
  lazymatch goal with
  | |- Checked ?a ?a => apply K_refl
  | |- Checked (emap_err _ _) _ => apply K_map; kk
  | |- Checked (eseq _ _) _ => apply K_seq; kk
  | |- Checked (enc_slice _ _ _) _ => apply K_slice; intros ?; kk
  | |- Checked (enc_items _ _ _ _) _ => apply K_items; intros ?; kk
  | |- Checked (enc_entries _ _ _) _ => apply K_entries; intros ?; kk
  | |- Checked (enc_keys _ _) _ => apply K_keys; intros ?; kk
  | |- Checked (encode _ ?t _) _ => match goal with IH : forall v, Checked (encode _ t v) _ |- _ => apply IH end
  | |- _ => idtac
  end.

Lemma encode_checked t : forall v, Checked (encode true t v) (encode false t v).
Proof.
  induction t using ty_ind_strong; intros v; destruct v; cbn [encode]; kk.
  - apply K_fields. apply (forall2_map _ _ _ H). auto.
  - unfold enc_refcell. destruct mut_borrowed; kk.
  - unfold enc_time. destruct (0 <=? secs)%Z; kk. cbv zeta. destruct (_ =? _)%Z; [|kk]. intros o. right. exists o. reflexivity.
  - apply K_fields. apply (forall2_map _ _ _ H). auto.
  - unfold enc_enum. destruct (discriminants _) as [ds|]; kk.
    destruct (nth_error ds i) as [d|]; kk. rewrite !nth_error_map.
    destruct (nth_error vs i) as [x|] eqn:Hx; cbn [option_map]; kk.
    apply nth_error_In in Hx. rewrite Forall_forall in H.
    apply K_fields. apply (forall2_map _ _ _ (H x Hx)). auto.
Qed.

Lemma C72_encode_lemma t v o : wt t v -> output_position o <= output_capacity o ->
  encode true t v o = encode false t v o \/
  (has_lowest_second v = true /\ exists o', encode true t v o = (o', Panic PArith)).
Proof.
  intros Hv Hw. destruct (encode_checked t v o) as [He | (o' & He)]; [left; exact He|]. right.
  split; [|exists o'; exact He].
  destruct (C09_lemma true t v Hv) as (bs & r & Hr & H). destruct (H o Hw) as [H1 H2].
  destruct (Nat.le_gt_cases (length bs) (output_remaining o)) as [Hl|Hl].
  - destruct (H1 Hl) as (o1 & He1 & _). rewrite He in He1. injection He1 as _ <-.
    destruct Hr as [Hr | [(e & Hr) | (_ & _ & Hr)]]; [discriminate.. | exact Hr].
  - destruct (H2 Hl) as (o1 & e & He1 & _). rewrite He in He1. discriminate.
Qed.

Lemma C72_slot_lemma t ops : (forall v, In (SWrite v) ops -> wt t v /\ has_lowest_second v = false) ->
  forall s, slot_run true t s ops = slot_run false t s ops.
Proof.
  induction ops as [|op ops IH]; intros H s; cbn [slot_run]; [reflexivity|].
  assert (Hs : slot_step true t s op = slot_step false t s op).
  { destruct op as [v|d|n|k b]; cbn [slot_step]; try reflexivity. unfold slot_write.
    destruct (H v (or_introl eq_refl)) as [Hv Hl].
    destruct (@C72_encode_lemma t v (output_new (s_buf s)) Hv (Nat.le_0_l _)) as [-> | (Hl' & _)]; [reflexivity | congruence]. }
  rewrite Hs. destruct (slot_step false t s op) as [s1 r].
  rewrite IH; [reflexivity|]. intros v Hi. apply H. right. exact Hi.
Qed.

Lemma C72_items_lemma {A} size ops : (forall n, ~ In (ONth n) ops) ->
  forall h : holder A, own_run true size ops h = own_run false size ops h.
Proof.
  induction ops as [|op ops IH]; intros H h; cbn [own_run]; [reflexivity|].
  assert (Hs : own_step true size op h = own_step false size op h).
  { destruct op; try reflexivity. exfalso. apply (H n). left. reflexivity. }
  rewrite Hs. destruct (own_step false size op h) as [[es h1]|p|u]; cbn [obind]; try reflexivity.
  rewrite IH; [reflexivity|]. intros n Hi. apply (H n). right. exact Hi.
Qed.
