(* The messages, sources and conversions that the text of oct/src/error describes are those of the model. *)
From Coq Require Import String Lia.
From Verif Require Import Base BaseFacts Streams Utf8 Types Traits SizedSlice SizedStr SourceNames SourceSyntax SourceMeaning SourceRun SourceErrors SourceDiscriminant ErrorText Format SourceText SpecErrorSource.
From Verif Require Import Decode Encode SpecCalls SpecDecode RejectProofs.
Local Open Scope list_scope.
Local Open Scope Z_scope.

Lemma pad_plain d : pad_integral (Options false None false [x20] None None None) [] d = d.
Proof. unfold pad_integral, padding; cbn. now rewrite app_nil_r. Qed.
Lemma pad_hex w d : pad_integral (Options false None true [x20] None (Some w) None) (ErrorText.txt "0x") d = pad w d.
Proof. reflexivity. Qed.
Lemma pad_prefix w d : pad_integral (Options true None true [x20] None (Some w) None) (ErrorText.txt "0x") d = [x30; x78] ++ pad (w - 2) d.
Proof. unfold pad_integral, pad; cbn. do 4 f_equal. lia. Qed.
Lemma pad_none d : pad_integral (Options true None false [x20] None None None) (ErrorText.txt "0x") d = [x30; x78] ++ pad (0 - 2) d.
Proof. unfold pad_integral, padding, pad; cbn. now rewrite app_nil_r. Qed.
Lemma int_plain i z : int_text (Options false None false [x20] None None None) false i z = Some (fmt_signed z).
Proof.
  unfold int_text, fmt_signed. destruct (0 <=? z) eqn:E.
  - rewrite pad_plain. apply Z.leb_le in E. replace (z <? 0) with false; [reflexivity|]. symmetry; apply Z.ltb_ge; lia.
  - apply Z.leb_gt in E. replace (z <? 0) with true; [reflexivity|]. symmetry; apply Z.ltb_lt; lia.
Qed.
Lemma fmt_of_nat n : fmt_signed (Z.of_nat n) = fmt_nat n.
Proof.
  unfold fmt_signed, fmt_nat. replace (Z.of_nat n <? 0) with false by (symmetry; apply Z.ltb_ge; lia). now rewrite nat_N_Z || (f_equal; lia).
Qed.

(* the numbers that are texts in the model *)
Lemma fmt_limits : fmt_signed 65535 = ErrorText.txt "65535" /\ fmt_signed (-32768) = ErrorText.txt "-32768" /\ fmt_signed 32767 = ErrorText.txt "32767".
Proof. now vm_compute. Qed.

Lemma int_hex w i z : 0 <= z < 2 ^ (8 * Z.of_nat (iwidth i)) ->
  int_text (Options false None true [x20] None (Some w) None) true i z = Some (fmt_hex w (Z.to_N z)).
Proof. intros L. unfold int_text. now rewrite pad_hex, Z.mod_small. Qed.
Lemma int_prefix w i z : 0 <= z < 2 ^ (8 * Z.of_nat (iwidth i)) ->
  int_text (Options true None true [x20] None (Some w) None) true i z = Some (fmt_hex_prefix w (Z.to_N z)).
Proof. intros L. unfold int_text. now rewrite pad_prefix, Z.mod_small. Qed.
Lemma int_prefix0 i z : 0 <= z < 2 ^ (8 * Z.of_nat (iwidth i)) ->
  int_text (Options true None false [x20] None None None) true i z = Some (fmt_hex_prefix 0 (Z.to_N z)).
Proof. intros L. unfold int_text. now rewrite pad_none, Z.mod_small. Qed.

Lemma value_data r x : IsValue r x -> exists t v a f, x = XData t v a f.
Proof. destruct 1; unfold record, wraps; repeat eexists. Qed.

Ltac run := cbv -[message int_text display fmt_signed fmt_nat fmt_hex fmt_hex_prefix app Z.to_N].
Ltac same := rewrite ?app_nil_r; reflexivity.
Lemma message_ok : forall r x, IsValue r x -> exists n, forall m, (n <= m)%nat -> message m x = Some (display r).
Proof.
  induction 1; try (destruct IHIsValue as [n IH]; exists (S n)); try exists 1%nat;
    intros [|m] L; try lia; try specialize (IH m ltac:(lia)).
  all: try match goal with E : IsValue _ ?x |- _ => is_var x; destruct (value_data _ _ E) as (?&?&?&?&->) end.
  all: try match goal with |- context [display (RGeneric ?e)] => change (display (RGeneric e)) with (display e); set (t := display e) in *; clearbody t end.
  all: cbn [message type_name record wraps display]; unfold usize; rewrite <- ?fmt_of_nat.
  all: repeat match goal with |- context [Z.of_nat ?n] => generalize (Z.of_nat n); intros ? end.
  all: try match goal with |- context [b2z ?b] => pose proof (b2z_range b); set (v := b2z b) in *; clearbody v end.
  all: try match goal with |- context [Z.of_N ?b] => pose proof (N2Z.is_nonneg b); pose proof (proj1 (N2Z.inj_lt _ _) H); rewrite <- (N2Z.id b) at 2; set (v := Z.of_N b) in *; clearbody v end.
  all: run.
  all: rewrite ?IH, ?int_plain; cbv iota beta.
  all: try (rewrite int_hex by (cbn; lia)); try (rewrite int_prefix by (cbn; lia)); try (rewrite int_prefix0 by (cbn; lia)); cbv iota beta.
  all: try same.
Qed.

(* ---- sources *)
Lemma source_ok r x : IsValue r x ->
  match source r with
  | Some r' => exists y, source_of x = Some (XSome y) /\ IsValue r' y
  | None => source_of x = Some XNone
  end.
Proof.
  destruct 1; cbn [source]; try (eexists; split; [|eassumption]).
  all: try match goal with E : IsValue _ ?x |- _ => is_var x; destruct (value_data _ _ E) as (?&?&?&?&->) end.
  all: try match goal with |- context [b2z ?b] => set (v := b2z b) in *; clearbody v end.
  all: try match goal with |- context [Z.of_N ?b] => set (v := Z.of_N b) in *; clearbody v end.
  all: unfold usize, record, wraps; repeat match goal with |- context [Z.of_nat ?n] => generalize (Z.of_nat n); intros ? end.
  all: cbv; try reflexivity.
Qed.

(* ---- conversions *)
Lemma convert_step y t v x : (t, v) = (id_CollectionEncodeError, id_BadLength) /\ y = id_GenericEncodeError
    \/ (t, v) = (id_CollectionEncodeError, id_BadItem) /\ y = id_GenericEncodeError
    \/ (t, v) = (id_EnumEncodeError, id_BadDiscriminant) /\ y = id_GenericEncodeError
    \/ (t, v) = (id_EnumEncodeError, id_BadField) /\ y = id_GenericEncodeError
    \/ (t, v) = (id_CollectionDecodeError, id_BadLength) /\ y = id_GenericDecodeError
    \/ (t, v) = (id_CollectionDecodeError, id_BadItem) /\ y = id_GenericDecodeError
    \/ (t, v) = (id_EnumDecodeError, id_BadField) /\ y = id_GenericDecodeError ->
  forall m, convert (S m) y (wraps t v x) = convert m y x.
Proof.
  intros H m. repeat (destruct H as [H|H]); destruct H as [E ->]; injection E as -> ->; cbv -[convert]; now destruct (convert _ _ _).
Qed.
Lemma convert_item y t i x : (t, y) = (id_ItemEncodeError, id_GenericEncodeError) \/ (t, y) = (id_ItemDecodeError, id_GenericDecodeError) ->
  forall m, convert (S m) y (record t [(id_index, usize i); (id_error, x)]) = convert m y x.
Proof. unfold usize. generalize (Z.of_nat i). intros z [[= -> ->]|[= -> ->]] m; cbv -[convert]; now destruct (convert _ _ _). Qed.

Ltac deeper n := exists (S n); intros [|m] L; [exfalso; lia|].
Lemma generic_enc_ok : forall e r x, of_eerr e = Some r -> IsValue r x -> exists n, forall m, (n <= m)%nat ->
  match of_eerr (into_generic_enc e) with
  | Some r' => exists y, convert m id_GenericEncodeError x = Some y /\ IsValue r' y
  | None => convert m id_GenericEncodeError x = None
  end.
Proof.
  induction e; intros r x R V; cbn [of_eerr option_map] in R; try discriminate R;
    try (destruct (of_eerr e) as [r0|] eqn:R0; [|discriminate R]; cbn [option_map] in R);
    injection R as <-; inversion V; subst; cbn [into_generic_enc of_eerr option_map].
  all: try match goal with E : IsValue (RItem _ _ _) _ |- _ => inversion E; subst end.
  all: try match goal with E : IsValue ?r ?x, IH : forall r x, Some _ = Some r -> _ |- _ => destruct (IH r x eq_refl E) as [k IHk] end.
  3,5,6: solve [deeper k; rewrite convert_step by tauto; apply IHk; lia].
  3: solve [deeper (S k); destruct m as [|m]; [lia|]; rewrite convert_step by tauto; rewrite convert_item by tauto; apply IHk; lia].
  all: deeper O.
  all: try match goal with |- exists y, convert _ _ ?x = _ /\ _ => inversion V; subst; eexists; split; [reflexivity|]; eauto using IsValue end.
  all: cbv; reflexivity.
Qed.

Lemma generic_dec_ok : forall e r x, of_derr e = Some r -> IsValue r x -> exists n, forall m, (n <= m)%nat ->
  match of_derr (into_generic_dec e) with
  | Some r' => exists y, convert m id_GenericDecodeError x = Some y /\ IsValue r' y
  | None => convert m id_GenericDecodeError x = None
  end.
Proof.
  induction e; intros ρ x R V; cbn [of_derr option_map] in R; try discriminate R;
    try (destruct (of_derr e) as [r0|] eqn:R0; [|discriminate R]; cbn [option_map] in R);
    injection R as <-; inversion V; subst; cbn [into_generic_dec of_derr option_map].
  all: try match goal with E : IsValue (RItem _ _ _) _ |- _ => inversion E; subst end.
  all: try match goal with E : IsValue ?r ?x, IH : forall r x, Some _ = Some r -> _ |- _ => destruct (IH r x eq_refl E) as [k IHk] end.
  7,9,11: solve [deeper k; rewrite convert_step by tauto; apply IHk; lia].
  7: solve [deeper (S k); destruct m as [|m]; [lia|]; rewrite convert_step by tauto; rewrite convert_item by tauto; apply IHk; lia].
  7: solve [deeper O; exists (XData id_GenericDecodeError id_UnassignedDiscriminant [] [(id_value, XInt U128 (to_u128 d))]); split;
            [unfold to_u128; destruct i; cbv -[Z.modulo]; reflexivity | constructor; unfold to_u128; apply Z.mod_pos_bound; reflexivity]].
  all: deeper O.
  1: cbv; reflexivity.
  all: inversion V; subst; eexists; split; [reflexivity|]; eauto using IsValue.
Qed.

(* ---- the errors have values *)
Fixpoint eerr_value (e : eerr) : forall r, of_eerr e = Some r -> exists x, IsValue r x.
Proof.
  destruct e; cbn [of_eerr]; intros r R; try discriminate R.
  all: try (destruct (of_eerr e) as [r0|] eqn:R0; [|discriminate R]; destruct (eerr_value e r0 R0) as [x0 V0]).
  all: injection R as <-; eauto 6 using IsValue.
Qed.
(* numbers that their fields hold *)
Fixpoint ranged (e : derr) : Prop :=
  match e with
  | DLen e | DItem _ e | DBad e | DField e => ranged e
  | DChar c => 0 <= c < 2 ^ 32
  | DGUnassigned d => 0 <= d < 2 ^ 128
  | _ => True
  end.
Fixpoint derr_value (e : derr) : ranged e -> forall r, of_derr e = Some r -> exists x, IsValue r x.
Proof.
  destruct e; cbn [of_derr ranged]; intros K ρ R; try discriminate R.
  all: try (destruct (of_derr e) as [r0|] eqn:R0; [|discriminate R]; destruct (derr_value e K r0 R0) as [x0 V0]).
  all: injection R as <-; try solve [exists (XData id_EnumDecodeError id_UnassignedDiscriminant [] [(id_value, XInt r d)]); constructor]; eauto 6 using IsValue.
Qed.
Lemma sane_ranged e : sane e -> ranged e.
Proof. induction e; cbn [sane ranged]; auto; lia. Qed.

Lemma C115_display_lemma r x : IsValue r x -> exists d, forall n, (d <= n)%nat -> message n x = Some (display r).
Proof. apply message_ok. Qed.
Lemma C115_encode_lemma checks t v o o' e r : encode checks t v o = (o', Err e) -> of_eerr e = Some r -> exists x, IsValue r x.
Proof. intros _. apply eerr_value. Qed.
Lemma C115_decode_lemma t z i i' e r : EnumsOk t -> dec_ety t = Some z -> in_bounds i ->
  decode t i = (i', Err e) -> of_derr e = Some r -> exists x, IsValue r x.
Proof.
  intros Hok Hz Hw Hd. apply derr_value, sane_ranged.
  destruct (@C89_run_lemma t z i i' e Hok Hz Hw Hd) as (bs & post & _ & _ & Ha). exact (rejects_sane Ha).
Qed.

Lemma generic_borrow_ok x : IsValue RBorrow x -> exists n, forall m, (n <= m)%nat -> exists y, convert m id_GenericEncodeError x = Some y /\ IsValue (RGeneric RBorrow) y.
Proof.
  intro H. inversion H; subst. exists 2%nat. intros m L. destruct m as [|[|m]]; [lia|lia|].
  eexists. split; [vm_compute; reflexivity|]. constructor. exact H.
Qed.
