(* C121: the auto traits of the types of the crate. *)
From Coq Require Import Lia.
From Verif Require Import Base Types Traits SourceNames SourceSyntax SourceMeaning SourceText SourceHeaders SourceTypes SpecSource SpecDecode SpecHeaders HeaderTypes AutoTraits.

Lemma unclaimed k : claimed k = false.
Proof. destruct k; vm_compute; reflexivity. Qed.

Section Proofs.
  Variable given : auto -> rty -> Prop.
  Notation Auto := (Auto given).

  Lemma defined_iff k x ts d : definition x = Some d -> length ts = length (td_types d ++ td_consts d) ->
    (Auto k (YPath [(x, ts)]) <-> forall t, In t (fields d ts) -> Auto k t).
  Proof.
    intros D L. split; [|apply Auto_defined; [apply unclaimed|assumption|assumption]].
    intro H. inversion H; subst.
    - unfold opaque in H0. destruct ts; [|contradiction]. destruct H0 as [H0 _]. congruence.
    - match goal with E : definition x = Some _ |- _ => rewrite D in E; injection E as <- end. assumption.
    - congruence.
    - congruence.
    - vm_compute in D. discriminate.
    - vm_compute in D. discriminate.
  Qed.
  Lemma harmless_iff k x : definition x = None -> harmless x = true -> Auto k (YPath [(x, [])]).
  Proof. intros. now apply Auto_harmless. Qed.
  Lemma transparent_iff k x t : definition x = None -> transparent x = true -> name_eqb x id_Box = false -> (Auto k (YPath [(x, [t])]) <-> Auto k t).
  Proof.
    intros D H B. split; [|now apply Auto_transparent]. intro I. inversion I; subst; auto; try congruence; try (now vm_compute in B).
  Qed.
  Lemma slice_iff k t : Auto k (YSlice t) <-> Auto k t.
  Proof. split; [|apply Auto_slice]. intro I. inversion I; subst; auto. now cbn in H. Qed.
  Lemma array_iff k t n : Auto k (YArr t n) <-> Auto k t.
  Proof. split; [|apply Auto_array]. intro I. inversion I; subst; auto. now cbn in H. Qed.
  Lemma tuple_iff k ts : Auto k (YTup ts) <-> forall t, In t ts -> Auto k t.
  Proof. split; [|apply Auto_tuple]. intro I. inversion I; subst; auto. now cbn in H. Qed.

  Lemma given_iff k x : definition x = None -> harmless x = false -> (Auto k (YPath [(x, [])]) <-> given k (YPath [(x, [])])).
  Proof.
    intros D H. split; [|intro G; apply Auto_given; [split|]; assumption].
    intro I. inversion I; subst; congruence.
  Qed.
  Lemma fn_iff k : Auto k YFn.
  Proof. apply Auto_fn. Qed.

  Lemma all2 (P : rty -> Prop) a b : (forall t, a = t \/ b = t \/ False -> P t) <-> P a /\ P b.
  Proof. split; [intro H; split; apply H; auto|]. intros [A B] t [<-|[<-|[]]]; assumption. Qed.
  Lemma all3 (P : rty -> Prop) a b c : (forall t, a = t \/ b = t \/ c = t \/ False -> P t) <-> P a /\ P b /\ P c.
  Proof. split; [intro H; repeat split; apply H; auto|]. intros (A & B & C) t [<-|[<-|[<-|[]]]]; assumption. Qed.
  Lemma all1 (P : rty -> Prop) a : (forall t, a = t \/ False -> P t) <-> P a.
  Proof. split; [intro H; apply H; auto|]. intros A t [<-|[]]; assumption. Qed.

  Lemma usize_auto k : Auto k (plain id_usize).
  Proof. apply Auto_harmless; reflexivity. Qed.
  Lemma u8_auto k : Auto k (plain id_u8).
  Proof. apply Auto_harmless; reflexivity. Qed.

  Lemma sized_slice_auto k t n : Auto k (applied id_SizedSlice [t; n]) <-> Auto k t.
  Proof.
    unfold applied. rewrite (defined_iff k _ [t; n] def_SizedSlice) by reflexivity. cbv [fields def_SizedSlice td_bounds td_types td_consts td_variants]. cbn.
    rewrite all2, array_iff, transparent_iff by reflexivity. split; [tauto|]. intro. split; [assumption|]. apply usize_auto.
  Qed.
  Lemma sized_iter_auto k t n : Auto k (applied id_SizedIter [t; n]) <-> Auto k t.
  Proof.
    unfold applied. rewrite (defined_iff k _ [t; n] def_SizedIter) by reflexivity. cbv [fields def_SizedIter td_bounds td_types td_consts td_variants]. cbn.
    rewrite all3, array_iff, transparent_iff by reflexivity. split; [tauto|]. intro. split; [assumption|]. split; apply usize_auto.
  Qed.
  Lemma sized_str_auto k n : Auto k (applied id_SizedStr [n]).
  Proof.
    unfold applied. rewrite (defined_iff k _ [n] def_SizedStr) by reflexivity. cbv [fields def_SizedStr td_bounds td_types td_consts td_variants]. cbn.
    rewrite all1. apply sized_slice_auto, u8_auto.
  Qed.
  Lemma slot_auto k t : Auto k (applied id_Slot [t]).
  Proof.
    unfold applied. rewrite (defined_iff k _ [t] def_Slot) by reflexivity. cbv [fields def_Slot td_bounds td_types td_consts td_variants]. cbn.
    rewrite all3. split; [|split; [apply usize_auto|apply Auto_transparent; [reflexivity|reflexivity|apply fn_iff]]].
    destruct k; try (apply Auto_box; [discriminate|apply slice_iff, u8_auto]). apply Auto_box_unpin.
  Qed.
  Lemma input_auto k : Auto k (plain id_Input).
  Proof.
    unfold plain. rewrite (defined_iff k _ [] def_Input) by reflexivity. cbv [fields def_Input td_bounds td_types td_consts td_variants]. cbn.
    rewrite all2. split; [|apply usize_auto].
    destruct k; constructor; apply slice_iff, u8_auto.
  Qed.
  Lemma output_auto k : Auto k (plain id_Output) <-> k <> UnwindSafe.
  Proof.
    unfold plain. rewrite (defined_iff k _ [] def_Output) by reflexivity. cbv [fields def_Output td_bounds td_types td_consts td_variants]. cbn.
    rewrite all2. split.
    - intros [H _] ->. inversion H; subst; try discriminate. contradiction.
    - intro N. split; [|apply usize_auto]. destruct k; try congruence; constructor; apply slice_iff, u8_auto.
  Qed.

  (* ---- the error types *)
  Ltac open_error d ts := unfold plain, applied; rewrite (defined_iff _ _ ts d) by reflexivity; cbv [fields d td_bounds td_types td_consts td_variants]; cbn.
  Ltac parts := repeat (match goal with H : _ \/ _ |- _ => destruct H as [<-|H] | H : False |- _ => destruct H end).

  Lemma char_error_auto k : Auto k (plain id_CharDecodeError).
  Proof. open_error def_CharDecodeError (@nil rty). intros t H. parts; apply Auto_harmless; reflexivity. Qed.
  Lemma c_string_error_auto k : Auto k (plain id_CStringDecodeError).
  Proof. open_error def_CStringDecodeError (@nil rty). intros t H. parts; apply Auto_harmless; reflexivity. Qed.
  Lemma input_error_auto k : Auto k (plain id_InputError).
  Proof. open_error def_InputError (@nil rty). intros t H. parts; apply Auto_harmless; reflexivity. Qed.
  Lemma output_error_auto k : Auto k (plain id_OutputError).
  Proof. open_error def_OutputError (@nil rty). intros t H. parts; apply Auto_harmless; reflexivity. Qed.
  Lemma length_error_auto k : Auto k (plain id_LengthError).
  Proof. open_error def_LengthError (@nil rty). intros t H. parts; apply Auto_harmless; reflexivity. Qed.
  Lemma isize_error_auto k : Auto k (plain id_IsizeEncodeError).
  Proof. open_error def_IsizeEncodeError (@nil rty). intros t H. parts; apply Auto_harmless; reflexivity. Qed.
  Lemma usize_error_auto k : Auto k (plain id_UsizeEncodeError).
  Proof. open_error def_UsizeEncodeError (@nil rty). intros t H. parts; apply Auto_harmless; reflexivity. Qed.
  Lemma non_zero_error_auto k : Auto k (plain id_NonZeroDecodeError).
  Proof. open_error def_NonZeroDecodeError (@nil rty). intros t H. parts; apply Auto_harmless; reflexivity. Qed.
  Lemma time_error_auto k : Auto k (plain id_SystemTimeDecodeError).
  Proof. open_error def_SystemTimeDecodeError (@nil rty). intros t H. parts; apply Auto_harmless; reflexivity. Qed.
  Lemma utf8_error_auto k : Auto k (plain id_Utf8Error).
  Proof. open_error def_Utf8Error (@nil rty). intros t H. parts; apply Auto_harmless; reflexivity. Qed.
  Lemma utf16_error_auto k : Auto k (plain id_Utf16Error).
  Proof. open_error def_Utf16Error (@nil rty). intros t H. parts; apply Auto_harmless; reflexivity. Qed.
  Lemma string_error_auto k : Auto k (plain id_StringError).
  Proof. open_error def_StringError (@nil rty). intros t H. parts; [apply utf16_error_auto|apply utf8_error_auto|apply length_error_auto]. Qed.
  Lemma generic_encode_auto k : Auto k (plain id_GenericEncodeError).
  Proof.
    open_error def_GenericEncodeError (@nil rty). intros t H. parts; [apply Auto_harmless; reflexivity|apply isize_error_auto|apply usize_error_auto].
  Qed.
  Lemma generic_decode_auto k : Auto k (plain id_GenericDecodeError).
  Proof.
    open_error def_GenericDecodeError (@nil rty). intros t H.
    parts; [apply utf8_error_auto|apply c_string_error_auto|apply non_zero_error_auto|apply length_error_auto|apply Auto_harmless; reflexivity|apply time_error_auto].
  Qed.

  Lemma coll_encode_auto k l i : Auto k (applied id_CollectionEncodeError [l; i]) <-> Auto k l /\ Auto k i.
  Proof. open_error def_CollectionEncodeError [l; i]. now rewrite all2. Qed.
  Lemma coll_decode_auto k l i : Auto k (applied id_CollectionDecodeError [l; i]) <-> Auto k l /\ Auto k i.
  Proof. open_error def_CollectionDecodeError [l; i]. now rewrite all2. Qed.
  Lemma item_encode_auto k i e : Auto k (applied id_ItemEncodeError [i; e]) <-> Auto k i /\ Auto k e.
  Proof. open_error def_ItemEncodeError [i; e]. now rewrite all2. Qed.
  Lemma item_decode_auto k i e : Auto k (applied id_ItemDecodeError [i; e]) <-> Auto k i /\ Auto k e.
  Proof. open_error def_ItemDecodeError [i; e]. now rewrite all2. Qed.
  Lemma ref_cell_auto k e : Auto k (applied id_RefCellEncodeError [e]) <-> Auto k e.
  Proof. open_error def_RefCellEncodeError [e]. rewrite all2. split; [tauto|]. intro. split; [apply Auto_harmless; reflexivity|assumption]. Qed.
  Lemma enum_encode_auto k d f :
    Auto k (applied id_EnumEncodeError [d; f]) <-> Auto k (YQual d [(id_Encode, [])] [(id_Error, [])]) /\ Auto k f.
  Proof. open_error def_EnumEncodeError [d; f]. now rewrite all2. Qed.
  Lemma enum_decode_auto k d f :
    Auto k (applied id_EnumDecodeError [d; f]) <-> Auto k (YQual d [(id_Decode, [])] [(id_Error, [])]) /\ Auto k d /\ Auto k f.
  Proof. open_error def_EnumDecodeError [d; f]. now rewrite all3. Qed.

  Lemma infallible_auto k : Auto k (plain id_Infallible).
  Proof. apply Auto_harmless; reflexivity. Qed.
  Lemma int_auto k r : Auto k (plain (int_name r)).
  Proof. apply Auto_harmless; destruct r; reflexivity. Qed.
  Lemma int_encode_auto k r : Auto k (YQual (plain (int_name r)) [(id_Encode, [])] [(id_Error, [])]).
  Proof.
    apply (Auto_error given k _ (TInt r) _ id_Encode (rust_ety (int_ety r))).
    - destruct r; reflexivity.
    - reflexivity.
    - exact (encode_headers (TInt r) eq_refl).
    - destruct r; cbn; first [apply infallible_auto|apply usize_error_auto|apply isize_error_auto].
  Qed.
  Lemma int_decode_auto k r : Auto k (YQual (plain (int_name r)) [(id_Decode, [])] [(id_Error, [])]).
  Proof.
    apply (Auto_error given k _ (TInt r) _ id_Decode (plain id_Infallible)).
    - destruct r; reflexivity.
    - reflexivity.
    - exact (decode_headers (TInt r) eq_refl).
    - apply infallible_auto.
  Qed.
  Lemma bool_decode_auto k : Auto k (YQual (plain id_bool) [(id_Decode, [])] [(id_Error, [])]).
  Proof.
    apply (Auto_error given k _ TBool _ id_Decode (plain id_Infallible)).
    - reflexivity.
    - reflexivity.
    - exact (decode_headers TBool eq_refl).
    - apply infallible_auto.
  Qed.

  Lemma ety_auto k y : Auto k (rust_ety y).
  Proof.
    induction y; cbn [rust_ety].
    - apply infallible_auto.
    - apply usize_error_auto.
    - apply isize_error_auto.
    - now apply coll_encode_auto.
    - apply item_encode_auto. split; [apply usize_auto|assumption].
    - apply tuple_iff. intros t [<-|[<-|[]]]; [apply usize_auto|assumption].
    - apply enum_encode_auto. split; [apply int_encode_auto|assumption].
    - now apply ref_cell_auto.
    - apply generic_encode_auto.
  Qed.
  Lemma dety_auto k z : Auto k (rust_dety z).
  Proof.
    induction z; cbn [rust_dety].
    - apply infallible_auto.
    - apply char_error_auto.
    - apply non_zero_error_auto.
    - apply c_string_error_auto.
    - apply utf8_error_auto.
    - apply length_error_auto.
    - apply time_error_auto.
    - now apply coll_decode_auto.
    - apply item_decode_auto. split; [apply usize_auto|assumption].
    - destruct d as [r|]; apply enum_decode_auto.
      + split; [apply int_decode_auto|]. split; [apply int_auto|assumption].
      + split; [apply bool_decode_auto|]. split; [apply Auto_harmless; reflexivity|assumption].
    - apply generic_decode_auto.
  Qed.
End Proofs.

Lemma decided_unique {A} (f : nat -> A) a b : Decided f a -> Decided f b -> a = b.
Proof. intros [m H] [n K]. rewrite <- (H (m + n)) by lia. apply K. lia. Qed.
Lemma C121_all_errors given k t e : of_rust t ->
  (Decided (fun n => error_of n id_Encode t) (Some e) -> Auto given k e) /\
  (Decided (fun n => error_of n id_Decode t) (Some e) -> Auto given k e).
Proof.
  intro R. split; intro D.
  - pose proof (decided_unique _ _ _ D (encode_headers t R)) as E. destruct (enc_ety t); [|discriminate]. injection E as ->. apply ety_auto.
  - pose proof (decided_unique _ _ _ D (decode_headers t R)) as E. destruct (dec_ety t); [|discriminate]. injection E as ->. apply dety_auto.
Qed.
Lemma C121_methods given k x : In x [id_InputError; id_OutputError; id_LengthError; id_StringError; id_Utf8Error; id_Utf16Error] -> Auto given k (plain x).
Proof.
  intros [<-|[<-|[<-|[<-|[<-|[<-|[]]]]]]].
  - apply input_error_auto.
  - apply output_error_auto.
  - apply length_error_auto.
  - apply string_error_auto.
  - apply utf8_error_auto.
  - apply utf16_error_auto.
Qed.
Lemma C121_all_parts given k A B :
  (Auto given k (applied id_CollectionEncodeError [A; B]) <-> Auto given k A /\ Auto given k B) /\
  (Auto given k (applied id_CollectionDecodeError [A; B]) <-> Auto given k A /\ Auto given k B) /\
  (Auto given k (applied id_ItemEncodeError [A; B]) <-> Auto given k A /\ Auto given k B) /\
  (Auto given k (applied id_ItemDecodeError [A; B]) <-> Auto given k A /\ Auto given k B) /\
  (Auto given k (applied id_RefCellEncodeError [A]) <-> Auto given k A) /\
  (Auto given k (applied id_EnumEncodeError [A; B]) <-> Auto given k (YQual A [(id_Encode, [])] [(id_Error, [])]) /\ Auto given k B) /\
  (Auto given k (applied id_EnumDecodeError [A; B]) <-> Auto given k (YQual A [(id_Decode, [])] [(id_Error, [])]) /\ Auto given k A /\ Auto given k B).
Proof.
  split; [apply coll_encode_auto|]. split; [apply coll_decode_auto|]. split; [apply item_encode_auto|]. split; [apply item_decode_auto|].
  split; [apply ref_cell_auto|]. split; [apply enum_encode_auto|apply enum_decode_auto].
Qed.
