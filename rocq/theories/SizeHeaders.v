(* The headers of SizedEncode say which types implement it, as SizedTypes.v does. *)
From Coq Require Import Lia.
From Verif Require Import Base Utf8 Types TypesFacts Traits SizedTypes SourceNames SourceSyntax SourceMeaning SourceSizes SourceText SourceRun SourceHeaders SpecHeaders SpecSource SpecDecode HeaderProofs HeaderTypes AvailProofs ErrorProofs.

(* the supertrait *)
Lemma sized_encode t : sized t = true -> enc_ety t <> None.
Proof.
  induction t using ty_ind_strong; cbn [sized enc_ety]; intros S; try discriminate.
  all: try (now apply IHt).
  all: try (specialize (IHt S); now destruct (enc_ety t)).
  - apply andb_prop in S. destruct S as [_ S]. destruct (enc_ety t1) as [x|]; [|discriminate]. destruct (enc_ety t2) as [y|]; [|discriminate].
    apply ety_eqb_eq in S. subst y. unfold into_ety. now rewrite ety_eqb_refl.
  - apply andb_prop in S. destruct S as [_ S]. now destruct (match map enc_ety ts with [] => None | _ => _ end).
  - apply andb_prop in S. destruct S as [_ S]. now destruct (all_generic _).
  - apply andb_prop in S. destruct S as [_ S]. now destruct (forallb (fun x => all_generic _) vs).
Qed.

Definition Siz (t : ty) : Prop := Eventually (fun n => sized_of n t = sized t).
Ltac look := cbv -[holds error_of sized_of rust_ety enc_ety ety_eqb rty_eqb bounds int_name int_ety sized].
Ltac do_it :=
  cbn [sized_of]; look;
  repeat match goal with
  | |- context [bounds _ _ _ _ _ _ (_ :: _)] => rewrite bounds_cons; look
  | |- context [bounds _ _ _ _ _ _ []] => progress (cbn [bounds]; cbv beta iota zeta)
  | H : error_of _ _ _ = _ |- _ => progress (rewrite H; look)
  | H : sized_of _ _ = _ |- _ => progress (rewrite H; look)
  | |- context [rty_eqb (rust_ety _) (rust_ety _)] => rewrite rust_ety_eqb; look
  end.
Ltac bare := apply ev_now; intros n; do_it; reflexivity.
Ltac part x := intros x H; apply (ev_step _ _ H); intros n A; cbn [sized]; destruct (sized x); do_it; reflexivity.
Lemma S_int i : Siz (TInt i). Proof. destruct i; bare. Qed.
Lemma S_nonzero i : Siz (TNonZero i). Proof. destruct i; bare. Qed.
Lemma S_flat t : In t [TF32; TF64; TBool; TChar; TUnit; TPhantomData; TRangeFull; TInfallible; TDuration; TSystemTime; TIpv4; TIpv6; TIpAddr; TSockV4; TSockV6; TSockAddr; TStr; TString; TCStr; TCString; TPhantomPinned] -> Siz t.
Proof. intros H. repeat (destruct H as [<-|H]); [..|destruct H]; bare. Qed.
Lemma S_sizedstr k : Siz (TSizedStr k). Proof. bare. Qed.
Lemma S_slice t : Siz (TSlice t). Proof. bare. Qed.
Lemma S_vec t : Siz (TVec t). Proof. bare. Qed.
Lemma S_linked t : Siz (TLinked t). Proof. bare. Qed.
Lemma S_hashmap k v : Siz (THashMap k v). Proof. bare. Qed.
Lemma S_hashset k : Siz (THashSet k). Proof. bare. Qed.
Lemma S_option : forall t, Siz t -> Siz (TOption t). Proof. part t. Qed.
Lemma S_bound : forall t, Siz t -> Siz (TBound t). Proof. part t. Qed.
Lemma S_array k : forall t, Siz t -> Siz (TArray t k). Proof. part t. Qed.
Lemma S_sizedslice k : forall t, Siz t -> Siz (TSizedSlice t k). Proof. part t. Qed.
Lemma S_cow : forall t, Siz t -> Siz (TCow t). Proof. part t. Qed.
Lemma S_refcell : forall t, Siz t -> Siz (TRefCell t). Proof. part t. Qed.
Lemma S_lock l : forall t, Siz t -> Siz (TLock l t). Proof. destruct l; part t. Qed.
Lemma S_range : forall t, Siz t -> Siz (TRange t). Proof. part t. Qed.
Lemma S_rangefrom : forall t, Siz t -> Siz (TRangeFrom t). Proof. part t. Qed.
Lemma S_rangeinclusive : forall t, Siz t -> Siz (TRangeInclusive t). Proof. part t. Qed.
Lemma S_rangeto : forall t, Siz t -> Siz (TRangeTo t). Proof. part t. Qed.
Lemma S_rangetoinclusive : forall t, Siz t -> Siz (TRangeToInclusive t). Proof. part t. Qed.
Lemma S_wrap w : forall t, of_rust (TWrap w t) -> Siz t -> Siz (TWrap w t).
Proof.
  intros t W H. destruct w; try (apply (ev_step _ _ H); intros n A; cbn [sized]; destruct (sized t); do_it; reflexivity).
  clear H. apply ev_now. intros n. destruct t; try discriminate W; [destruct i; try discriminate W|]; do_it; reflexivity.
Qed.
Lemma S_result a b : of_rust (TResult a b) -> Siz a -> Siz b -> Siz (TResult a b).
Proof.
  intros W H G. unfold of_rust in W. cbn [contains unlike_rust orb] in W. apply orb_false_elim in W.
  apply (ev_step _ _ (ev_and _ _ (ev_and _ _ H G) (ev_and _ _ (encode_headers a (proj1 W)) (encode_headers b (proj2 W))))). intros n ((A & B) & C & D). cbn [sized].
  destruct (sized a); [|do_it; reflexivity]. destruct (sized b); [|do_it; try reflexivity].
  destruct (enc_ety a) as [x|], (enc_ety b) as [y|]; cbn [option_map] in *; do_it; try reflexivity.
  rewrite (ety_eqb_sym y x). destruct (ety_eqb x y); do_it; reflexivity.
Qed.
Lemma S_fields ts : Forall Siz ts -> Eventually (fun n => forallb (sized_of n) ts = forallb sized ts).
Proof. intros H. induction H as [|t ts [a A] _ [d D]]; [now exists 0|]. exists (a + d). intros n L. cbn [forallb]. now rewrite A, D by lia. Qed.
Lemma S_struct ts : of_rust (TStruct ts) -> Forall Siz ts -> Siz (TStruct ts).
Proof.
  intros W H. apply (ev_step _ _ (ev_and _ _ (S_fields ts H) (encode_headers _ W))). intros n (A & B). cbn [sized_of sized_type sized]. unfold derivable. rewrite A, B.
  now destruct (enc_ety _).
Qed.
Lemma S_enum r vs : of_rust (TEnum r vs) -> Forall (fun v => Forall Siz (snd v)) vs -> Siz (TEnum r vs).
Proof.
  intros W H.
  assert (I : Eventually (fun n => forallb (fun v => forallb (sized_of n) (snd v)) vs = forallb (fun v => forallb sized (snd v)) vs)).
  { clear W. induction H as [|v vs V _ [d D]]; [now exists 0|]. destruct (S_fields _ V) as [a A]. exists (a + d). intros n L. cbn [forallb]. now rewrite A, D by lia. }
  apply (ev_step _ _ (ev_and _ _ I (encode_headers _ W))). intros n (A & B). cbn [sized_of sized_type sized]. unfold derivable. rewrite A, B. now destruct (enc_ety _).
Qed.

(* tuples: the bounds on SizedEncode, and those on Encode *)
Fixpoint both (im : impl) (st : list (name * ty)) (bs : list (rty * path)) (ts : list ty) {struct ts} : Prop :=
  match ts, bs with
  | [], [] => True
  | t :: ts', b :: c :: bs' =>
    (exists x, b = (YPath [(x, [])], [(id_SizedEncode, [])]) /\ c = (YPath [(x, [])], [(id_Encode, [YAssoc id_Error (YPath [(id_E, [])])])]) /\
       is_param x (im_types im) = true /\ lookup x st = Some t) /\ both im st bs' ts'
  | _, _ => False
  end.
Lemma both_sized sz im st : forall ts bs, both im st bs ts -> sized_bounds sz st bs = forallb sz ts.
Proof.
  induction ts as [|t ts IH]; intros [|b [|c bs]] H; try now destruct H.
  destruct H as [(x & -> & -> & P & L) H]. cbn [sized_bounds last_name forallb]. rewrite L. change (name_eqb id_SizedEncode id_SizedEncode) with true. change (name_eqb id_Encode id_SizedEncode) with false. cbv iota. cbn [andb]. now rewrite (IH _ H).
Qed.
Lemma both_bounds h eo im st self e : forall ts bs se, both im st bs ts -> lookup id_E se = Some e ->
  bounds h eo im st se self bs = if forallb (same eo id_Encode e) ts then Some se else None.
Proof.
  induction ts as [|t ts IH]; intros [|b [|c bs]] se H E; try now destruct H.
  destruct H as [(x & -> & -> & P & L) H]. cbn [bounds forallb]. unfold bound at 1 2. cbn [last_name last_args]. rewrite P, L.
  change (code_trait id_SizedEncode) with (@None name). change (code_trait id_Encode) with (Some id_Encode). cbv iota. unfold same at 1. destruct (eo id_Encode t) as [e'|]; [|reflexivity].
  rewrite E. destruct (rty_eqb e' e); [|reflexivity]. exact (IH _ _ H E).
Qed.
Lemma both_type h eo sz im st c t ts : find_impl src_sizes_impls (TTuple (t :: ts)) = Some (im, (st, c)) -> both im st (im_bounds im) (t :: ts) ->
  sized_type h eo sz (TTuple (t :: ts)) = forallb sz (t :: ts) && match eo id_Encode t with Some e => forallb (same eo id_Encode e) ts | None => false end.
Proof.
  intros F B. cbn [sized_type]. rewrite F. cbn [fst]. rewrite (both_sized _ _ _ _ _ B). f_equal.
  destruct (im_bounds im) as [|b [|c' bs]]; try now destruct B. destruct B as [(x & -> & -> & P & L) B]. cbn [bounds]. unfold bound at 1 2. cbn [last_name last_args]. rewrite P, L.
  change (code_trait id_SizedEncode) with (@None name). change (code_trait id_Encode) with (Some id_Encode). cbv iota. destruct (eo id_Encode t) as [e|]; [|reflexivity].
  cbn [lookup]. rewrite (both_bounds _ _ _ _ _ e _ _ [(id_E, e)] B eq_refl). now destruct (forallb _ ts).
Qed.
Lemma tuple_type h eo sz t u ts : of_rust (TTuple (t :: u :: ts)) ->
  sized_type h eo sz (TTuple (t :: u :: ts)) = forallb sz (t :: u :: ts) && match eo id_Encode t with Some e => forallb (same eo id_Encode e) (u :: ts) | None => false end.
Proof.
  intros W.
  do 11 (destruct ts as [|? ts]; [eapply both_type; [lazy; reflexivity|cbn [both]; repeat split; try (eexists; split; [reflexivity|split; [reflexivity|split; reflexivity]])]|]).
  discriminate W.
Qed.
Lemma S_tuple ts : of_rust (TTuple ts) -> Forall Siz ts -> Siz (TTuple ts).
Proof.
  intros W H. pose proof W as W'. unfold of_rust in W'. cbn [contains] in W'. apply orb_false_elim in W'. destruct W' as [_ W'].
  assert (E : Forall Enc ts). { apply (members Enc); [|exact W']. apply Forall_forall. intros t _. apply encode_headers. }
  destruct ts as [|t [|u ts]]; [discriminate W| |].
  - inversion_clear H as [|? ? A _]. inversion_clear E as [|? ? B _]. apply (ev_step _ _ (ev_and _ _ A B)). clear A B. intros n (A & B). cbn [sized forallb enc_ety map all_same].
    pose proof (sized_encode t) as S. destruct (sized t), (enc_ety t); try (now destruct S); do_it; reflexivity.
  - apply (ev_step _ _ (ev_and _ _ (S_fields _ H) (ev_forall _ _ E))). intros n (A & B). cbn [sized_of]. rewrite (tuple_type _ _ _ _ _ _ W). cbn [sized]. rewrite A. f_equal.
    clear - B. revert B. generalize (u :: ts). clear u ts. intros ts H. inversion_clear H as [|? ? A F].
    rewrite A. cbn [enc_ety map]. destruct (enc_ety t) as [e|]; [|reflexivity]. cbn [option_map].
    assert (E : forallb (same (error_of n) id_Encode (rust_ety e)) ts = all_same (map enc_ety ts) e).
    { clear A t. induction F as [|t ts A F IH]; [reflexivity|]. cbn [forallb map all_same]. unfold same at 1. rewrite A, IH.
      destruct (enc_ety t); [|reflexivity]. cbn [option_map]. now rewrite rust_ety_eqb. }
    rewrite E. destruct (all_same _ e); reflexivity.
Qed.
Theorem sized_headers t : of_rust t -> Siz t.
Proof.
  induction t using ty_ind_strong; intros W; pose proof W as W'; unfold of_rust in W.
  all: try (apply S_flat; cbn; tauto).
  all: try (cbn [contains unlike_rust orb] in W; try specialize (IHt W)).
  - apply S_int.
  - apply S_nonzero.
  - now apply S_option.
  - apply orb_false_elim in W. now apply S_result; [exact W'|apply IHt1|apply IHt2].
  - apply orb_false_elim in W. apply S_tuple; [exact W'|]. now apply members.
  - now apply S_array.
  - apply S_slice.
  - apply S_vec.
  - apply S_linked.
  - now apply S_sizedslice.
  - apply S_sizedstr.
  - apply S_wrap; [exact W'|]. apply IHt. destruct w; try exact W. cbn [contains unlike_rust] in W. now apply orb_false_elim in W.
  - now apply S_cow.
  - now apply S_refcell.
  - now apply S_lock.
  - now apply S_range.
  - now apply S_rangefrom.
  - now apply S_rangeinclusive.
  - now apply S_rangeto.
  - now apply S_rangetoinclusive.
  - now apply S_bound.
  - apply S_hashmap.
  - apply S_hashset.
  - apply S_struct; [exact W'|]. now apply members.
  - apply S_enum; [exact W'|]. now apply variants.
Qed.

