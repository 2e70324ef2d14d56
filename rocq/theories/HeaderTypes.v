(* The headers of Encode and Decode say which types implement them and with which errors, as Traits.v does. *)
From Coq Require Import Lia.
From Verif Require Import Base Utf8 Types TypesFacts Traits ErrorText SourceNames SourceSyntax SourceMeaning SourceEncode SourceDecode SourceText SourceRun SourceHeaders SpecHeaders SpecSource SpecDecode HeaderProofs AvailProofs ErrorProofs.

Definition Enc (t : ty) : Prop := Eventually (fun n => error_of n id_Encode t = option_map rust_ety (enc_ety t)).
Definition Dec (t : ty) : Prop := Eventually (fun n => error_of n id_Decode t = option_map rust_dety (dec_ety t)).

Lemma ety_eqb_sym a b : ety_eqb a b = ety_eqb b a.
Proof.
  destruct (ety_eqb a b) eqn:E; [apply ety_eqb_eq in E; subst; now rewrite ety_eqb_refl|].
  destruct (ety_eqb b a) eqn:F; [apply ety_eqb_eq in F; subst; now rewrite ety_eqb_refl in E|reflexivity].
Qed.
Lemma dety_eqb_sym a b : dety_eqb a b = dety_eqb b a.
Proof.
  destruct (dety_eqb a b) eqn:E; [apply dety_eqb_eq in E; subst; now rewrite dety_eqb_refl|].
  destruct (dety_eqb b a) eqn:F; [apply dety_eqb_eq in F; subst; now rewrite dety_eqb_refl in E|reflexivity].
Qed.

Ltac see := cbv -[holds error_of rust_ety rust_dety enc_ety dec_ety into_ety ety_eqb dety_eqb rty_eqb bounds int_name int_ety SourceRun.owned].
Ltac go :=
  cbn [error_of]; see;
  repeat match goal with
  | |- context [bounds _ _ _ _ _ _ (_ :: _)] => rewrite bounds_cons; see
  | |- context [bounds _ _ _ _ _ _ []] => progress (cbn [bounds]; cbv beta iota zeta)
  | H : holds _ _ _ _ = _ |- _ => progress (rewrite H; see)
  | H : error_of _ _ _ = _ |- _ => progress (rewrite H; see)
  | |- context [rty_eqb (rust_ety _) (rust_ety _)] => rewrite rust_ety_eqb; see
  | |- context [rty_eqb (rust_dety _) (rust_dety _)] => rewrite rust_dety_eqb; see
  end.
Ltac branch :=
  repeat match goal with
  | |- context [if ?b then _ else _] => lazymatch b with ety_eqb _ _ => idtac | dety_eqb _ _ => idtac | into_ety _ _ => idtac end; destruct b eqn:?; go
  end; try reflexivity.
Ltac one x n A := intros x; match goal with |- Enc _ -> _ => intros H; apply (ev_step _ _ H); intros n A; cbn [enc_ety] in *; destruct (enc_ety x); cbn [option_map] in *; go; try reflexivity
  | |- Dec _ -> _ => intros H; apply (ev_step _ _ H); intros n A; cbn [dec_ety] in *; destruct (dec_ety x); cbn [option_map] in *; go; try reflexivity end.
Ltac none := apply ev_now; intros n; cbn [enc_ety dec_ety]; go; try reflexivity.

Lemma E_int i : Enc (TInt i). Proof. destruct i; none. Qed.
Lemma E_nonzero i : Enc (TNonZero i). Proof. apply (ev_step _ _ (E_int i)). intros n A. cbn [enc_ety] in *. destruct i; go; reflexivity. Qed.
Ltac via H := apply (ev_step _ _ H); let n := fresh "n" in let A := fresh "A" in intros n A; cbn [enc_ety dec_ety] in *; go; try reflexivity.
Lemma E_flat t : In t [TF32; TF64; TUnit; TDuration; TSystemTime; TIpv4; TIpv6; TSockV4; TSockV6; TSockAddr; TRangeFull; TPhantomData; TPhantomPinned; TInfallible; TIpAddr] -> Enc t.
Proof. intros H. repeat (destruct H as [<-|H]); [..|destruct H]; none. Qed.
Lemma E_bool : Enc TBool. Proof. via (E_int U8). Qed.
Lemma E_char : Enc TChar. Proof. via (E_int U32). Qed.
Lemma E_slice : forall t, Enc t -> Enc (TSlice t). Proof. one x n A. Qed.
Lemma E_str : Enc TStr. Proof. via (E_slice _ (E_int U8)). Qed.
Lemma E_string : Enc TString. Proof. via E_str. Qed.
Lemma E_cstr : Enc TCStr. Proof. via (E_slice _ (E_int U8)). Qed.
Lemma E_cstring : Enc TCString. Proof. via E_cstr. Qed.
Lemma E_sizedstr k : Enc (TSizedStr k). Proof. via E_str. Qed.
Lemma E_option : forall t, Enc t -> Enc (TOption t). Proof. one x n A. Qed.
Lemma E_array : forall t, Enc t -> forall k, Enc (TArray t k). Proof. intros t H k. revert t H. one x n A. Qed.
Lemma E_vec : forall t, Enc t -> Enc (TVec t).
Proof. intros t H. apply (ev_step _ _ (ev_and _ _ H (E_slice _ H))). intros n (A & B). cbn [enc_ety] in *. destruct (enc_ety t); cbn [option_map] in *; go; try reflexivity. Qed.
Lemma E_linked : forall t, Enc t -> Enc (TLinked t). Proof. one x n A. Qed.
Lemma E_sizedslice : forall t, Enc t -> forall k, Enc (TSizedSlice t k).
Proof. intros t H k. apply (ev_step _ _ (ev_and _ _ H (E_slice _ H))). intros n (A & B). cbn [enc_ety] in *. destruct (enc_ety t); cbn [option_map] in *; go; try reflexivity. Qed.
Lemma E_wrap w : forall t, of_rust (TWrap w t) -> Enc t -> Enc (TWrap w t).
Proof.
  intros t W H. destruct w; try (apply (ev_step _ _ H); intros n A; cbn [enc_ety] in *; destruct (enc_ety t); cbn [option_map] in *; go; reflexivity).
  apply (ev_step _ _ H); intros n A. destruct t; try discriminate W; [destruct i; try discriminate W|]; cbn [enc_ety] in *; go; try reflexivity.
Qed.
Lemma E_cow : forall t, Enc t -> Enc (TCow t). Proof. one x n A. Qed.
Lemma E_refcell : forall t, Enc t -> Enc (TRefCell t). Proof. one x n A. Qed.
Lemma E_lock l : forall t, Enc t -> Enc (TLock l t). Proof. destruct l; one x n A. Qed.
Lemma E_range : forall t, Enc t -> Enc (TRange t). Proof. one x n A. Qed.
Lemma E_rangefrom : forall t, Enc t -> Enc (TRangeFrom t). Proof. one x n A. Qed.
Lemma E_rangeinclusive : forall t, Enc t -> Enc (TRangeInclusive t). Proof. one x n A. Qed.
Lemma E_rangeto : forall t, Enc t -> Enc (TRangeTo t). Proof. one x n A. Qed.
Lemma E_rangetoinclusive : forall t, Enc t -> Enc (TRangeToInclusive t). Proof. one x n A. Qed.
Lemma E_bound : forall t, Enc t -> Enc (TBound t). Proof. one x n A. Qed.
Lemma E_hashset : forall t, Enc t -> Enc (THashSet t). Proof. one x n A. Qed.
Lemma E_hashmap : forall k v, Enc k -> Enc v -> Enc (THashMap k v).
Proof. intros k v H G. apply (ev_step _ _ (ev_and _ _ H G)). intros n (A & B). cbn [enc_ety] in *. destruct (enc_ety k) as [a|], (enc_ety v) as [b|]; cbn [option_map] in *; go; try reflexivity. rewrite (ety_eqb_sym b a); branch.
Qed.
Lemma E_result : forall t e, Enc t -> Enc e -> Enc (TResult t e).
Proof.
  intros t e H G. 
  assert (I : Eventually (fun n => forall y x, enc_ety t = Some y -> enc_ety e = Some x -> holds n (rust_ety x) id_Into [rust_ety y] = into_ety x y)).
  { destruct (enc_ety t) as [y|]; [|now exists 0]. destruct (enc_ety e) as [x|]; [|now exists 0]. destruct (into_enc_headers x y) as [d D]. exists d. intros n L ? ? [= <-] [= <-]. now apply D. }
  apply (ev_step _ _ (ev_and _ _ I (ev_and _ _ H G))). intros n (C & A & B). cbn [enc_ety] in *. destruct (enc_ety t) as [y|], (enc_ety e) as [x|]; cbn [option_map] in *.
  { specialize (C _ _ eq_refl eq_refl). go; branch. }
  all: clear C; go; reflexivity.
Qed.

Lemma E_fields ts : Forall Enc ts -> Eventually (fun n => forallb (field (holds n) (error_of n) id_Encode) ts = all_generic (map enc_ety ts)).
Proof.
  intros H. induction H as [|t ts T _ [d D]]; [now exists 0|]. destruct T as [a A].
  destruct (enc_ety t) as [y|] eqn:E.
  - destruct (into_generic_enc_headers y) as [b B]. exists (a + b + d). intros n L. cbn [forallb map all_generic]. rewrite E, (D n), <- (B n) by lia. f_equal.
    unfold field. rewrite (A n) by lia. reflexivity.
  - exists a. intros n L. cbn [forallb map all_generic]. rewrite E. unfold field at 1. rewrite (A n) by lia. reflexivity.
Qed.
Lemma E_struct ts : Forall Enc ts -> Enc (TStruct ts).
Proof.
  intros H. apply (ev_step _ _ (E_fields ts H)). intros n A. cbn [error_of error_type enc_ety]. rewrite A. now destruct (all_generic _).
Qed.
Lemma E_enum r vs : Forall (fun v => Forall Enc (snd v)) vs -> Enc (TEnum r vs).
Proof.
  intros H.
  assert (I : Eventually (fun n => forallb (fun v => forallb (field (holds n) (error_of n) id_Encode) (snd v)) vs = forallb (fun v => all_generic (map enc_ety (snd v))) vs)).
  { induction H as [|v vs V _ [d D]]; [now exists 0|]. destruct (E_fields _ V) as [a A]. exists (a + d). intros n L. cbn [forallb]. now rewrite A, D by lia. }
  apply (ev_step _ _ I). intros n A. cbn [error_of error_type enc_ety]. rewrite A. now destruct (forallb _ vs).
Qed.
(* the headers for tuples of two and more *)
Fixpoint alike (im : impl) (st : list (name * ty)) (tr : name) (bs : list (rty * path)) (ts : list ty) : Prop :=
  match bs, ts with
  | [], [] => True
  | b :: bs', t :: ts' =>
    (exists x, b = (YPath [(x, [])], [(tr, [YAssoc id_Error (YPath [(id_E, [])])])]) /\ is_param x (im_types im) = true /\ lookup x st = Some t) /\ alike im st tr bs' ts'
  | _, _ => False
  end.
Definition same (eo : name -> ty -> option rty) (tr : name) (e : rty) (t : ty) : bool := match eo tr t with Some e' => rty_eqb e' e | None => false end.
Lemma alike_bounds h eo im st tr self e : code_trait tr = Some tr -> forall bs ts se, alike im st tr bs ts -> lookup id_E se = Some e ->
  bounds h eo im st se self bs = if forallb (same eo tr e) ts then Some se else None.
Proof.
  intros C. induction bs as [|b bs IH]; intros [|t ts] se H E; try now destruct H.
  destruct H as [(x & -> & P & L) H]. cbn [bounds forallb]. unfold bound at 1. cbn [last_name last_args]. rewrite P, L, C. unfold same at 1. destruct (eo tr t) as [e'|]; [|reflexivity].
  rewrite E. destruct (rty_eqb e' e); [|reflexivity]. exact (IH _ _ H E).
Qed.
Lemma alike_error n tr im st c t ts : code_trait tr = Some tr ->
  find_impl (if name_eqb tr id_Encode then src_encode_impls else src_decode_impls) (TTuple (t :: ts)) = Some (im, (st, c)) ->
  owners st (im_bounds im) = st -> alike im st tr (im_bounds im) (t :: ts) -> lookup id_Error (im_assoc im) = Some (YPath [(id_E, [])]) ->
  error_of (S n) tr (TTuple (t :: ts)) = match error_of n tr t with Some e => if forallb (same (error_of n) tr e) ts then Some e else None | None => None end.
Proof.
  intros C F O A L. cbn [error_of error_type]. unfold implemented. rewrite F. cbn [fst]. rewrite O, L. destruct (im_bounds im) as [|b bs]; [destruct A|].
  destruct A as [(x & -> & P & K) H]. cbn [bounds]. unfold bound at 1. cbn [last_name last_args]. rewrite P, K, C. destruct (error_of n tr t) as [e|]; [|reflexivity].
  cbn [lookup]. rewrite (@alike_bounds _ _ _ _ _ _ e C bs ts _ H) by reflexivity.
  destruct (forallb _ ts); reflexivity.
Qed.
Ltac shape := cbn [alike]; repeat split; try (eexists; split; [reflexivity|split; reflexivity]).
Ltac tuple_header W ts :=
  do 11 (destruct ts as [|? ts]; [eapply alike_error; [reflexivity|lazy; reflexivity|lazy; reflexivity|shape|lazy; reflexivity]|]); discriminate W.
Lemma E_tuple_error n t u ts : of_rust (TTuple (t :: u :: ts)) ->
  error_of (S n) id_Encode (TTuple (t :: u :: ts)) = match error_of n id_Encode t with Some e => if forallb (same (error_of n) id_Encode e) (u :: ts) then Some e else None | None => None end.
Proof. intros W. tuple_header W ts. Qed.
Lemma D_tuple_error n t u ts : of_rust (TTuple (t :: u :: ts)) ->
  error_of (S n) id_Decode (TTuple (t :: u :: ts)) = match error_of n id_Decode t with Some e => if forallb (same (error_of n) id_Decode e) (u :: ts) then Some e else None | None => None end.
Proof. intros W. tuple_header W ts. Qed.
Lemma ev_forall {A} (P : nat -> A -> Prop) l : Forall (fun a => Eventually (fun n => P n a)) l -> Eventually (fun n => Forall (P n) l).
Proof. intros H. induction H as [|a l [x X] _ [d D]]; [exists 0; constructor|]. exists (x + d). intros n L. constructor; [apply X|apply D]; lia. Qed.
Lemma E_tuple ts : of_rust (TTuple ts) -> Forall Enc ts -> Enc (TTuple ts).
Proof.
  intros W H. apply (ev_step _ _ (ev_forall _ _ H)). clear H. intros n H. cbn [enc_ety].
  destruct ts as [|t [|u ts]]; [discriminate W| |].
  { inversion_clear H as [|? ? A _]. cbn [map all_same]. destruct (enc_ety t); cbn [option_map] in *; go; reflexivity. }
  rewrite (E_tuple_error _ _ _ _ W). clear W. revert H. generalize (u :: ts). clear u ts. intros ts H. inversion_clear H as [|? ? A F].
  rewrite A. cbn [map]. destruct (enc_ety t) as [e|]; [|reflexivity]. cbn [option_map].
  assert (E : forallb (same (error_of n) id_Encode (rust_ety e)) ts = all_same (map enc_ety ts) e).
  { clear A t. induction F as [|t ts A F IH]; [reflexivity|]. cbn [forallb map all_same]. unfold same at 1. rewrite A, IH.
    destruct (enc_ety t); [|reflexivity]. cbn [option_map]. now rewrite rust_ety_eqb. }
  rewrite E. destruct (all_same _ e); reflexivity.
Qed.

Lemma members (P : ty -> Prop) ts : Forall (fun t => of_rust t -> P t) ts -> existsb (contains unlike_rust) ts = false -> Forall P ts.
Proof.
  intros H. induction H as [|t ts T _ IH]; intros E; [constructor|]. cbn [existsb] in E. apply orb_false_elim in E. constructor; [now apply T|now apply IH].
Qed.
Lemma variants (P : ty -> Prop) (vs : list (option Z * list ty)) : Forall (fun v => Forall (fun t => of_rust t -> P t) (snd v)) vs ->
  existsb (fun v => existsb (contains unlike_rust) (snd v)) vs = false -> Forall (fun v => Forall P (snd v)) vs.
Proof.
  intros H. induction H as [|v vs V _ IH]; intros E; [constructor|]. cbn [existsb] in E. apply orb_false_elim in E. constructor; [now apply members|now apply IH].
Qed.
Theorem encode_headers t : of_rust t -> Enc t.
Proof.
  induction t using ty_ind_strong; intros W; unfold of_rust in W.
  all: try (apply E_flat; cbn; tauto).
  all: try (cbn [contains unlike_rust orb] in W; try specialize (IHt W)).
  - apply E_int.
  - apply E_bool.
  - apply E_char.
  - apply E_nonzero.
  - now apply E_option.
  - apply orb_false_elim in W. now apply E_result; [apply IHt1|apply IHt2].
  - pose proof W as W'. apply orb_false_elim in W'. apply E_tuple; [exact W|]. now apply members.
  - now apply E_array.
  - now apply E_slice.
  - now apply E_vec.
  - now apply E_linked.
  - now apply E_sizedslice.
  - apply E_str.
  - apply E_string.
  - apply E_sizedstr.
  - apply E_cstr.
  - apply E_cstring.
  - pose proof W as W'. apply E_wrap; [exact W|]. apply IHt. destruct w; try exact W. cbn [contains unlike_rust] in W. now apply orb_false_elim in W.
  - now apply E_cow.
  - now apply E_refcell.
  - now apply E_lock.
  - now apply E_range.
  - now apply E_rangefrom.
  - now apply E_rangeinclusive.
  - now apply E_rangeto.
  - now apply E_rangetoinclusive.
  - now apply E_bound.
  - apply orb_false_elim in W. now apply E_hashmap; [apply IHt1|apply IHt2].
  - now apply E_hashset.
  - apply E_struct. now apply members.
  - apply E_enum. now apply variants.
Qed.

(* ---- Decode *)
Lemma D_flat t : In t [TF32; TF64; TUnit; TDuration; TSystemTime; TIpv4; TIpv6; TSockV4; TSockV6; TSockAddr; TRangeFull; TPhantomData; TPhantomPinned; TInfallible; TIpAddr; TBool; TChar; TString; TCString; TStr; TCStr] -> Dec t.
Proof. intros H. repeat (destruct H as [<-|H]); [..|destruct H]; none. Qed.
Lemma D_int i : Dec (TInt i). Proof. destruct i; none. Qed.
Lemma D_nonzero i : Dec (TNonZero i). Proof. apply (ev_step _ _ (D_int i)). intros n A. cbn [dec_ety] in *. destruct i; go; reflexivity. Qed.
Lemma D_slice t : Dec (TSlice t). Proof. none. Qed.
Lemma D_sizedstr k : Dec (TSizedStr k). Proof. none. Qed.
Lemma D_option : forall t, Dec t -> Dec (TOption t). Proof. one x n A. Qed.
Lemma D_array : forall t, Dec t -> forall k, Dec (TArray t k). Proof. intros t H k. revert t H. one x n A. Qed.
Lemma D_vec : forall t, Dec t -> Dec (TVec t). Proof. one x n A. Qed.
Lemma D_linked : forall t, Dec t -> Dec (TLinked t). Proof. one x n A. Qed.
Lemma D_sizedslice : forall t, Dec t -> forall k, Dec (TSizedSlice t k). Proof. intros t H k. revert t H. one x n A. Qed.
Lemma D_wrap w : forall t, of_rust (TWrap w t) -> Dec t -> Dec (TWrap w t).
Proof.
  intros t W H. destruct w; try (apply (ev_step _ _ H); intros n A; cbn [dec_ety] in *; destruct (dec_ety t); cbn [option_map] in *; go; reflexivity).
  apply (ev_step _ _ H); intros n A. destruct t; try discriminate W; [destruct i; try discriminate W|]; cbn [dec_ety] in *; go; try reflexivity.
Qed.
Lemma D_refcell : forall t, Dec t -> Dec (TRefCell t). Proof. one x n A. Qed.
Lemma D_lock l : forall t, Dec t -> Dec (TLock l t). Proof. destruct l; one x n A. Qed.
Lemma D_range : forall t, Dec t -> Dec (TRange t). Proof. one x n A. Qed.
Lemma D_rangefrom : forall t, Dec t -> Dec (TRangeFrom t). Proof. one x n A. Qed.
Lemma D_rangeinclusive : forall t, Dec t -> Dec (TRangeInclusive t). Proof. one x n A. Qed.
Lemma D_rangeto : forall t, Dec t -> Dec (TRangeTo t). Proof. one x n A. Qed.
Lemma D_rangetoinclusive : forall t, Dec t -> Dec (TRangeToInclusive t). Proof. one x n A. Qed.
Lemma D_bound : forall t, Dec t -> Dec (TBound t). Proof. one x n A. Qed.
Lemma D_hashset : forall t, Dec t -> Dec (THashSet t). Proof. one x n A. Qed.
Lemma D_hashmap : forall k v, Dec k -> Dec v -> Dec (THashMap k v).
Proof.
  intros k v H G. apply (ev_step _ _ (ev_and _ _ H G)). intros n (A & B). cbn [dec_ety] in *. destruct (dec_ety k) as [a|], (dec_ety v) as [b|]; cbn [option_map] in *; go; try reflexivity.
  rewrite (dety_eqb_sym b a); branch.
Qed.
Lemma D_result : forall t e, Dec t -> Dec e -> Dec (TResult t e).
Proof.
  intros k v H G. apply (ev_step _ _ (ev_and _ _ H G)). intros n (A & B). cbn [dec_ety] in *. destruct (dec_ety k) as [a|], (dec_ety v) as [b|]; cbn [option_map] in *; go; try reflexivity.
  rewrite (dety_eqb_sym b a); branch.
Qed.
Lemma D_fields ts : Forall Dec ts -> Eventually (fun n => forallb (field (holds n) (error_of n) id_Decode) ts = all_generic_d (map dec_ety ts)).
Proof.
  intros H. induction H as [|t ts T _ [d D]]; [now exists 0|]. destruct T as [a A].
  destruct (dec_ety t) as [y|] eqn:E.
  - destruct (into_generic_dec_headers y) as [b B]. exists (a + b + d). intros n L. cbn [forallb map all_generic_d]. rewrite E, (D n), <- (B n) by lia. f_equal.
    unfold field. rewrite (A n) by lia. reflexivity.
  - exists a. intros n L. cbn [forallb map all_generic_d]. rewrite E. unfold field at 1. rewrite (A n) by lia. reflexivity.
Qed.
Lemma D_struct ts : Forall Dec ts -> Dec (TStruct ts).
Proof.
  intros H. apply (ev_step _ _ (D_fields ts H)). intros n A. cbn [error_of error_type dec_ety]. rewrite A. now destruct (all_generic_d _).
Qed.
Lemma D_enum r vs : Forall (fun v => Forall Dec (snd v)) vs -> Dec (TEnum r vs).
Proof.
  intros H.
  assert (I : Eventually (fun n => forallb (fun v => forallb (field (holds n) (error_of n) id_Decode) (snd v)) vs = forallb (fun v => all_generic_d (map dec_ety (snd v))) vs)).
  { induction H as [|v vs V _ [d D]]; [now exists 0|]. destruct (D_fields _ V) as [a A]. exists (a + d). intros n L. cbn [forallb]. now rewrite A, D by lia. }
  apply (ev_step _ _ I). intros n A. cbn [error_of error_type dec_ety]. rewrite A. now destruct (forallb _ vs).
Qed.
Lemma D_tuple ts : of_rust (TTuple ts) -> Forall Dec ts -> Dec (TTuple ts).
Proof.
  intros W H. apply (ev_step _ _ (ev_forall _ _ H)). clear H. intros n H. cbn [dec_ety].
  destruct ts as [|t [|u ts]]; [discriminate W| |].
  { inversion_clear H as [|? ? A _]. cbn [map all_same_d]. destruct (dec_ety t); cbn [option_map] in *; go; reflexivity. }
  rewrite (D_tuple_error _ _ _ _ W). clear W. revert H. generalize (u :: ts). clear u ts. intros ts H. inversion_clear H as [|? ? A F].
  rewrite A. cbn [map]. destruct (dec_ety t) as [e|]; [|reflexivity]. cbn [option_map].
  assert (E : forallb (same (error_of n) id_Decode (rust_dety e)) ts = all_same_d (map dec_ety ts) e).
  { clear A t. induction F as [|t ts A F IH]; [reflexivity|]. cbn [forallb map all_same_d]. unfold same at 1. rewrite A, IH.
    destruct (dec_ety t); [|reflexivity]. cbn [option_map]. now rewrite rust_dety_eqb. }
  rewrite E. destruct (all_same_d _ e); reflexivity.
Qed.
Lemma D_cow t : Dec (SourceRun.owned t) -> Dec (TCow t).
Proof.
  intros H. apply (ev_step _ _ H). intros n A.
  assert (E : dec_ety (TCow t) = dec_ety (SourceRun.owned t)) by now destruct t. rewrite E. revert A. generalize (dec_ety (SourceRun.owned t)). intros o A.
  clear E. destruct o; cbn [option_map] in *; go; reflexivity.
Qed.
Theorem decode_headers_all t : (of_rust t -> Dec t) /\ (of_rust t -> Dec (SourceRun.owned t)).
Proof.
  induction t using ty_ind_strong.
  all: match goal with |- (of_rust ?t -> _) /\ _ => try (assert (Z : of_rust t -> Dec t); [|split; [exact Z|exact Z]]) end.
  all: try (intros W; apply D_flat; cbn; tauto).
  all: try (split; intros W; apply D_flat; cbn; tauto).
  all: try (intros W; unfold of_rust in W; cbn [contains unlike_rust orb] in W; try specialize (proj1 IHt W); try specialize (proj2 IHt W); intros).
  - apply D_int.
  - apply D_nonzero.
  - now apply D_option.
  - apply orb_false_elim in W. apply D_result; [apply IHt1|apply IHt2]; apply W.
  - pose proof W as W'. apply orb_false_elim in W'. apply D_tuple; [exact W|]. apply members; [|apply W']. eapply Forall_impl; [|exact H]. cbn beta. intros t T. apply T.
  - now apply D_array.
  - split; intros W; [apply D_slice|]. apply D_vec. now apply IHt.
  - now apply D_vec.
  - now apply D_linked.
  - now apply D_sizedslice.
  - apply D_sizedstr.
  - apply D_wrap; [exact W|]. apply IHt. destruct w; try exact W. cbn [contains unlike_rust] in W. now apply orb_false_elim in W.
  - now apply D_cow.
  - now apply D_refcell.
  - now apply D_lock.
  - now apply D_range.
  - now apply D_rangefrom.
  - now apply D_rangeinclusive.
  - now apply D_rangeto.
  - now apply D_rangetoinclusive.
  - now apply D_bound.
  - apply orb_false_elim in W. apply D_hashmap; [apply IHt1|apply IHt2]; apply W.
  - now apply D_hashset.
  - apply D_struct. apply members; [|exact W]. eapply Forall_impl; [|exact H]. cbn beta. intros t T. apply T.
  - apply D_enum. apply variants; [|exact W]. eapply Forall_impl; [|exact H]. cbn beta. intros v V. eapply Forall_impl; [|exact V]. cbn beta. intros t T. apply T.
Qed.
Theorem decode_headers t : of_rust t -> Dec t.
Proof. apply decode_headers_all. Qed.
