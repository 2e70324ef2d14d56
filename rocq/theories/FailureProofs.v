(* Encoding fails exactly as SpecErrors.v says. *)
From Coq Require Import Lia ZifyBool ZifyNat ZifyN.
From Verif Require Import Base BaseFacts Streams StreamFacts Utf8 Types TypesFacts Traits Encode Decode Spec SpecCalls SpecDecode SpecDerive
  SpecErrors EncodeFacts WireFacts EncodeCases EncodeProofs ItemProofs DeriveProofs ErrorProofs.
Set Implicit Arguments.
Local Open Scope Z_scope.

(* ---- the calls that end in an error *)
Definition Stops (m : E) (bs : list byte) (e : eerr) : Prop := exists cs, Traces m cs (Err e) /\ concat cs = bs.
Definition Breaks (m : E) (Q : list byte -> eerr -> Prop) : Prop := forall cs e, Traces m cs (Err e) -> Q (concat cs) e.

Lemma stops_error e : Stops (eerror e) [] e.
Proof. exists []. split; [apply T_eerror | reflexivity]. Qed.
Lemma stops_here a b bs e : Stops a bs e -> Stops (eseq a b) bs e.
Proof. intros (cs & Ht & <-). exists cs. split; [apply T_seq_stop; [exact Ht | discriminate] | reflexivity]. Qed.
Lemma stops_later a b x bs e : Succeeds a x -> Stops b bs e -> Stops (eseq a b) (x ++ bs) e.
Proof. intros (cs & Hc & <-) (ds & Hd & <-). exists (cs ++ ds). split; [apply T_seq_ok; assumption | apply concat_app]. Qed.
Lemma stops_map f a bs e : Stops a bs e -> Stops (emap_err f a) bs (f e).
Proof. intros (cs & Ht & <-). exists cs. split; [exact (T_map_err f Ht) | reflexivity]. Qed.
Lemma stops_appends m bs e : Stops m bs e -> Appends m bs (Err e).
Proof. intros (cs & Ht & <-). apply traces_appends. exact Ht. Qed.

Lemma breaks_ext m (Q R : list byte -> eerr -> Prop) : Breaks m Q -> (forall bs e, Q bs e -> R bs e) -> Breaks m R.
Proof. intros H HR cs e Ht. apply HR, H, Ht. Qed.
Lemma breaks_succeeds m x Q : Succeeds m x -> Breaks m Q.
Proof. intros (ds & Hd & _) cs e Ht. destruct (traces_unique Hd Ht) as [_ H]. discriminate. Qed.
Lemma breaks_panic p Q : Breaks (epanic p) Q.
Proof. intros cs e Ht. destruct (traces_unique (T_epanic p) Ht) as [_ H]. discriminate. Qed.
Lemma breaks_error e (Q : list byte -> eerr -> Prop) : Q [] e -> Breaks (eerror e) Q.
Proof. intros HQ cs e' Ht. destruct (traces_unique (T_eerror e) Ht) as [<- H]. injection H as <-. exact HQ. Qed.
Lemma breaks_map f a (Q : list byte -> eerr -> Prop) : HasTrace a -> Breaks a (fun bs e => Q bs (f e)) -> Breaks (emap_err f a) Q.
Proof.
  intros (ds & r & Hd) H cs e Ht. destruct (traces_unique (T_map_err f Hd) Ht) as [<- Hr].
  destruct r as [[]|e'|p]; cbn [rmap_err] in Hr; try discriminate. injection Hr as <-. exact (H _ _ Hd).
Qed.
Lemma breaks_seq a b (Q : list byte -> eerr -> Prop) : HasTrace a -> HasTrace b -> Breaks a Q ->
  (forall x, Succeeds a x -> Breaks b (fun bs e => Q (x ++ bs) e)) -> Breaks (eseq a b) Q.
Proof.
  intros (ds & r & Ha) (fs & q & Hb) HA HB cs e Ht. destruct r as [[]|e'|p].
  - destruct (traces_unique (T_seq_ok Ha Hb) Ht) as [<- Hq]. subst q. rewrite concat_app.
    apply (HB (concat ds)); [exists ds; split; [exact Ha | reflexivity] | exact Hb].
  - assert (H : Err e' <> Ok tt :> res eerr unit) by discriminate. destruct (traces_unique (T_seq_stop b Ha H) Ht) as [<- Hq].
    injection Hq as <-. exact (HA _ _ Ha).
  - assert (H : Panic p <> Ok tt :> res eerr unit) by discriminate. destruct (traces_unique (T_seq_stop b Ha H) Ht) as [_ Hq]. discriminate.
Qed.

Lemma succeeds_wire ch t v bs : wt t v -> Succeeds (encode ch t v) bs -> Wire ch t v bs.
Proof.
  intros Hv Hs. destruct (good_all ch t v Hv) as [x _ Hx Hsx | cs e _ Ht | cs _ _ Ht].
  - rewrite (succeeds_unique Hs Hsx). exact Hx.
  - destruct Hs as (ds & Hd & _). destruct (traces_unique Hd Ht) as [_ H]. discriminate.
  - destruct Hs as (ds & Hd & _). destruct (traces_unique Hd Ht) as [_ H]. discriminate.
Qed.

(* ---- integers and lengths *)
Lemma int_stops i z e : IntFails i z e -> Stops (enc_int i z) [] e.
Proof.
  intros [z' Hz | z' Hz]; cbn [enc_int]; unfold enc_usize, enc_isize.
  - replace ((0 <=? z') && (z' <? 65536)) with false by lia. apply stops_error.
  - replace ((-32768 <=? z') && (z' <? 32768)) with false by lia. apply stops_error.
Qed.
Lemma int_breaks i z : Breaks (enc_int i z) (fun bs e => bs = [] /\ IntFails i z e).
Proof.
  destruct i; cbn [enc_int]; try (eapply breaks_succeeds, S_write).
  - unfold enc_usize. destruct ((0 <=? z) && (z <? 65536)) eqn:E; [eapply breaks_succeeds, S_write|].
    apply breaks_error. split; [reflexivity | constructor; lia].
  - unfold enc_isize. destruct ((-32768 <=? z) && (z <? 32768)) eqn:E; [eapply breaks_succeeds, S_write|].
    apply breaks_error. split; [reflexivity | constructor; lia].
Qed.
Lemma int_succeeds i z bs : Succeeds (enc_int i z) bs -> WireInt i z bs.
Proof.
  destruct i; cbn [enc_int]; intros H;
    try (rewrite (succeeds_unique H (S_write _)); apply WI_fixed; [discriminate | discriminate | apply le_repr_le_bytes]).
  - unfold enc_usize in H. destruct ((0 <=? z) && (z <? 65536)) eqn:E.
    + rewrite (succeeds_unique H (S_write _)). apply WI_usize; [lia | apply le_repr_le_bytes].
    + destruct H as (cs & Hc & _). destruct (traces_unique Hc (T_eerror _)) as [_ Hx]. discriminate.
  - unfold enc_isize in H. destruct ((-32768 <=? z) && (z <? 32768)) eqn:E.
    + rewrite (succeeds_unique H (S_write _)). apply WI_isize; [lia | apply le_repr_le_bytes].
    + destruct H as (cs & Hc & _). destruct (traces_unique Hc (T_eerror _)) as [_ Hx]. discriminate.
Qed.
Lemma len_succeeds n x : Succeeds (emap_err ELen (enc_usize (Z.of_nat n))) x -> WireLen n x.
Proof.
  intros (cs & Hc & <-). destruct (HT_int Usize (Z.of_nat n)) as (ds & r & Hd). cbn [enc_int] in Hd.
  destruct (traces_unique (T_map_err ELen Hd) Hc) as [<- Hr]. destruct r as [[]|e|p]; try discriminate.
  assert (H : WireInt Usize (Z.of_nat n) (concat ds)) by (apply int_succeeds; exists ds; split; [exact Hd | reflexivity]).
  inversion H; subst; [congruence|]. split; [lia | assumption].
Qed.
Lemma len_breaks n (Q : list byte -> eerr -> Prop) : (65535 < Z.of_nat n -> Q [] (ELen (EUsize (Z.of_nat n)))) ->
  Breaks (emap_err ELen (enc_usize (Z.of_nat n))) Q.
Proof.
  intros HQ. apply breaks_map; [apply (HT_int Usize)|]. eapply breaks_ext; [apply (int_breaks Usize)|]. cbn beta.
  intros bs e [-> He]. inversion He; subst. apply HQ. lia.
Qed.
Lemma len_stops n : 65535 < Z.of_nat n -> Stops (emap_err ELen (enc_usize (Z.of_nat n))) [] (ELen (EUsize (Z.of_nat n))).
Proof. intros H. apply stops_map. apply (@int_stops Usize). constructor. lia. Qed.

(* ---- conversions *)
Lemma int_generic r e : EOf (int_ety r) e -> EGeneric e (into_generic_enc e).
Proof.
  intros H. destruct r; cbn [int_ety] in H; inversion H; subst; eexists; (split; [apply EW_here | constructor]).
Qed.
Lemma generic_of y e : EOf y e -> into_generic_ety y = true -> EGeneric e (into_generic_enc e).
Proof.
  induction 1; cbn [into_generic_ety into_generic_enc]; intros Hg; try discriminate;
    try (eexists; split; [apply EW_here | constructor]; fail).
  - apply andb_true_iff in Hg. destruct Hg as [Hg _]. destruct (IHEOf Hg) as (c & Hc & Hr). exists c. split; [constructor; exact Hc | exact Hr].
  - apply andb_true_iff in Hg. destruct Hg as [_ Hg]. cbn [into_generic_ety] in Hg.
    destruct (IHEOf Hg) as (c & Hc & Hr). exists c. split; [constructor; exact Hc | exact Hr].
  - apply andb_true_iff in Hg. destruct Hg as [_ Hg]. discriminate.
  - destruct (int_generic _ H) as (c & Hc & Hr). exists c. split; [constructor; exact Hc | exact Hr].
  - destruct (IHEOf Hg) as (c & Hc & Hr). exists c. split; [constructor; exact Hc | exact Hr].
Qed.
Lemma generic_into e e' : EGeneric e e' -> into_generic_enc e = e'.
Proof. intros (c & Hc & Hr). exact (C41_encode_lemma Hc Hr). Qed.
Lemma infallible_none y e : EOf y e -> into_infallible_ety y = true -> False.
Proof.
  induction 1; cbn [into_infallible_ety]; intros Hg; try discriminate; try (apply andb_true_iff in Hg; destruct Hg as [H1 H2]; auto; try discriminate).
  - destruct r; try discriminate; cbn [int_ety] in H; inversion H.
Qed.

(* an error of a call is an error of the declared type *)
Lemma traces_of ch t y v cs e : enc_ety t = Some y -> Traces (encode ch t v) cs (Err e) -> EOf y e.
Proof.
  intros Hy Ht. apply (@encode_errors ch t y Hy v (big_out (length (concat cs))) (append (big_out (length (concat cs))) (concat cs)) e).
  rewrite (Ht _). apply replay_fits; [apply big_wf | apply big_fits; lia].
Qed.

(* ---- failing as specified *)
Scheme Fails_ind4 := Induction for Fails Sort Prop
with FailsFields_ind4 := Induction for FailsFields Sort Prop
with FailsItems_ind4 := Induction for FailsItems Sort Prop
with FailsEntries_ind4 := Induction for FailsEntries Sort Prop.
Combined Scheme Fails_mutind from Fails_ind4, FailsFields_ind4, FailsItems_ind4, FailsEntries_ind4.

Lemma sequence_encode ch s t w vs : Sequence s t w -> encode ch s (VSeq vs) = enc_slice (encode ch t) w vs.
Proof. intros []; reflexivity. Qed.
Lemma sequence_wt s t w vs : Sequence s t w -> wt s (VSeq vs) -> Forall (wt t) vs.
Proof. intros []; cbn [wt]; tauto. Qed.
Lemma text_encode ch t s : Text t -> encode ch t (VStr s) = enc_bytes s.
Proof. intros []; reflexivity. Qed.

Lemma result_conv_same t e x : enc_ety t = enc_ety e -> result_conv t e x = x.
Proof. intros H. unfold result_conv. rewrite H. destruct (enc_ety e) as [[]|]; reflexivity. Qed.
Lemma result_conv_generic t e y x : enc_ety t = Some YGeneric -> enc_ety e = Some y -> y <> YGeneric -> result_conv t e x = into_generic_enc x.
Proof. intros H He Hg. unfold result_conv. rewrite H, He. destruct y; congruence. Qed.

Lemma result_static t e y : enc_ety (TResult t e) = Some y -> enc_ety t = Some y /\ exists x, enc_ety e = Some x /\ into_ety x y = true.
Proof.
  cbn [enc_ety]. destruct (enc_ety t) as [a|]; [|discriminate]. destruct (enc_ety e) as [b|]; [|discriminate].
  destruct (into_ety b a) eqn:E; [|discriminate]. intros H. injection H as <-. split; [reflexivity|]. exists b. auto.
Qed.

Ltac use_generic := match goal with H : EGeneric _ _ |- _ => rewrite <- (generic_into H) end.
Lemma fails_stops_all ch :
  (forall t v bs e, Fails ch t v bs e -> wt t v -> Stops (encode ch t v) bs e) /\
  (forall ts vs bs e, FailsFields ch ts vs bs e -> Forall2 wt ts vs ->
     forall conv, Stops (enc_fields (map (encode ch) ts) conv vs) bs (conv e)) /\
  (forall t vs k bs e, FailsItems ch t vs k bs e -> Forall (wt t) vs ->
     (forall wrap i, Stops (enc_items (encode ch t) wrap i vs) bs (wrap (i + k)%nat e)) /\ Stops (enc_keys (encode ch t) vs) bs e) /\
  (forall k v kvs bs e, FailsEntries ch k v kvs bs e -> Forall (fun p => wt k (fst p) /\ wt v (snd p)) kvs ->
     Stops (enc_entries (encode ch k) (encode ch v) kvs) bs e).
Proof.
  apply (@Fails_mutind ch
    (fun t v bs e _ => wt t v -> Stops (encode ch t v) bs e)
    (fun ts vs bs e _ => Forall2 wt ts vs -> forall conv, Stops (enc_fields (map (encode ch) ts) conv vs) bs (conv e))
    (fun t vs k bs e _ => Forall (wt t) vs ->
       (forall wrap i, Stops (enc_items (encode ch t) wrap i vs) bs (wrap (i + k)%nat e)) /\ Stops (enc_keys (encode ch t) vs) bs e)
    (fun k v kvs bs e _ => Forall (fun p => wt k (fst p) /\ wt v (snd p)) kvs -> Stops (enc_entries (encode ch k) (encode ch v) kvs) bs e));
    intros; cbn [encode wt] in *; try (apply int_stops; assumption); try (auto; fail).
  - apply (@stops_later _ _ [x01]); [apply (S_bool true) | auto].
  - apply (@stops_later _ _ [x00]); [apply (S_bool false) | auto].
  - apply (@stops_later _ _ [x01]); [apply (S_bool true)|]. rewrite <- (@result_conv_same t x e) by assumption. apply stops_map. auto.
  - apply (@stops_later _ _ [x01]); [apply (S_bool true)|].
    use_generic. rewrite <- (@result_conv_generic t x y e) by assumption. apply stops_map. auto.
  - apply (@stops_later _ _ [x00]); [apply S_u8; reflexivity | apply stops_map; auto].
  - apply (@stops_later _ _ [x01]); [apply S_u8; reflexivity | apply stops_map; auto].
  - apply (H ltac:(apply all2_forall2; assumption) (fun e => e)).
  - use_generic. apply H. apply all2_forall2. assumption.
  - apply stops_here. tauto.
  - apply stops_later; [apply wire_succeeds; tauto | tauto].
  - apply stops_here. tauto.
  - apply stops_later; [apply wire_succeeds; tauto | tauto].
  - destruct H as [Hok Hf]. unfold enum_ok in Hok. destruct (discriminants (map fst vs)) as [ds|] eqn:Hd; [|contradiction].
    unfold enc_enum. apply (@discriminants_assigned _ _ i d Hd) in a. rewrite a.
    destruct (nth_error (map (fun x => map wt (snd x)) vs) i) eqn:En; [|contradiction].
    apply nth_error_map_inv in En. destruct En as (x & En & _). rewrite (nth_error_map_some (fun x => map (encode ch) (snd x)) _ _ En).
    apply stops_here, stops_map, int_stops. assumption.
  - destruct H0 as [Hok Hf]. unfold enum_ok in Hok. destruct (discriminants (map fst vs)) as [ds|] eqn:Hd; [|contradiction].
    rewrite (nth_error_map_some (fun x => map wt (snd x)) _ _ e0) in Hf. cbn [snd] in Hf.
    unfold enc_enum. rewrite (nth_error_map_some (fun x => map (encode ch) (snd x)) _ _ e0).
    apply (@discriminants_assigned _ _ i d Hd) in a. rewrite a. cbn [snd].
    apply stops_later; [apply S_map_err, S_int; assumption|]. use_generic.
    apply (H ltac:(apply all2_forall2; exact Hf) (fun e => EField (into_generic_enc e))).
  - apply (proj1 (H ltac:(tauto)) EItem 0%nat).
  - rewrite (sequence_encode _ _ s0). apply stops_here, len_stops. assumption.
  - rewrite (sequence_encode _ _ s0). apply stops_later; [apply S_len; assumption|].
    apply (proj1 (H (@sequence_wt s t w vs s0 H0)) w 0%nat).
  - rewrite text_encode by assumption. apply stops_here, len_stops. assumption.
  - apply H. tauto.
  - apply H. tauto.
  - apply stops_error.
  - apply stops_map. auto.
  - inversion H0; subst. cbn [map enc_fields]. apply stops_here, stops_map. auto.
  - inversion H0; subst. cbn [map enc_fields]. apply stops_later; [apply S_map_err, wire_succeeds; assumption | auto].
  - inversion H0; subst. split.
    + intros wrap i. cbn [enc_items]. rewrite Nat.add_0_r. apply stops_here, stops_map. auto.
    + cbn [enc_keys]. apply stops_here. auto.
  - inversion H0; subst. split.
    + intros wrap i. cbn [enc_items]. rewrite Nat.add_succ_r.
      apply stops_later; [apply S_map_err, wire_succeeds; assumption | apply (proj1 (H ltac:(assumption)) wrap (S i))].
    + cbn [enc_keys]. apply stops_later; [apply wire_succeeds; assumption | apply H; assumption].
  - inversion H0 as [|? ? [? ?] ?]; subst. cbn [enc_entries fst snd] in *. apply stops_here. auto.
  - inversion H0 as [|? ? [? ?] ?]; subst. cbn [enc_entries fst snd] in *.
    apply stops_later; [apply wire_succeeds; assumption | apply stops_here; auto].
  - inversion H0 as [|? ? [? ?] ?]; subst. cbn [enc_entries fst snd] in *.
    apply stops_later; [apply wire_succeeds; assumption|]. apply stops_later; [apply wire_succeeds; assumption | auto].
Qed.

Lemma fails_stops ch t v bs e : Fails ch t v bs e -> wt t v -> Stops (encode ch t v) bs e.
Proof. apply fails_stops_all. Qed.

(* ---- and not otherwise *)
Definition BreaksTy (ch : bool) (t : ty) : Prop := enc_ety t <> None -> forall v, wt t v -> Breaks (encode ch t v) (Fails ch t v).

Lemma breaks_items ch t wrap vs : BreaksTy ch t -> enc_ety t <> None -> Forall (wt t) vs -> forall i,
  Breaks (enc_items (encode ch t) wrap i vs) (fun bs e => exists k e', FailsItems ch t vs k bs e' /\ e = wrap (i + k)%nat e').
Proof.
  intros Ht Hs. induction 1 as [|v vs Hv Hvs IH]; intros i; cbn [enc_items].
  - eapply breaks_succeeds, S_ok.
  - apply breaks_seq; [apply HT_map_err, encode_has_trace | apply HT_items, Forall_forall; intros; apply encode_has_trace | |].
    + apply breaks_map; [apply encode_has_trace|]. eapply breaks_ext; [apply (Ht Hs _ Hv)|]. cbn beta. intros bs e He.
      exists 0%nat, e. rewrite Nat.add_0_r. split; [constructor; exact He | reflexivity].
    + intros x Hx. assert (Hw : Wire ch t v x).
      { apply succeeds_wire; [exact Hv|]. destruct (encode_has_trace ch t v) as (ds & r & Hd). destruct Hx as (cs & Hc & <-).
        destruct (traces_unique (T_map_err _ Hd) Hc) as [<- Hr]. destruct r as [[]| |]; try discriminate. exists ds. split; [exact Hd | reflexivity]. }
      eapply breaks_ext; [apply IH|]. cbn beta. intros bs e (k & e' & Hk & ->). exists (S k), e'.
      split; [constructor; assumption | f_equal; lia].
Qed.
Lemma map_err_wire ch t v f x : wt t v -> Succeeds (emap_err f (encode ch t v)) x -> Wire ch t v x.
Proof.
  intros Hv Hx. apply succeeds_wire; [exact Hv|]. destruct (encode_has_trace ch t v) as (ds & r & Hd). destruct Hx as (cs & Hc & <-).
  destruct (traces_unique (T_map_err _ Hd) Hc) as [<- Hr]. destruct r as [[]| |]; try discriminate. exists ds. split; [exact Hd | reflexivity].
Qed.
Lemma breaks_keys ch t vs : BreaksTy ch t -> enc_ety t <> None -> Forall (wt t) vs ->
  Breaks (enc_keys (encode ch t) vs) (fun bs e => exists k, FailsItems ch t vs k bs e).
Proof.
  intros Ht Hs. induction 1 as [|v vs Hv Hvs IH]; cbn [enc_keys].
  - eapply breaks_succeeds, S_ok.
  - apply breaks_seq; [apply encode_has_trace | apply HT_keys; intros; apply encode_has_trace | |].
    + eapply breaks_ext; [apply (Ht Hs _ Hv)|]. intros bs e He. exists 0%nat. constructor. exact He.
    + intros x Hx. apply succeeds_wire in Hx; [|exact Hv]. eapply breaks_ext; [apply IH|]. cbn beta. intros bs e (k & Hk).
      exists (S k). constructor; assumption.
Qed.
Lemma breaks_entries ch k v kvs : BreaksTy ch k -> BreaksTy ch v -> enc_ety k <> None -> enc_ety v <> None ->
  Forall (fun p => wt k (fst p) /\ wt v (snd p)) kvs -> Breaks (enc_entries (encode ch k) (encode ch v) kvs) (FailsEntries ch k v kvs).
Proof.
  intros Hk Hv Hsk Hsv. induction 1 as [|[a b] kvs [Ha Hb] Hvs IH]; cbn [enc_entries fst snd] in *.
  - eapply breaks_succeeds, S_ok.
  - assert (Hrest : HasTrace (enc_entries (encode ch k) (encode ch v) kvs)) by (apply HT_entries; intros; apply encode_has_trace).
    apply breaks_seq; [apply encode_has_trace | apply HT_seq; [apply encode_has_trace | exact Hrest] | |].
    + eapply breaks_ext; [apply (Hk Hsk _ Ha)|]. intros bs e He. apply FE_key. exact He.
    + intros x Hx. apply succeeds_wire in Hx; [|exact Ha]. apply breaks_seq; [apply encode_has_trace | exact Hrest | |].
      * eapply breaks_ext; [apply (Hv Hsv _ Hb)|]. intros bs e He. apply FE_value; assumption.
      * intros y Hy. apply succeeds_wire in Hy; [|exact Hb]. eapply breaks_ext; [apply IH|]. cbn beta. intros bs e He.
        apply FE_later; assumption.
Qed.
Lemma breaks_fields ch conv ts vs : Forall (BreaksTy ch) ts -> Forall (fun t => enc_ety t <> None) ts -> Forall2 wt ts vs ->
  Breaks (enc_fields (map (encode ch) ts) conv vs) (fun bs e => exists e' t y, FailsFields ch ts vs bs e' /\ e = conv e' /\
    In t ts /\ enc_ety t = Some y /\ EOf y e').
Proof.
  intros Ht Hs Hv. revert Ht Hs. induction Hv as [|t v ts vs Hv Hvs IH]; intros Ht Hs; cbn [map enc_fields].
  - eapply breaks_succeeds, S_ok.
  - inversion Ht; subst. inversion Hs; subst.
    apply breaks_seq; [apply HT_map_err, encode_has_trace | apply HT_encode_fields | |].
    + intros cs e Hc. destruct (encode_has_trace ch t v) as (ds & r & Hd). destruct (traces_unique (T_map_err conv Hd) Hc) as [<- Hr].
      destruct r as [[]|e'|p]; cbn [rmap_err] in Hr; try discriminate. injection Hr as <-.
      destruct (enc_ety t) as [y|] eqn:Ey; [|congruence].
      exists e', t, y. split; [apply FF_here; match goal with H : BreaksTy ch t |- _ => apply H end; try assumption; congruence|].
      split; [reflexivity|]. split; [left; reflexivity|]. split; [exact Ey|]. eapply traces_of; eassumption.
    + intros x Hx. apply map_err_wire in Hx; [|exact Hv]. eapply breaks_ext; [apply IH; assumption|]. cbn beta.
      intros bs e (e' & t' & y & He' & -> & Hin & Hy & Hof). exists e', t', y.
      split; [apply FF_later; assumption|]. split; [reflexivity|]. split; [right; exact Hin | auto].
Qed.
Lemma breaks_slice ch t w s vs : BreaksTy ch t -> enc_ety t <> None -> Sequence s t w -> Forall (wt t) vs ->
  Breaks (enc_slice (encode ch t) w vs) (Fails ch s (VSeq vs)).
Proof.
  intros Ht Hs Hq Hv. apply breaks_seq; [apply HT_map_err, (HT_int Usize) | apply HT_items, Forall_forall; intros; apply encode_has_trace | |].
  - apply len_breaks. intros Hl. eapply F_long; eassumption.
  - intros x Hx. apply len_succeeds in Hx. eapply breaks_ext; [apply breaks_items; eassumption|]. cbn beta.
    intros bs e (k & e' & Hk & ->). eapply F_item; eassumption.
Qed.
Lemma breaks_text ch t s : Text t -> Breaks (enc_bytes s) (Fails ch t (VStr s)).
Proof.
  intros Ht. apply breaks_seq; [apply HT_map_err, (HT_int Usize) | apply HT_items, Forall_forall; intros; apply HT_num | |].
  - apply len_breaks. intros Hl. apply F_long_text; assumption.
  - intros x Hx. eapply breaks_succeeds, S_items_u8.
Qed.
Lemma breaks_sign ch t a v x (Q : list byte -> eerr -> Prop) : Succeeds a [x] -> HasTrace a -> BreaksTy ch t -> enc_ety t <> None -> wt t v ->
  (forall bs e, Fails ch t v bs e -> Q (x :: bs) e) -> Breaks (eseq a (encode ch t v)) Q.
Proof.
  intros Ha Hh Ht Hs Hv HQ. apply breaks_seq; [exact Hh | apply encode_has_trace | eapply breaks_succeeds; exact Ha|].
  intros y Hy. rewrite (succeeds_unique Hy Ha). eapply breaks_ext; [apply (Ht Hs _ Hv)|]. exact HQ.
Qed.
Lemma breaks_sign_map ch t f a v x (Q : list byte -> eerr -> Prop) : Succeeds a [x] -> HasTrace a -> BreaksTy ch t -> enc_ety t <> None -> wt t v ->
  (forall bs e, Fails ch t v bs e -> Q (x :: bs) (f e)) -> Breaks (eseq a (emap_err f (encode ch t v))) Q.
Proof.
  intros Ha Hh Ht Hs Hv HQ. apply breaks_seq; [exact Hh | apply HT_map_err, encode_has_trace | eapply breaks_succeeds; exact Ha|].
  intros y Hy. rewrite (succeeds_unique Hy Ha). apply breaks_map; [apply encode_has_trace|]. eapply breaks_ext; [apply (Ht Hs _ Hv)|]. exact HQ.
Qed.

Lemma option_map_some {A B} (f : A -> B) o : option_map f o <> None -> o <> None.
Proof. destruct o; intros H; [discriminate|]. intros _. apply H. reflexivity. Qed.
Lemma same_static ts : enc_ety (TTuple ts) <> None -> Forall (fun t => enc_ety t <> None) ts.
Proof.
  cbn [enc_ety]. intros H. destruct (map enc_ety ts) as [|[y0|] l] eqn:El; try congruence. destruct (all_same l y0) eqn:Es; [|congruence].
  apply all_same_forall in Es. assert (Hall : Forall (fun o => o = Some y0) (map enc_ety ts)) by (rewrite El; constructor; [reflexivity | exact Es]).
  apply Forall_map in Hall. eapply Forall_impl; [|exact Hall]. cbn beta. intros t ->. discriminate.
Qed.
Lemma generic_static ts : all_generic (map enc_ety ts) = true -> Forall (fun t => exists y, enc_ety t = Some y /\ into_generic_ety y = true) ts.
Proof. intros H. apply all_generic_forall in H. exact (proj1 (Forall_map _ _ _) H). Qed.
Lemma generic_some ts : all_generic (map enc_ety ts) = true -> Forall (fun t => enc_ety t <> None) ts.
Proof. intros H. eapply Forall_impl; [|apply generic_static; exact H]. cbn beta. intros t (y & -> & _). discriminate. Qed.
Lemma generic_in ts t y e : all_generic (map enc_ety ts) = true -> In t ts -> enc_ety t = Some y -> EOf y e -> EGeneric e (into_generic_enc e).
Proof.
  intros H Hin Hy He. apply generic_static in H. rewrite Forall_forall in H. destruct (H _ Hin) as (y' & Hy' & Hg).
  apply (@generic_of y); [exact He|]. congruence.
Qed.

Lemma breaks_rep ch t v Q : wt t v -> Representable t v -> Breaks (encode ch t v) Q.
Proof.
  intros Hv Hr. destruct (good_all ch t v Hv) as [x _ _ Hx | cs e Hn _ | cs _ _ Ht]; [apply (breaks_succeeds _ Hx) | contradiction|].
  intros ds e Hd. destruct (traces_unique Hd Ht) as [_ H]. discriminate.
Qed.

Lemma breaks_all ch t : BreaksTy ch t.
Proof.
  induction t using ty_ind_strong; intros Hs v Hv; destruct v; try (cbn [wt] in Hv; contradiction);
    try (apply breaks_rep; [exact Hv | exact I]); cbn [wt] in Hv; cbn [encode];
    try (apply breaks_text; constructor);
    try (cbn [enc_ety] in Hs; eapply breaks_ext; [apply IHt; assumption|]; intros bs0 e0 He0; constructor; exact He0).
  - eapply breaks_ext; [apply int_breaks|]. cbn beta. intros bs e [-> He]. constructor. exact He.
  - eapply breaks_ext; [apply int_breaks|]. cbn beta. intros bs e [-> He]. constructor. exact He.
  - eapply breaks_sign; [apply (S_bool true) | apply HT_num | exact IHt | exact Hs | exact Hv|]. intros bs e He. constructor. exact He.
  - destruct (enc_ety (TResult t1 t2)) as [y|] eqn:Ey; [|congruence]. apply result_static in Ey. destruct Ey as (E1 & x & E2 & _).
    eapply breaks_sign; [apply (S_bool false) | apply HT_num | exact IHt1 | congruence | exact Hv|]. intros bs e He. constructor. exact He.
  - destruct (enc_ety (TResult t1 t2)) as [y|] eqn:Ey; [|congruence]. apply result_static in Ey. destruct Ey as (E1 & x & E2 & Hi).
    assert (Hof : Breaks (encode ch t2 v) (fun bs e => Fails ch t2 v bs e /\ EOf x e)).
    { intros cs e Hc. split; [apply IHt2; [congruence | exact Hv | exact Hc] | eapply traces_of; eassumption]. }
    apply breaks_seq; [apply HT_num | apply HT_map_err, encode_has_trace | eapply breaks_succeeds; apply (S_bool true)|].
    intros b Hb. rewrite (succeeds_unique Hb (S_bool true)). apply breaks_map; [apply encode_has_trace|].
    eapply breaks_ext; [exact Hof|]. cbn beta. intros bs e [He Heo]. cbn [app].
    unfold into_ety in Hi. destruct (ety_eqb x y) eqn:Exy.
    + apply ety_eqb_eq in Exy. subst x. rewrite result_conv_same by congruence. apply F_err_same; [congruence | exact He].
    + cbn [orb] in Hi. destruct y; try discriminate.
      * destruct (infallible_none Heo Hi).
      * assert (x <> YGeneric) by (intros ->; discriminate). rewrite (@result_conv_generic t1 t2 x) by assumption.
        eapply F_err_generic; try eassumption. apply (@generic_of x); assumption.
  - apply all2_forall2 in Hv. eapply breaks_ext; [apply (@breaks_fields ch (fun e => e)); [exact H | apply same_static; exact Hs | exact Hv]|].
    cbn beta. intros bs e (e' & t & y & He & -> & _). constructor. exact He.
  - cbn [enc_ety] in Hs. apply option_map_some in Hs. destruct Hv as [Hl Hv].
    eapply breaks_ext; [apply breaks_items; eassumption|]. cbn beta. intros bs e (k & e' & Hk & ->). constructor. exact Hk.
  - cbn [enc_ety] in Hs. apply option_map_some in Hs. apply breaks_slice; [exact IHt | exact Hs | constructor | exact Hv].
  - cbn [enc_ety] in Hs. apply option_map_some in Hs. apply breaks_slice; [exact IHt | exact Hs | constructor | exact Hv].
  - cbn [enc_ety] in Hs. apply option_map_some in Hs. apply breaks_slice; [exact IHt | exact Hs | constructor | exact Hv].
  - cbn [enc_ety] in Hs. apply option_map_some in Hs. apply breaks_slice; [exact IHt | exact Hs | constructor | apply Hv].
  - cbn [enc_ety] in Hs. apply option_map_some in Hs. unfold enc_refcell. destruct mut_borrowed; [apply breaks_error; constructor|].
    apply breaks_map; [apply encode_has_trace|]. eapply breaks_ext; [apply (IHt Hs _ Hv)|]. intros bs e He. constructor. exact He.
  - cbn [enc_ety] in Hs. destruct Hv as [H1 H2]. apply breaks_seq; [apply encode_has_trace | apply encode_has_trace | |].
    + eapply breaks_ext; [apply (IHt Hs _ H1)|]. intros bs e He. apply F_range_start. exact He.
    + intros x Hx. apply succeeds_wire in Hx; [|exact H1]. eapply breaks_ext; [apply (IHt Hs _ H2)|]. intros bs e He. apply F_range_end; assumption.
  - cbn [enc_ety] in Hs. destruct Hv as [H1 H2]. apply breaks_seq; [apply encode_has_trace | apply encode_has_trace | |].
    + eapply breaks_ext; [apply (IHt Hs _ H1)|]. intros bs e He. apply F_range_incl_start. exact He.
    + intros x Hx. apply succeeds_wire in Hx; [|exact H1]. eapply breaks_ext; [apply (IHt Hs _ H2)|]. intros bs e He. apply F_range_incl_end; assumption.
  - cbn [enc_ety] in Hs. apply option_map_some in Hs.
    eapply breaks_sign_map; [apply (@S_u8 0 x00 eq_refl) | apply HT_num | exact IHt | exact Hs | exact Hv|]. intros bs e He. constructor. exact He.
  - cbn [enc_ety] in Hs. apply option_map_some in Hs.
    eapply breaks_sign_map; [apply (@S_u8 1 x01 eq_refl) | apply HT_num | exact IHt | exact Hs | exact Hv|]. intros bs e He. constructor. exact He.
  - cbn [enc_ety] in Hs. destruct (enc_ety t1) eqn:E1; [|congruence]. destruct (enc_ety t2) eqn:E2; [|congruence].
    eapply breaks_ext; [apply breaks_entries; [exact IHt1 | exact IHt2 | congruence | congruence | apply Hv]|].
    intros bs0 e1 He. constructor. exact He.
  - cbn [enc_ety] in Hs. eapply breaks_ext; [apply breaks_keys; [exact IHt | exact Hs | apply Hv]|].
    cbn beta. intros bs e (k & Hk). econstructor. exact Hk.
  - apply all2_forall2 in Hv. cbn [enc_ety] in Hs. destruct (all_generic (map enc_ety ts)) eqn:Eg; [|congruence].
    eapply breaks_ext; [apply (@breaks_fields ch into_generic_enc); [exact H | apply generic_some; exact Eg | exact Hv]|].
    cbn beta. intros bs e (e' & t & y & He & -> & Hin & Hy & Ho). econstructor; [exact He|]. eapply generic_in; eassumption.
  - cbn [enc_ety] in Hs. destruct (forallb _ vs) eqn:Eg; [|congruence]. rewrite forallb_forall in Eg.
    destruct Hv as [Hok Hf]. unfold enum_ok in Hok. destruct (discriminants (map fst vs)) as [ds|] eqn:Hd; [|contradiction].
    unfold enc_enum. destruct (nth_error ds i) as [d|] eqn:Ed; [|apply breaks_panic].
    destruct (nth_error (map (fun x => map wt (snd x)) vs) i) as [ps|] eqn:En; [|contradiction].
    apply nth_error_map_inv in En. destruct En as ([x ts] & En & ->). cbn [snd] in Hf. apply all2_forall2 in Hf.
    rewrite (nth_error_map_some (fun x => map (encode ch) (snd x)) _ _ En). cbn [snd].
    assert (Ha : Assigned (map fst vs) i d) by (apply (@discriminants_assigned _ _ i d Hd); exact Ed).
    pose proof (nth_error_In _ _ En) as Hin. rewrite Forall_forall in H. specialize (H _ Hin). specialize (Eg _ Hin). cbn [snd] in *.
    apply breaks_seq; [apply HT_map_err, HT_int | apply HT_encode_fields | |].
    + apply breaks_map; [apply HT_int|]. eapply breaks_ext; [apply int_breaks|]. cbn beta. intros bs e [-> He]. econstructor; eassumption.
    + intros db Hdb. assert (Hw : WireInt r d db).
      { apply int_succeeds. destruct (HT_int r d) as (es & q & Hq). destruct Hdb as (cs & Hc & <-).
        destruct (traces_unique (T_map_err _ Hq) Hc) as [<- Hr]. destruct q as [[]| |]; try discriminate. exists es. split; [exact Hq | reflexivity]. }
      eapply breaks_ext; [apply breaks_fields; [exact H | apply generic_some; exact Eg | exact Hf]|].
      cbn beta. intros bs e (e' & t & y & He & -> & Hi & Hy & Ho). econstructor; try eassumption. eapply generic_in; eassumption.
Qed.

(* ---- the property *)
Lemma C88_lemma ch t y v bs e : enc_ety t = Some y -> wt t v -> (Appends (encode ch t v) bs (Err e) <-> Fails ch t v bs e).
Proof.
  intros Hy Hv. split.
  - intros H. destruct (appends_to_traces (encode_has_trace _ _ _) H) as (cs & Ht & <-). apply breaks_all; [congruence | exact Hv | exact Ht].
  - intros H. apply stops_appends, fails_stops; assumption.
Qed.
Lemma C88_run_lemma ch t y v o bs e : enc_ety t = Some y -> wt t v -> (output_position o <= output_capacity o)%nat ->
  ((exists o', encode ch t v o = (o', Err e) /\ output_as_slice o' = output_as_slice o ++ bs) <->
   (Fails ch t v bs e /\ (length bs <= output_remaining o)%nat)).
Proof.
  intros Hy Hv Hw. split.
  - intros (o' & He & Hs). destruct (encode_has_trace ch t v) as (cs & r & Ht).
    destruct (trace_run Ht Hw) as [[Hl Hm]|(_ & y' & e' & Hm & _)]; rewrite Hm in He; [|discriminate]. injection He as <- ->.
    rewrite append_slice in Hs by exact Hw. apply app_inv_head in Hs. subst bs. split; [|exact Hl].
    apply breaks_all; [congruence | exact Hv | exact Ht].
  - intros [Hf Hl]. apply (stops_appends (fails_stops Hf Hv)); assumption.
Qed.
