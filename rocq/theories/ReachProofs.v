(* The exact forms of C18, C20 and C73. *)
From Coq Require Import Lia.
From Verif Require Import Base Streams Utf8 Types Traits Encode Decode Sized Spec SpecCalls SpecDecode SpecSize SpecPeak SpecValues SpecDerive SpecWork SpecEq SpecSurvive SpecReach
  BaseFacts TypesFacts Utf8Facts WireFacts AcceptFacts ValueProofs DecodeFacts DecodeProofs DeriveProofs SizeProofs EncodeProofs EncodeFacts EncodeCases ValEq TightProofs PeakProofs IntakeProofs WorkProofs PortableProofs SurviveProofs.
Set Implicit Arguments.

(* ---- decodable types have valid values that can be decoded *)

(* also used for the parts beside a flaw *)
Definition Fine (t : ty) (bs : list byte) (v : val) := Accepts t bs v /\ wt t v.

Lemma accepts_fine_all :
  (forall t bs v, Accepts t bs v -> exists bs' v', Fine t bs' v' /\ length bs' = length bs) /\
  (forall ts bs vs, AcceptsFields ts bs vs -> exists bs' vs', AcceptsFields ts bs' vs' /\ all2 (map wt ts) vs' /\ length bs' = length bs) /\
  (forall t bs vs, AcceptsItems t bs vs -> exists bs' vs', AcceptsItems t bs' vs' /\ Forall (wt t) vs' /\ length vs' = length vs /\ length bs' = length bs) /\
  (forall k v bs l, AcceptsEntries k v bs l -> exists bs' l', AcceptsEntries k v bs' l' /\ Forall (fun p => wt k (fst p) /\ wt v (snd p)) l' /\ length l' = length l /\ length bs' = length bs).
Proof.
  apply (@Accepts_mutind
    (fun t bs v _ => exists bs' v', Fine t bs' v' /\ length bs' = length bs)
    (fun ts bs vs _ => exists bs' vs', AcceptsFields ts bs' vs' /\ all2 (map wt ts) vs' /\ length bs' = length bs)
    (fun t bs vs _ => exists bs' vs', AcceptsItems t bs' vs' /\ Forall (wt t) vs' /\ length vs' = length vs /\ length bs' = length bs)
    (fun k v bs l _ => exists bs' l', AcceptsEntries k v bs' l' /\ Forall (fun p => wt k (fst p) /\ wt v (snd p)) l' /\ length l' = length l /\ length bs' = length bs));
    intros; unfold Fine in *;
    try (do 2 eexists; split; [split; [econstructor; eassumption | cbn [wt]; auto]|]; reflexivity);
    repeat match goal with
      | H : exists _ _, (Accepts _ _ _ /\ _) /\ _ |- _ => let b := fresh "B" in let w := fresh "W" in let Ha := fresh "Ha" in let Hw := fresh "Hw" in let Hl := fresh "Hl" in
          destruct H as (b & w & (Ha & Hw) & Hl)
      | H : exists _ _, AcceptsFields _ _ _ /\ _ |- _ => let b := fresh "B" in let w := fresh "W" in let Ha := fresh "Ha" in let Hw := fresh "Hw" in let Hl := fresh "Hl" in
          destruct H as (b & w & Ha & Hw & Hl)
      | H : exists _ _, AcceptsItems _ _ _ /\ _ |- _ => let b := fresh "B" in let w := fresh "W" in let Ha := fresh "Ha" in let Hw := fresh "Hw" in let Hn := fresh "Hn" in let Hl := fresh "Hl" in
          destruct H as (b & w & Ha & Hw & Hn & Hl)
      | H : exists _ _, AcceptsEntries _ _ _ _ /\ _ |- _ => let b := fresh "B" in let w := fresh "W" in let Ha := fresh "Ha" in let Hw := fresh "Hw" in let Hn := fresh "Hn" in let Hl := fresh "Hl" in
          destruct H as (b & w & Ha & Hw & Hn & Hl)
      end;
    try (do 2 eexists; split; [split; [econstructor; eassumption | cbn [wt]; auto]|]; cbn [length]; rewrite ?app_length; congruence).
  - exists (le_bytes 4 97), (VChar 97). split; [split; [constructor; [lia | apply le_repr_le_bytes] | reflexivity]|].
    rewrite (le_repr_len l). reflexivity.
  - exists (B0 ++ B), (VRange W0 W). split; [split; [constructor; assumption | split; assumption] | rewrite !app_length; congruence].
  - exists (B0 ++ B), (VRangeInclusive W0 W false). split; [split; [constructor; assumption | split; assumption] | rewrite !app_length; congruence].
  - match goal with Hv : nth_error vs i = Some (e, ts) |- _ => pose proof (nth_error_map_some (fun x => map wt (snd x)) _ _ Hv) as Hm end.
    exists (db ++ B), (VEnum i W). split; [split; [econstructor; eassumption | cbn [wt]; split; [assumption | rewrite Hm; exact Hw]] | rewrite !app_length; congruence].
  - exists B, (VSeq W). split; [split; [constructor; [congruence | assumption] | split; [congruence | assumption]] | assumption].
  - exists (lb ++ B), (VSeq W). split; [split; [constructor; [rewrite Hn; assumption | assumption] | assumption] | rewrite !app_length; congruence].
  - exists (lb ++ B), (VSeq W). split; [split; [constructor; [rewrite Hn; assumption | assumption] | assumption] | rewrite !app_length; congruence].
  - exists (lb ++ B), (VSeq (firstn len W)). split; [split; [constructor; try assumption; congruence|] | rewrite !app_length; congruence].
    cbn [wt]. split; [rewrite firstn_length; lia|]. rewrite <- (firstn_skipn len W) in Hw. apply Forall_app in Hw. apply Hw.
  - destruct (putall_exists W []) as (m' & Hm). exists (lb ++ B), (VMap m'). split; [split; [econstructor; [rewrite Hn; eassumption | exact Ha | exact Hm]|] | rewrite !app_length; congruence].
    cbn [wt]. split; [apply (putall_nodup Hm); constructor | eapply putall_forall; [exact Hm | constructor | exact Hw]].
  - destruct (addall_exists W []) as (m' & Hm). exists (lb ++ B), (VSet m'). split; [split; [econstructor; [rewrite Hn; eassumption | exact Ha | exact Hm]|] | rewrite !app_length; congruence].
    cbn [wt]. split; [apply (addall_nodup Hm); constructor | eapply addall_forall; [exact Hm | constructor | exact Hw]].
  - exists B, (VCow true W). split; [split; [apply A_cow; assumption | exact (proj1 (owned_wt t W) Hw)] | assumption].
  - do 2 eexists. split; [split; [econstructor; eassumption|] | reflexivity]. cbn [wt]. pose proof (Z.div_pos n 1000000000). pose proof (Z.mod_pos_bound n 1000000000). lia.
  - do 2 eexists. split; [split; [econstructor; eassumption|] | reflexivity]. cbn [wt]. lia.
  - exists (rev o ++ pb ++ fb ++ sb), (VSock6 o p f s). split; [split; [constructor; assumption | cbn [wt]; tauto] | reflexivity].
  - exists (x06 :: rev o ++ pb ++ fb ++ sb), (VSockV6 o p f s). split; [split; [constructor; assumption | cbn [wt]; tauto] | reflexivity].
  - exists [], []. repeat split. constructor.
  - exists (B ++ B0), (W :: W0). split; [constructor; assumption|]. split; [split; assumption | rewrite !app_length; congruence].
  - exists [], []. repeat split; constructor.
  - exists (B ++ B0), (W :: W0). split; [constructor; assumption|]. split; [constructor; assumption|]. split; [cbn; congruence | rewrite !app_length; congruence].
  - exists [], []. repeat split; constructor.
  - exists (B0 ++ B ++ B1), ((W0, W) :: W1). split; [constructor; assumption|]. split; [constructor; [split; assumption | assumption]|]. split; [cbn; congruence | rewrite !app_length; congruence].
Qed.

Lemma decodable_fine t : EnumsOk t -> decodable t = true -> exists bs v, Fine t bs v.
Proof.
  unfold decodable. intros He Hd. destruct (intake t) as [n|] eqn:E; [|discriminate]. destruct (proj1 (@intake_may t He) _ E) as (bs & v & Ha & _).
  destruct (proj1 accepts_fine_all _ _ _ Ha) as (bs' & v' & Hf & _). eauto.
Qed.
Lemma octets_fine t : EnumsOk t -> takes_octets t = true -> exists bs v, Fine t bs v /\ 0 < length bs.
Proof.
  unfold takes_octets. intros He Hd. destruct (intake t) as [n|] eqn:E; [|discriminate]. apply N.ltb_lt in Hd.
  destruct (proj1 (@intake_may t He) _ E) as (bs & v & Ha & Hl). destruct (proj1 accepts_fine_all _ _ _ Ha) as (bs' & v' & Hf & Hl').
  exists bs', v'. split; [exact Hf | lia].
Qed.
Lemma accepts_decodable t bs v : Accepts t bs v -> decodable t = true.
Proof. intros H. apply (proj1 accepts_small) in H. destruct H as (n & Hn & _). unfold decodable. rewrite Hn. reflexivity. Qed.
Lemma fields_decodable ts bs vs : AcceptsFields ts bs vs -> forallb decodable ts = true.
Proof. induction ts as [|t ts IH] in bs, vs |- *; intros H; inversion H; subst; [reflexivity|]. cbn [forallb]. erewrite accepts_decodable by eassumption. eapply IH; eassumption. Qed.

(* ---- a flaw in a part is a flaw of the whole *)

Inductive FineFields : list ty -> list byte -> list val -> Prop :=
| FF_nil : FineFields [] [] []
| FF_cons t ts x y v vs : Fine t x v -> FineFields ts y vs -> FineFields (t :: ts) (x ++ y) (v :: vs).

Lemma fine_fields ts : Forall EnumsOk ts -> forallb decodable ts = true -> exists bs vs, FineFields ts bs vs.
Proof.
  induction 1 as [|t ts Ht Hts IH]; intros Hd; [exists [], []; constructor|]. cbn [forallb] in Hd. apply andb_true_iff in Hd. destruct Hd as [Hd1 Hd2].
  destruct (decodable_fine _ Ht Hd1) as (x & v & Hf). destruct (IH Hd2) as (y & vs & Hfs). exists (x ++ y), (v :: vs). constructor; assumption.
Qed.
Lemma fine_accepts ts bs vs : FineFields ts bs vs -> AcceptsFields ts bs vs /\ all2 (map wt ts) vs.
Proof. induction 1 as [|t ts x y v vs [Ha Hw] _ [IH1 IH2]]; [split; [constructor | exact I]|]. split; [constructor; assumption | split; assumption]. Qed.
Lemma fine_items t n bs v : Fine t bs v -> AcceptsItems t (concat (repeat bs n)) (repeat v n) /\ Forall (wt t) (repeat v n).
Proof.
  intros [Ha Hw]. split; [apply accepts_repeat; exact Ha|]. apply Forall_forall. intros x Hx. apply repeat_spec in Hx. subst. exact Hw.
Qed.
Lemma wire_len_small n : n < 3 -> WireLen n [z2b (Z.of_nat n); x00].
Proof. intros H. split; [lia|]. apply le_repr_iff. destruct n as [|[|[|n]]]; try reflexivity. lia. Qed.

Section Flaw.
  Variable kind : ty -> bool.
  Variable Bad : ty -> list byte -> val -> Prop.

  Inductive BadFields : list ty -> list byte -> list val -> Prop :=
  | BF_here t ts x y v vs : Bad t x v -> FineFields ts y vs -> BadFields (t :: ts) (x ++ y) (v :: vs)
  | BF_there t ts x y v vs : Fine t x v -> BadFields ts y vs -> BadFields (t :: ts) (x ++ y) (v :: vs).

  (* what a kind of flaw has to satisfy *)
  Record Spreads := {
    sp_some : forall t x v, Bad t x v -> Bad (TOption t) (x01 :: x) (VSome v);
    sp_ok : forall t e x v, Bad t x v -> Bad (TResult t e) (x00 :: x) (VOk v);
    sp_err : forall t e x v, Bad e x v -> Bad (TResult t e) (x01 :: x) (VErr v);
    sp_bound : forall t x v, Bad t x v -> Bad (TBound t) (x00 :: x) (VIncluded v);
    sp_tuple : forall ts x vs, BadFields ts x vs -> Bad (TTuple ts) x (VTuple vs);
    sp_struct : forall ts x vs, BadFields ts x vs -> Bad (TStruct ts) x (VTuple vs);
    sp_enum : forall r vs i e ts d db x fs, enum_ok r vs -> nth_error vs i = Some (e, ts) -> Assigned (map fst vs) i d -> WireInt r d db ->
      BadFields ts x fs -> Bad (TEnum r vs) (db ++ x) (VEnum i fs);
    sp_range : forall t x y v w, Bad t x v -> Fine t y w -> Bad (TRange t) (x ++ y) (VRange v w);
    sp_range_incl : forall t x y v w, Bad t x v -> Fine t y w -> Bad (TRangeInclusive t) (x ++ y) (VRangeInclusive v w false);
    sp_from : forall t x v, Bad t x v -> Bad (TRangeFrom t) x (VHalfRange v);
    sp_to : forall t x v, Bad t x v -> Bad (TRangeTo t) x (VHalfRange v);
    sp_to_incl : forall t x v, Bad t x v -> Bad (TRangeToInclusive t) x (VHalfRange v);
    sp_array : forall t x v y w n, Bad t x v -> Fine t y w -> Bad (TArray t (S n)) (x ++ concat (repeat y n)) (VSeq (v :: repeat w n));
    sp_vec : forall t x v, Bad t x v -> Bad (TVec t) ([x01; x00] ++ x) (VSeq [v]);
    sp_linked : forall t x v, Bad t x v -> Bad (TLinked t) ([x01; x00] ++ x) (VSeq [v]);
    sp_slice : forall t x v y w n, Bad t x v -> Fine t y w -> Bad (TSizedSlice t (S n)) ([x01; x00] ++ x ++ concat (repeat y n)) (VSeq [v]);
    sp_key : forall k t x v y w, Bad k x v -> Fine t y w -> Bad (THashMap k t) ([x01; x00] ++ x ++ y) (VMap [(v, w)]);
    sp_value : forall k t x v y w, Fine k x v -> Bad t y w -> Bad (THashMap k t) ([x01; x00] ++ x ++ y) (VMap [(v, w)]);
    sp_set : forall k x v, Bad k x v -> Bad (THashSet k) ([x01; x00] ++ x) (VSet [v]);
    sp_wrap : forall w t x v, Bad t x v -> Bad (TWrap w t) x (VWrap v);
    sp_cow : forall t x v, Bad (owned t) x v -> Bad (TCow t) x (VCow true v);
    sp_refcell : forall t x v, Bad t x v -> Bad (TRefCell t) x (VRefCell false v);
    sp_lock : forall l t x v, Bad t x v -> Bad (TLock l t) x (VLock false v) }.

  Hypothesis spreads : Spreads.
  Hypothesis starts : forall t, EnumsOk t -> kind t = true -> exists x v, Bad t x v.
  Hypothesis accepted : forall t x v, Bad t x v -> Accepts t x v.
  Hypothesis at_str : kind TStr = false.
  Hypothesis at_cstr : kind TCStr = false.

  Lemma bad_fields ts : Forall (fun t => EnumsOk t -> reaches kind t = true -> exists x v, Bad t x v) ts -> Forall EnumsOk ts ->
    forallb decodable ts = true -> existsb (reaches kind) ts = true -> exists x vs, BadFields ts x vs.
  Proof.
    induction 1 as [|t ts Ht Hts IH]; intros He Hd Hr; [discriminate|]. inversion He as [|? ? He1 He2]; subst.
    cbn [forallb existsb] in Hd, Hr. apply andb_true_iff in Hd. destruct Hd as [Hd1 Hd2]. apply orb_true_iff in Hr. destruct Hr as [Hr|Hr].
    - destruct (Ht He1 Hr) as (x & v & Hb). destruct (fine_fields He2 Hd2) as (y & vs & Hf). exists (x ++ y), (v :: vs). apply BF_here; assumption.
    - destruct (decodable_fine _ He1 Hd1) as (x & v & Hf). destruct (IH He2 Hd2 Hr) as (y & vs & Hb). exists (x ++ y), (v :: vs). apply BF_there; assumption.
  Qed.

  Lemma some_variant_spec r l : forall next, some_variant r next l = true ->
    exists i e, nth_error l i = Some (e, true) /\ forall prev d, starting prev = next -> AssignedFrom prev (map fst l) i d -> int_fits r d.
  Proof.
    intros next H. assert (H' : exists m, largest_variant r next (map (fun x => (fst x, if snd x : bool then Some 0%N else None)) l) = Some m).
    { revert next H. induction l as [|[e b] l IH]; intros next H; [discriminate|]. cbn [some_variant map fst snd largest_variant] in *. cbv zeta in *.
      apply orb_true_iff in H. destruct H as [H|H].
      - apply andb_true_iff in H. destruct H as [-> ->]. cbn [option_map]. destruct (largest_variant _ _ _); eexists; reflexivity.
      - destruct (IH _ H) as (m & ->). destruct (if can_encode _ _ then _ else _); eexists; reflexivity. }
    destruct H' as (m & Hm). destruct (variant_from _ _ _ Hm) as (i & e & n & Hi & _ & Hf). apply nth_error_map_inv in Hi. destruct Hi as ([e' b] & Hi & E).
    cbn [fst snd] in E. destruct b; [|discriminate]. injection E as <- _. exists i, e. split; [exact Hi|]. rewrite map_map in Hf. exact Hf.
  Qed.

  Lemma bad_decodable t : EnumsOk t -> (exists x v, Bad t x v) -> exists x v y w, Bad t x v /\ Fine t y w.
  Proof. intros He (x & v & Hb). destruct (decodable_fine _ He (accepts_decodable (accepted Hb))) as (y & w & Hf). exists x, v, y, w. split; assumption. Qed.

  Lemma reaches_bad_all t : EnumsOk t -> (reaches kind t = true -> exists x v, Bad t x v) /\
    match t with TSlice t' => reaches kind t' = true -> exists x v, Bad t' x v | _ => True end.
  Proof.
    pose proof spreads as SP. destruct SP.
    induction t using ty_ind_strong; intros Hx; (split; [|first [exact I | intros Hr; apply (IHt Hx); exact Hr]]); intros Hr; cbn [reaches] in Hr;
      apply orb_true_iff in Hr; destruct Hr as [Hr|Hr]; try (apply starts; assumption); try discriminate Hr; cbn [EnumsOk] in Hx;
      try (destruct (@bad_decodable t Hx (proj1 (IHt Hx) Hr)) as (x & v & y & u & Hb & Hf); eauto; fail).
    - destruct Hx as [Hx1 Hx2]. apply orb_true_iff in Hr. destruct Hr as [Hr|Hr]; [destruct (proj1 (IHt1 Hx1) Hr) as (x & v & Hb) | destruct (proj1 (IHt2 Hx2) Hr) as (x & v & Hb)]; eauto.
    - apply fold_and_map in Hx. apply andb_true_iff in Hr. destruct Hr as [Hd Hr]. assert (H' : Forall (fun t => EnumsOk t -> reaches kind t = true -> exists x v, Bad t x v) ts)
        by (eapply Forall_impl; [|exact H]; intros t' Ht He; exact (proj1 (Ht He))).
      destruct (bad_fields H' Hx Hd Hr) as (x & vs & Hb). eauto.
    - apply andb_true_iff in Hr. destruct Hr as [Hn Hr]. destruct n as [|n]; [discriminate Hn|]. destruct (@bad_decodable t Hx (proj1 (IHt Hx) Hr)) as (x & v & y & u & Hb & Hf). eauto.
    - apply andb_true_iff in Hr. destruct Hr as [Hn Hr]. destruct n as [|n]; [discriminate Hn|]. destruct (@bad_decodable t Hx (proj1 (IHt Hx) Hr)) as (x & v & y & u & Hb & Hf). eauto.
    - assert (Ho : exists x v, Bad (owned t) x v).
      { destruct t; try (apply (IHt Hx); exact Hr); cbn [owned].
        - destruct (proj2 (IHt Hx) Hr) as (x & v & Hb). eauto.
        - cbn [reaches] in Hr. rewrite at_str in Hr. discriminate Hr.
        - cbn [reaches] in Hr. rewrite at_cstr in Hr. discriminate Hr. }
      destruct Ho as (x & v & Hb). eauto.
    - destruct Hx as [Hx1 Hx2]. apply andb_true_iff in Hr. destruct Hr as [Hd Hr]. apply andb_true_iff in Hd. destruct Hd as [Hd1 Hd2].
      destruct (decodable_fine _ Hx1 Hd1) as (x & v & Hf1), (decodable_fine _ Hx2 Hd2) as (y & w & Hf2).
      apply orb_true_iff in Hr. destruct Hr as [Hr|Hr]; [destruct (proj1 (IHt1 Hx1) Hr) as (x' & v' & Hb) | destruct (proj1 (IHt2 Hx2) Hr) as (x' & v' & Hb)]; eauto.
    - apply fold_and_map in Hx. apply andb_true_iff in Hr. destruct Hr as [Hd Hr]. assert (H' : Forall (fun t => EnumsOk t -> reaches kind t = true -> exists x v, Bad t x v) ts)
        by (eapply Forall_impl; [|exact H]; intros t' Ht He; exact (proj1 (Ht He))).
      destruct (bad_fields H' Hx Hd Hr) as (x & vs & Hb). eauto.
    - destruct Hx as [Hok Hx]. apply fold_and_map in Hx. destruct (some_variant_spec _ _ _ Hr) as (i & e & Hi & Hf).
      apply nth_error_map_inv in Hi. destruct Hi as ([e' ts] & Hi & E). cbn [fst snd] in E. injection E as <- Et. symmetry in Et.
      destruct (@assigned_exists (map fst vs) i e (nth_error_map_some fst _ _ Hi)) as (d & Hd).
      assert (Hfit : int_fits r d) by (apply (Hf None d eq_refl); rewrite map_map; apply assigned_from_none; exact Hd).
      pose proof Hok as Hok'. unfold enum_ok in Hok'. destruct (discriminants (map fst vs)) as [ds|] eqn:Hds; [|contradiction]. destruct Hok' as [Hin' _].
      pose proof (proj2 (@discriminants_assigned _ _ _ _ Hds) Hd) as Ek. rewrite Forall_forall in Hin'. specialize (Hin' _ (nth_error_In _ _ Ek)).
      destruct (@Good_int true r d Hin') as [db _ Hwi _ | ? ? Hn _ | ? _ Hlow _]; [|contradiction|discriminate].
      rewrite Forall_forall in H, Hx. pose proof (nth_error_In _ _ Hi) as Hin. specialize (H _ Hin). specialize (Hx _ Hin). cbn [snd] in H, Hx. apply fold_and_map in Hx.
      apply andb_true_iff in Et. destruct Et as [Hdec Hre]. assert (H' : Forall (fun t => EnumsOk t -> reaches kind t = true -> exists x v, Bad t x v) ts)
        by (eapply Forall_impl; [|exact H]; intros t' Ht He; exact (proj1 (Ht He))).
      destruct (bad_fields H' Hx Hdec Hre) as (x & fs & Hb). exists (db ++ x), (VEnum i fs). eauto.
  Qed.

  Lemma reaches_bad t : EnumsOk t -> reaches kind t = true -> exists x v, Bad t x v.
  Proof. intros He. exact (proj1 (reaches_bad_all t He)). Qed.
End Flaw.

(* ---- types without octets *)

Lemma accepts_empty :
  (forall t bs v, Accepts t bs v -> nonempty t = false -> bs = []) /\
  (forall ts bs vs, AcceptsFields ts bs vs -> existsb nonempty ts = false -> bs = []) /\
  (forall t bs vs, AcceptsItems t bs vs -> nonempty t = false -> bs = []) /\
  (forall k v bs l, AcceptsEntries k v bs l -> True).
Proof.
  apply (@Accepts_mutind (fun t bs v _ => nonempty t = false -> bs = []) (fun ts bs vs _ => existsb nonempty ts = false -> bs = [])
    (fun t bs vs _ => nonempty t = false -> bs = []) (fun k v bs l _ => True)); intros; cbn [nonempty existsb] in *; try exact I; try discriminate; auto.
  - rewrite H, H0 by assumption. reflexivity.
  - rewrite H, H0 by assumption. reflexivity.
  - subst n. destruct vs as [|v vs]; [inversion a; reflexivity | apply H; exact H0].
  - apply H. destruct t; cbn [owned nonempty] in *; congruence.
  - apply orb_false_iff in H1. destruct H1. rewrite H, H0 by assumption. reflexivity.
  - rewrite H, H0 by assumption. reflexivity.
Qed.
Lemma no_octets t bs v : takes_octets t = false -> Accepts t bs v -> bs = [].
Proof.
  intros Ht Ha. destruct (proj1 accepts_small _ _ _ Ha) as (n & Hn & Hle). unfold takes_octets in Ht. rewrite Hn in Ht. apply N.ltb_ge in Ht.
  destruct bs; [reflexivity | cbn [length] in Hle; lia].
Qed.
Lemma no_octets_nonempty t bs v : takes_octets t = false -> Accepts t bs v -> nonempty t = false.
Proof. intros Ht Ha. pose proof (no_octets Ht Ha) as ->. eapply accepts_nonempty; exact Ha. Qed.
Lemma no_octets_items t bs vs : takes_octets t = false -> AcceptsItems t bs vs -> bs = [].
Proof. intros Ht. induction vs as [|v vs IH] in bs |- *; intros H; inversion H; subst; [reflexivity|]. erewrite (@no_octets t x v), (IH y) by eassumption. reflexivity. Qed.
Lemma octets_nonempty t : EnumsOk t -> takes_octets t = true -> nonempty t = true.
Proof.
  intros He Ht. destruct (octets_fine _ He Ht) as (bs & v & [Ha _] & Hl). destruct (nonempty t) eqn:E; [reflexivity|].
  rewrite (proj1 accepts_empty _ _ _ Ha E) in Hl. cbn in Hl. lia.
Qed.

(* ---- C18 *)

Definition Invalid (t : ty) (bs : list byte) (v : val) := Accepts t bs v /\ ~ wt t v.

Lemma invalid_fields ts bs vs : BadFields Invalid ts bs vs -> AcceptsFields ts bs vs /\ ~ all2 (map wt ts) vs.
Proof.
  induction 1 as [t ts x y v vs [Ha Hn] Hf | t ts x y v vs [Ha Hw] Hb [IH1 IH2]].
  - split; [constructor; [exact Ha | apply (fine_accepts Hf)]|]. intros [H _]. exact (Hn H).
  - split; [constructor; assumption|]. intros [_ H]. exact (IH2 H).
Qed.
Lemma one_len : WireLen 1 [x01; x00].
Proof. exact (@wire_len_small 1 ltac:(lia)). Qed.

Lemma cons_repeat {A} (v w : A) n : length (v :: repeat w n) = S n.
Proof. cbn [length]. rewrite repeat_length. reflexivity. Qed.

Lemma one_item t x v : Accepts t x v -> AcceptsItems t x [v].
Proof. intros H. rewrite <- (app_nil_r x). constructor; [exact H | constructor]. Qed.
Lemma one_entry k t x v y w : Accepts k x v -> Accepts t y w -> AcceptsEntries k t (x ++ y) [(v, w)].
Proof. intros H G. rewrite <- (app_nil_r y). constructor; [exact H | exact G | constructor]. Qed.

Lemma one_set k x v : Accepts k x v -> Accepts (THashSet k) ([x01; x00] ++ x) (VSet [v]).
Proof. intros H. eapply A_set with (l := [v]); [exact one_len | apply one_item; exact H|]. apply AddAll_new; [intros [] | constructor]. Qed.
Lemma one_map k t x v y w : Accepts k x v -> Accepts t y w -> Accepts (THashMap k t) ([x01; x00] ++ x ++ y) (VMap [(v, w)]).
Proof. intros H G. eapply A_map with (l := [(v, w)]); [exact one_len | apply one_entry; assumption|]. eapply PutAll_cons; [apply (@Put_new _ _ v w []); intros [] | constructor]. Qed.
Lemma one_slice t x v y w n : Accepts t x v -> Accepts t y w -> Accepts (TSizedSlice t (S n)) ([x01; x00] ++ x ++ concat (repeat y n)) (VSeq [v]).
Proof.
  intros H G. change [v] with (firstn 1 (v :: repeat w n)). constructor; [lia | exact one_len | apply cons_repeat|]. constructor; [exact H | apply accepts_repeat; exact G].
Qed.

Ltac accepted := first
  [ apply one_set; assumption | apply one_map; assumption | eapply one_slice; eassumption
  | apply (A_vec (vs := [_])); [exact one_len | apply one_item; assumption]
  | apply (A_linked (vs := [_])); [exact one_len | apply one_item; assumption]
  | apply A_array; [apply cons_repeat | constructor; [assumption | apply accepts_repeat; assumption]]
  | constructor; (assumption || discriminate) ].

Lemma invalid_spreads : Spreads Invalid.
Proof.
  constructor; unfold Invalid, Fine in *; intros;
    try match goal with H : BadFields _ _ _ _ |- _ => apply invalid_fields in H end;
    repeat match goal with H : _ /\ _ |- _ => destruct H end;
    try (split; [accepted | cbn [wt]; intros HX; repeat match goal with H : _ /\ _ |- _ => destruct H | H : Forall _ (_ :: _) |- _ => inversion H; subst; clear H end;
      cbn [fst snd] in *; tauto]).
  - split; [eapply A_enum; eassumption|]. cbn [wt]. match goal with Hi : nth_error vs i = Some _ |- _ => rewrite (nth_error_map_some (fun x => map wt (snd x)) _ _ Hi) end. cbn [snd]. tauto.
  - split; [apply A_cow; assumption|]. cbn [wt]. intros HX. apply (proj2 (owned_wt _ _)) in HX. tauto.
Qed.

(* what is left of a type that does not reach a kind *)
Lemma reaches_kind kind t : reaches kind t = false -> kind t = false.
Proof. destruct t; cbn [reaches]; intros H; apply orb_false_iff in H; apply H. Qed.
Lemma some_variant_false r l : forall prev i e b d, some_variant r (starting prev) l = false -> nth_error l i = Some (e, b) -> AssignedFrom prev (map fst l) i d -> int_fits r d -> b = false.
Proof.
  induction l as [|[e0 b0] l IH]; intros prev i e b d Hs Hi Ha Hf; [destruct i; discriminate|]. cbn [map fst] in Ha. apply assigned_from_inv in Ha. cbv zeta in Ha.
  cbn [some_variant] in Hs. cbv zeta in Hs. set (d0 := match e0 with Some d => d | None => starting prev end) in *. apply orb_false_iff in Hs. destruct Hs as [H1 H2].
  destruct i as [|i]; cbn [nth_error] in Hi.
  - injection Hi as <- <-. subst d. apply andb_false_iff in H1. destruct H1 as [H1|H1]; [|exact H1]. exfalso.
    revert H1 Hf. clear. unfold can_encode. destruct r; cbn [int_fits]; intros H1 Hf; try discriminate; lia.
  - apply (IH (Some d0) i e b d); [exact H2 | exact Hi | exact Ha | exact Hf].
Qed.
Lemma wireint_fits r d db : WireInt r d db -> int_fits r d.
Proof. intros H. destruct H; cbn [int_fits]; try tauto; destruct i; cbn; try tauto; congruence. Qed.

Lemma reaches_variant kind r vs i e ts d db : reaches kind (TEnum r vs) = false -> nth_error vs i = Some (e, ts) -> Assigned (map fst vs) i d -> WireInt r d db ->
  forallb decodable ts = true -> existsb (reaches kind) ts = false.
Proof.
  intros Hr Hi Ha Hw Hd. cbn [reaches] in Hr. apply orb_false_iff in Hr. destruct Hr as [_ Hr].
  assert (Hb : forallb decodable ts && existsb (reaches kind) ts = false).
  { refine (@some_variant_false r _ None i e _ d Hr _ _ (wireint_fits Hw)).
    - apply (nth_error_map_some (fun x => (fst x, forallb decodable (snd x) && existsb (reaches kind) (snd x))) _ _ Hi).
    - rewrite map_map. apply assigned_from_none. exact Ha. }
  rewrite Hd in Hb. exact Hb.
Qed.

Lemma reaches_entries kind k v bs l : AcceptsEntries k v bs l -> decodable k && decodable v && (reaches kind k || reaches kind v) = false ->
  l = [] \/ reaches kind k = false /\ reaches kind v = false.
Proof.
  intros H Hr. destruct H as [|k v a b l x y z Ha Hb _]; [left; reflexivity|]. right. rewrite (accepts_decodable Ha), (accepts_decodable Hb) in Hr. apply orb_false_iff. exact Hr.
Qed.

Section Sound.
  Variable kind : ty -> bool.
  Hypothesis kind_vec : forall t, kind (TVec t) = false.
  Hypothesis kind_string : kind TString = false.
  Hypothesis kind_cstring : kind TCString = false.

  Lemma reaches_owned t : reaches kind (TCow t) = false -> reaches kind (owned t) = false.
  Proof.
    cbn [reaches]. intros H. apply orb_false_iff in H. destruct H as [_ H]. destruct t; try exact H; cbn [owned reaches].
    - rewrite kind_vec. exact H.
    - rewrite kind_string. reflexivity.
    - rewrite kind_cstring. reflexivity.
  Qed.
  Lemma reaches_fields ts bs vs : AcceptsFields ts bs vs -> forallb decodable ts && existsb (reaches kind) ts = false -> existsb (reaches kind) ts = false.
  Proof. intros H. rewrite (fields_decodable H). trivial. Qed.
End Sound.

Lemma accepts_valid_all :
  (forall t bs v, Accepts t bs v -> reaches a_char t = false -> wt t v) /\
  (forall ts bs vs, AcceptsFields ts bs vs -> existsb (reaches a_char) ts = false -> all2 (map wt ts) vs) /\
  (forall t bs vs, AcceptsItems t bs vs -> vs = [] \/ reaches a_char t = false -> Forall (wt t) vs) /\
  (forall k v bs l, AcceptsEntries k v bs l -> l = [] \/ reaches a_char k = false /\ reaches a_char v = false -> Forall (fun p => wt k (fst p) /\ wt v (snd p)) l).
Proof.
  apply (@Accepts_mutind
    (fun t bs v _ => reaches a_char t = false -> wt t v)
    (fun ts bs vs _ => existsb (reaches a_char) ts = false -> all2 (map wt ts) vs)
    (fun t bs vs _ => vs = [] \/ reaches a_char t = false -> Forall (wt t) vs)
    (fun k v bs l _ => l = [] \/ reaches a_char k = false /\ reaches a_char v = false -> Forall (fun p => wt k (fst p) /\ wt v (snd p)) l));
    intros;
    try match goal with H : AcceptsFields _ _ _ |- _ => pose proof (fields_decodable H) end;
    try match goal with H : reaches _ _ = false |- _ => pose proof (reaches_kind _ _ H); try (pose proof (@reaches_owned a_char (fun _ => eq_refl) eq_refl eq_refl _ H)); try (pose proof (@reaches_variant _ _ _ _ _ _ _ _ H ltac:(eassumption) ltac:(eassumption) ltac:(eassumption) ltac:(eassumption))); cbn [reaches a_char orb] in H end;
    repeat match goal with H : _ || _ = false |- _ => apply orb_false_iff in H; destruct H end;
    cbn [wt]; try discriminate; auto.
  - rewrite H1 in H0. exact (H H0).
  - rewrite H1 in H0. exact (H H0).
  - split; [assumption|]. match goal with Hi : nth_error vs i = Some _ |- _ => rewrite (nth_error_map_some (fun x => map wt (snd x)) _ _ Hi) end. auto.
  - split; [assumption|]. subst n. destruct vs; auto.
  - subst n. rewrite firstn_length. split; [lia|]. assert (Hv : Forall (wt t) vs) by (destruct vs; auto).
    rewrite <- (firstn_skipn len vs) in Hv. apply Forall_app in Hv. apply Hv.
  - split; [apply (putall_nodup p); constructor|]. eapply putall_forall; [exact p | constructor|].
    apply H. eapply reaches_entries; eassumption.
  - split; [apply (addall_nodup a0); constructor|]. eapply addall_forall; [exact a0 | constructor | auto].
  - apply owned_wt. auto.
  - pose proof (Z.div_pos n 1000000000). pose proof (Z.mod_pos_bound n 1000000000). lia.
  - lia.
  - exact I.
  - cbn [existsb] in *. apply orb_false_iff in H1. destruct H1. split; auto.
  - destruct H1 as [H1|H1]; [discriminate|]. constructor; auto.
  - destruct H2 as [H2|[H2 H3]]; [discriminate|]. constructor; cbn [fst snd]; auto.
Qed.

Lemma start_char t : EnumsOk t -> a_char t = true -> exists x v, Invalid t x v.
Proof.
  intros _ H. destruct t; try discriminate H. exists (le_bytes 4 56832), (VChar 56832). split; [constructor; [lia | apply le_repr_le_bytes]|]. cbn. discriminate.
Qed.

Lemma C18_exact_lemma t : EnumsOk t -> (exists i i' v, in_bounds i /\ decode t i = (i', Ok v) /\ ~ wt t v) <-> reaches a_char t = true.
Proof.
  intros He. split.
  - intros (i & i' & v & Hb & Hd & Hn). destruct (reaches a_char t) eqn:E; [reflexivity|]. destruct Hn.
    destruct (@decode_exact t i i' v He Hb Hd) as (bs & post & _ & _ & Ha). exact (proj1 accepts_valid_all _ _ _ Ha E).
  - intros Hr. destruct (@reaches_bad a_char Invalid invalid_spreads start_char (fun t x v H => proj1 H) eq_refl eq_refl t He Hr) as (x & v & Ha & Hn).
    pose proof (accepts_parses Ha) as Hp. specialize (Hp [] []). cbn [app length Nat.add] in Hp. rewrite app_nil_r in Hp.
    exists (Input x 0), (Input x (length x)), v. split; [unfold in_bounds, input_position, input_capacity; cbn; lia|]. split; [exact Hp | exact Hn].
Qed.

(* ---- C73 *)

Definition Lossy (t : ty) (bs : list byte) (v : val) := Fine t bs v /\ ~ Survives t v.

Lemma lossy_fields ts bs vs : BadFields Lossy ts bs vs -> AcceptsFields ts bs vs /\ all2 (map wt ts) vs /\ ~ all2 (map Survives ts) vs.
Proof.
  induction 1 as [t ts x y v vs [[Ha Hw] Hn] Hf | t ts x y v vs [Ha Hw] Hb [IH1 [IH2 IH3]]].
  - destruct (fine_accepts Hf) as [F1 F2]. split; [constructor; assumption|]. split; [split; assumption|]. intros [H _]. exact (Hn H).
  - split; [constructor; assumption|]. split; [split; assumption|]. intros [_ H]. exact (IH3 H).
Qed.
Lemma owned_survives t v : Survives (owned t) v <-> Survives t v.
Proof. destruct t; cbn [owned]; try tauto; destruct v; cbn; tauto. Qed.
Lemma repeat_wt t w n : wt t w -> Forall (wt t) (repeat w n).
Proof. intros H. apply Forall_forall. intros x Hx. apply repeat_spec in Hx. subst. exact H. Qed.

Ltac valid := cbn [wt map all2 fst snd]; repeat match goal with
  | |- _ /\ _ => split | |- Forall _ (_ :: _) => constructor | |- Forall _ [] => constructor | |- NoDup (_ :: _) => constructor | |- NoDup [] => constructor
  | |- ~ In _ [] => intros [] | |- Forall _ (repeat _ _) => apply repeat_wt | |- length (_ :: repeat _ _) = _ => apply cons_repeat | |- length [_] <= _ => cbn [length]; lia end; try assumption.

Lemma lossy_spreads : Spreads Lossy.
Proof.
  constructor; unfold Lossy, Fine in *; intros;
    try match goal with H : BadFields _ _ _ _ |- _ => apply lossy_fields in H end;
    repeat match goal with H : _ /\ _ |- _ => destruct H end;
    try (split; [split; [accepted | valid] | cbn [Survives]; intros HX; repeat match goal with H : _ /\ _ |- _ => destruct H | H : Forall _ (_ :: _) |- _ => inversion H; subst; clear H end;
      cbn [fst snd] in *; tauto]).
  - match goal with Hi : nth_error vs i = Some _ |- _ => pose proof (nth_error_map_some (fun x => map wt (snd x)) _ _ Hi) as N1; pose proof (nth_error_map_some (fun x => map Survives (snd x)) _ _ Hi) as N2 end.
    split; [split; [eapply A_enum; eassumption | cbn [wt]; rewrite N1; split; assumption]|]. cbn [Survives]. rewrite N2. assumption.
  - split; [split; [apply A_cow; assumption | cbn [wt]; apply owned_wt; assumption]|]. cbn [Survives]. intros HX. apply (proj2 (owned_survives _ _)) in HX. tauto.
Qed.

Lemma start_lossy t : EnumsOk t -> a_lossy t = true -> exists x v, Lossy t x v.
Proof.
  intros He H. destruct t; try discriminate H.
  - cbn [a_lossy] in H. apply andb_true_iff in H. destruct H as [Hn Ho]. cbn [EnumsOk] in He. destruct (octets_fine _ He Ho) as (x & v & [Ha Hw] & Hl).
    exists ([x00; x00] ++ concat (repeat x n)), (VSeq (firstn 0 (repeat v n))). split; [split|].
    + constructor; [lia | exact (@wire_len_small 0 ltac:(lia)) | apply repeat_length | apply accepts_repeat; exact Ha].
    + cbn. split; [lia | constructor].
    + cbn [firstn Survives]. rewrite (octets_nonempty _ He Ho). intros [[E|E] _]; [cbn in E; subst n; discriminate Hn | discriminate E].
  - exists ([x00; x00] ++ []), (VMap []). split; [split|].
    + eapply A_map with (l := []); [exact (@wire_len_small 0 ltac:(lia)) | constructor | constructor].
    + cbn. split; constructor.
    + cbn. tauto.
  - exists ([x00; x00] ++ []), (VSet []). split; [split|].
    + eapply A_set with (l := []); [exact (@wire_len_small 0 ltac:(lia)) | constructor | constructor].
    + cbn. split; constructor.
    + cbn. tauto.
Qed.

Lemma accepts_survives_all :
  (forall t bs v, Accepts t bs v -> reaches a_lossy t = false -> Survives t v) /\
  (forall ts bs vs, AcceptsFields ts bs vs -> existsb (reaches a_lossy) ts = false -> all2 (map Survives ts) vs) /\
  (forall t bs vs, AcceptsItems t bs vs -> vs = [] \/ reaches a_lossy t = false -> Forall (Survives t) vs) /\
  (forall k v bs l, AcceptsEntries k v bs l -> True).
Proof.
  apply (@Accepts_mutind
    (fun t bs v _ => reaches a_lossy t = false -> Survives t v)
    (fun ts bs vs _ => existsb (reaches a_lossy) ts = false -> all2 (map Survives ts) vs)
    (fun t bs vs _ => vs = [] \/ reaches a_lossy t = false -> Forall (Survives t) vs)
    (fun k v bs l _ => True));
    intros;
    try match goal with H : AcceptsFields _ _ _ |- _ => pose proof (fields_decodable H) end;
    try match goal with H : reaches _ _ = false |- _ => pose proof (reaches_kind _ _ H); try (pose proof (@reaches_owned a_lossy (fun _ => eq_refl) eq_refl eq_refl _ H)); try (pose proof (@reaches_variant _ _ _ _ _ _ _ _ H ltac:(eassumption) ltac:(eassumption) ltac:(eassumption) ltac:(eassumption))); cbn [reaches a_lossy orb] in H end;
    repeat match goal with H : _ || _ = false |- _ => apply orb_false_iff in H; destruct H end;
    cbn [Survives]; try discriminate; auto.
  - rewrite H1 in H0. exact (H H0).
  - rewrite H1 in H0. exact (H H0).
  - match goal with Hi : nth_error vs i = Some _ |- _ => rewrite (nth_error_map_some (fun x => map Survives (snd x)) _ _ Hi) end. auto.
  - subst n. destruct vs; auto.
  - subst n. destruct vs as [|v vs]; [rewrite firstn_nil; split; [left; reflexivity | constructor]|]. cbn [length Nat.ltb Nat.leb andb] in *.
    match goal with Hi : AcceptsItems _ _ _ |- _ => inversion Hi; subst end. split; [right; eapply no_octets_nonempty; eassumption|].
    assert (Hv : Forall (Survives t) (v :: vs)) by auto. rewrite <- (firstn_skipn len (v :: vs)) in Hv. apply Forall_app in Hv. apply Hv.
  - apply owned_survives. auto.
  - exact I.
  - cbn [existsb] in *. apply orb_false_iff in H1. destruct H1. split; auto.
  - destruct H1 as [H1|H1]; [discriminate|]. constructor; auto.
Qed.

Lemma accepts_encodes t bs v : Accepts t bs v -> wt t v -> exists b, Appends (encode false t v) b (Ok tt).
Proof.
  intros Ha Hv. destruct (@C10_lemma false t v Hv (or_introl eq_refl)) as (b & [(_ & H) | (Hr & _)]); [exists b; exact H | destruct (Hr (accepts_representable Ha))].
Qed.

Lemma C73_exact_lemma t : EnumsOk t -> dec_ety t <> None ->
  (forall i i' v, in_bounds i -> decode t i = (i', Ok v) -> wt t v ->
     exists bs v', Appends (encode false t v) bs (Ok tt) /\ Yields (decode t) bs v' /\ SameValue t v' v) <-> reaches a_lossy t = false.
Proof.
  intros He Hi. split.
  - intros HA. destruct (reaches a_lossy t) eqn:E; [|reflexivity]. exfalso.
    destruct (@reaches_bad a_lossy Lossy lossy_spreads start_lossy (fun t x v H => proj1 (proj1 H)) eq_refl eq_refl t He E) as (x & v & [[Ha Hw] Hn]).
    pose proof (accepts_parses Ha) as Hp. specialize (Hp [] []). cbn [app length Nat.add] in Hp. rewrite app_nil_r in Hp.
    destruct (HA (Input x 0) (Input x (length x)) v) as (bs & v' & H1 & H2 & H3); [unfold in_bounds, input_position, input_capacity; cbn; lia | exact Hp | exact Hw|].
    apply Hn. apply (@C104_lemma false t v bs He Hi Hw H1). specialize (H2 [] []). cbn [app length Nat.add] in H2. rewrite app_nil_r in H2.
    exists (Input bs (length bs)), v'. split; [exact H2 | exact H3].
  - intros E i i' v Hb Hd Hw. destruct (@decode_exact t i i' v He Hb Hd) as (x & post & _ & _ & Ha).
    destruct (accepts_encodes Ha Hw) as (bs & H1). destruct (@C104_everywhere false t v bs He Hi Hw H1) as (v' & H2 & H3); [exact (proj1 accepts_survives_all _ _ _ Ha E)|].
    exists bs, v'. split; [exact H1 | split; assumption].
Qed.

(* ---- C20 *)

Definition Loose (t : ty) (bs : list byte) (v : val) := Fine t bs v /\ forall b, Wire false t v b -> b <> bs.

Lemma no_longer t bs v b : Fine t bs v -> Wire false t v b -> length b <= length bs.
Proof. intros [Ha Hw] H. apply (@no_shorter false t bs v b v (accepts_owned Ha) H (@same_refl t v Hw)). Qed.
Lemma no_longer_fields ts bs vs b : FineFields ts bs vs -> WireFields false ts vs b -> length b <= length bs.
Proof.
  intros H. revert b. induction H as [|t ts x y v vs Hf _ IH]; intros b Hw; inversion Hw; subst; [lia|]. rewrite !app_length.
  pose proof (no_longer Hf ltac:(eassumption)). pose proof (IH _ ltac:(eassumption)). lia.
Qed.
Lemma apart {A} (x y x' y' : list A) : length x' <= length x -> length y' <= length y -> x' ++ y' = x ++ y -> x' = x /\ y' = y.
Proof.
  intros H1 H2 E. pose proof (f_equal (@length A) E) as L. rewrite !app_length in L. revert x' H1 E L. induction x as [|a x IH]; intros [|a' x'] H1 E L; cbn [length app] in *; try lia.
  - split; [reflexivity | exact E].
  - injection E as -> E. destruct (IH x') as [-> ->]; [lia | exact E | lia | split; reflexivity].
Qed.
Lemma loose_fields ts bs vs : BadFields Loose ts bs vs -> AcceptsFields ts bs vs /\ all2 (map wt ts) vs /\
  forall b, WireFields false ts vs b -> length b <= length bs /\ b <> bs.
Proof.
  induction 1 as [t ts x y v vs [Hx Hn] Hf | t ts x y v vs Hx Hb [IH1 [IH2 IH3]]].
  - destruct (fine_accepts Hf) as [F1 F2]. destruct Hx as [Ha Hw]. split; [constructor; assumption|]. split; [split; assumption|].
    intros b Hb. inversion Hb; subst. pose proof (no_longer (conj Ha Hw) ltac:(eassumption)). pose proof (no_longer_fields Hf ltac:(eassumption)).
    split; [rewrite !app_length; lia|]. intros E. apply apart in E; [|assumption|assumption]. destruct E as [-> _]. eapply Hn; [eassumption | reflexivity].
  - destruct Hx as [Ha Hw]. split; [constructor; assumption|]. split; [split; assumption|].
    intros b Hw'. inversion Hw'; subst. pose proof (no_longer (conj Ha Hw) ltac:(eassumption)). destruct (IH3 _ ltac:(eassumption)) as [L N].
    split; [rewrite !app_length; lia|]. intros E. apply apart in E; [|assumption|assumption]. destruct E as [_ ->]. apply N. reflexivity.
Qed.

Lemma wire_one t v b : WireItems false t [v] b -> Wire false t v b.
Proof. intros H. inversion H as [|? ? ? x y Hx Hy]; subst. inversion Hy; subst. rewrite app_nil_r. exact Hx. Qed.
Lemma wire_repeat t x v n : Fine t x v -> forall b, WireItems false t (repeat v n) b -> length b <= length (concat (repeat x n)).
Proof.
  intros Hf. induction n as [|n IH]; intros b Hb; cbn [repeat] in Hb; inversion Hb; subst; [cbn; lia|]. cbn [repeat concat]. rewrite !app_length.
  pose proof (no_longer Hf ltac:(eassumption)). pose proof (IH _ ltac:(eassumption)). lia.
Qed.
Lemma same_wire_int i z w bs cs : WireInt i z bs -> WireInt i w cs -> length bs = length cs.
Proof. intros H G. rewrite (wireint_size H), (wireint_size G). reflexivity. Qed.

Lemma wire_owned ch t v bs : Wire ch t v bs -> Wire ch (owned t) v bs.
Proof. destruct t; cbn [owned]; intros H; try exact H; inversion H; subst; constructor; assumption. Qed.

Lemma loose_spreads : Spreads Loose.
Proof.
  constructor; unfold Loose; intros;
    try match goal with H : BadFields _ _ _ _ |- _ => apply loose_fields in H end;
    repeat match goal with H : _ /\ _ |- _ => destruct H end;
    repeat match goal with H : Fine ?t ?x ?v |- _ => lazymatch goal with G : Accepts t x v |- _ => fail | _ => destruct (H) end end;
    try (split; [split; [accepted | valid]|]).
  all: try (intros b Hb ->; inversion Hb; subst;
    match goal with
    | N : forall b, Wire _ ?t ?v b -> b <> ?x, W : Wire _ ?t ?v ?x |- _ => exact (N _ W eq_refl)
    | N : forall b, WireFields _ ?t ?v b -> _ /\ b <> ?x, W : WireFields _ ?t ?v ?x |- _ => exact (proj2 (N _ W) eq_refl)
    end).
  - match goal with Hi : nth_error vs i = Some _ |- _ => pose proof (nth_error_map_some (fun x => map wt (snd x)) _ _ Hi) as N1 end.
    split; [split; [eapply A_enum; eassumption | cbn [wt]; rewrite N1; split; assumption]|].
    intros b Hb. inversion Hb; subst. intros E. match goal with H1 : nth_error vs i = Some (e, ts), H2 : nth_error vs i = Some _ |- _ => rewrite H1 in H2; inversion H2; subst end.
    match goal with N : forall b, WireFields _ ?T ?F b -> _ /\ b <> x, W : WireFields _ ?T ?F ?y, I1 : WireInt r d db, I2 : WireInt r _ ?db' |- _ =>
      destruct (N _ W) as [L1 L2]; pose proof (same_wire_int I1 I2) as L3; apply apart in E; [|lia|exact L1]; destruct E as [_ ->]; exact (L2 eq_refl) end.
  - intros b Hb. inversion Hb; subst. intros E.
    match goal with N : forall b, Wire _ t v b -> b <> x, W1 : Wire _ t v ?x', W2 : Wire _ t w ?y', F1 : Fine t x v, F2 : Fine t y w |- _ =>
      apply apart in E; [destruct E as [-> _]; exact (N _ W1 eq_refl) | exact (no_longer F1 W1) | exact (no_longer F2 W2)] end.
  - intros b Hb. inversion Hb; subst. intros E.
    match goal with N : forall b, Wire _ t v b -> b <> x, W1 : Wire _ t v ?x', W2 : Wire _ t w ?y', F1 : Fine t x v, F2 : Fine t y w |- _ =>
      apply apart in E; [destruct E as [-> _]; exact (N _ W1 eq_refl) | exact (no_longer F1 W1) | exact (no_longer F2 W2)] end.
  - intros b Hb. inversion Hb; subst. match goal with W : WireItems _ _ _ _ |- _ => inversion W as [|? ? ? x' y' W1 W2]; subst end. intros E.
    match goal with N : forall b, Wire _ t v b -> b <> x, F1 : Fine t x v, F2 : Fine t y w |- _ =>
      apply apart in E; [destruct E as [-> _]; exact (N _ W1 eq_refl) | exact (no_longer F1 W1) | exact (@wire_repeat t y w n F2 _ W2)] end.
  - intros b Hb. inversion Hb; subst. intros E. match goal with W : WireItems _ _ _ ?y, L : WireLen _ ?lb |- _ => apply wire_one in W; apply wirelen_length in L end.
    match goal with N : forall b, Wire _ t v b -> b <> x, W : Wire _ t v ?y, F : Fine t x v |- _ => apply apart in E; [destruct E as [_ ->]; exact (N _ W eq_refl) | cbn [length]; lia | exact (no_longer F W)] end.
  - intros b Hb. inversion Hb; subst. intros E. match goal with W : WireItems _ _ _ ?y, L : WireLen _ ?lb |- _ => apply wire_one in W; apply wirelen_length in L end.
    match goal with N : forall b, Wire _ t v b -> b <> x, W : Wire _ t v ?y, F : Fine t x v |- _ => apply apart in E; [destruct E as [_ ->]; exact (N _ W eq_refl) | cbn [length]; lia | exact (no_longer F W)] end.
  - intros b Hb. inversion Hb; subst. intros E. match goal with W : WireItems _ _ _ ?y, L : WireLen _ ?lb |- _ => apply wire_one in W; apply wirelen_length in L end.
    match goal with N : forall b, Wire _ t v b -> b <> x, W : Wire _ t v ?z, F : Fine t x v |- _ =>
      pose proof (no_longer F W) as LE; apply apart in E; [|cbn [length]; lia | rewrite app_length; lia]; destruct E as [_ ->]; rewrite app_length in LE;
      apply (N _ W); destruct (concat (repeat y n)); [apply app_nil_r | cbn [length] in LE; lia] end.
  - intros b Hb. inversion Hb; subst. intros E. apply (f_equal (@length _)) in E. match goal with W : WireEntries _ _ _ _ _ |- _ => inversion W; subst end.
    match goal with W : WireEntries _ _ _ [] _ |- _ => inversion W; subst end. rewrite !app_length in E. cbn [length] in E.
    match goal with W1 : Wire _ k v ?x', W2 : Wire _ t w ?y', F1 : Fine k x v, F2 : Fine t y w |- _ => pose proof (no_longer F1 W1); pose proof (no_longer F2 W2) end. lia.
  - intros b Hb. inversion Hb; subst. intros E. apply (f_equal (@length _)) in E. match goal with W : WireEntries _ _ _ _ _ |- _ => inversion W; subst end.
    match goal with W : WireEntries _ _ _ [] _ |- _ => inversion W; subst end. rewrite !app_length in E. cbn [length] in E.
    match goal with W1 : Wire _ k v ?x', W2 : Wire _ t w ?y', F1 : Fine k x v, F2 : Fine t y w |- _ => pose proof (no_longer F1 W1); pose proof (no_longer F2 W2) end. lia.
  - intros b Hb. inversion Hb; subst. intros E. apply (f_equal (@length _)) in E. match goal with W : WireItems _ _ _ _ |- _ => apply wire_one in W end. rewrite !app_length in E. cbn [length] in E.
    match goal with W1 : Wire _ k v ?x', F1 : Fine k x v |- _ => pose proof (no_longer F1 W1) end. lia.
  - apply owned_wt. assumption.
  - intros b Hb ->. inversion Hb; subst. match goal with N : forall b, Wire _ _ v b -> b <> x, W : Wire _ t v x |- _ => exact (N _ (wire_owned W) eq_refl) end.
Qed.

Lemma start_loose t : EnumsOk t -> a_loose t = true -> exists x v, Loose t x v.
Proof.
  intros He H. unfold a_loose in H. apply orb_true_iff in H. destruct H as [H|H].
  - destruct t; try discriminate H.
    + cbn [a_lossy] in H. apply andb_true_iff in H. destruct H as [Hn Ho]. cbn [EnumsOk] in He. destruct (octets_fine _ He Ho) as (x & v & [Ha Hw] & Hl).
      exists ([x00; x00] ++ concat (repeat x n)), (VSeq (firstn 0 (repeat v n))). split; [split|].
      * constructor; [lia | exact (@wire_len_small 0 ltac:(lia)) | apply repeat_length | apply accepts_repeat; exact Ha].
      * cbn. split; [lia | constructor].
      * cbn [firstn]. intros b Hb. inversion Hb; subst. match goal with W : WireItems _ _ [] _ |- _ => inversion W; subst end. intros E. apply (f_equal (@length _)) in E.
        match goal with L : WireLen _ _ |- _ => apply wirelen_length in L end. rewrite !app_length in E. destruct n as [|n]; [discriminate Hn|]. cbn [repeat concat length] in E. rewrite app_length in E. lia.
    + exists ([x00; x00] ++ []), (VMap []). split; [split|].
      * eapply A_map with (l := []); [exact (@wire_len_small 0 ltac:(lia)) | constructor | constructor].
      * cbn. split; constructor.
      * intros b Hb. inversion Hb; subst. match goal with W : WireEntries _ _ _ [] _ |- _ => inversion W; subst end. discriminate.
    + exists ([x00; x00] ++ []), (VSet []). split; [split|].
      * eapply A_set with (l := []); [exact (@wire_len_small 0 ltac:(lia)) | constructor | constructor].
      * cbn. split; constructor.
      * intros b Hb. inversion Hb; subst. match goal with W : WireItems _ _ [] _ |- _ => inversion W; subst end. discriminate.
  - destruct t; try discriminate H.
    + exists [x02], (VBool true). split; [split; [constructor; discriminate | exact I]|]. intros b Hb. inversion Hb; subst. discriminate.
    + cbn [EnumsOk] in He. destruct (@decodable_fine _ He H) as (x & v & [Ha Hw]). exists (x02 :: x), (VSome v). split; [split; [constructor; [discriminate | exact Ha] | exact Hw]|].
      intros b Hb. inversion Hb; subst. discriminate.
    + destruct He as [_ He]. destruct (@decodable_fine _ He H) as (x & v & [Ha Hw]). exists (x02 :: x), (VErr v). split; [split; [constructor; [discriminate | exact Ha] | exact Hw]|].
      intros b Hb. inversion Hb; subst. discriminate.
    + exists (le_bytes 8 0 ++ le_bytes 4 1000000000), (VDuration (0 + 1000000000 / 1000000000) (1000000000 mod 1000000000)). split; [split|].
      * constructor; try apply le_repr_le_bytes; cbn; lia.
      * cbn. lia.
      * intros b Hb. inversion Hb; subst. match goal with L1 : le_repr 8 _ _, L2 : le_repr 4 _ _ |- _ => apply le_repr_iff in L1; apply le_repr_iff in L2; subst end. intros E. vm_compute in E. discriminate E.
Qed.

Lemma items_split t vs : forall n bs, WireItems false t vs bs -> exists x y, bs = x ++ y /\ WireItems false t (firstn n vs) x.
Proof.
  induction vs as [|v vs IH]; intros n bs H; inversion H; subst.
  - exists [], []. split; [reflexivity | rewrite firstn_nil; constructor].
  - destruct n as [|n]; [exists [], (x ++ y); split; [reflexivity | constructor]|]. destruct (IH n _ ltac:(eassumption)) as (p & q & -> & Hp).
    exists (x ++ p), q. split; [apply app_assoc | cbn [firstn]; constructor; assumption].
Qed.

Lemma accepts_tight_all :
  (forall t bs v, Accepts t bs v -> reaches a_loose t = false -> Wire false t v bs) /\
  (forall ts bs vs, AcceptsFields ts bs vs -> existsb (reaches a_loose) ts = false -> WireFields false ts vs bs) /\
  (forall t bs vs, AcceptsItems t bs vs -> vs = [] \/ reaches a_loose t = false -> WireItems false t vs bs) /\
  (forall k v bs l, AcceptsEntries k v bs l -> True).
Proof.
  apply (@Accepts_mutind
    (fun t bs v _ => reaches a_loose t = false -> Wire false t v bs)
    (fun ts bs vs _ => existsb (reaches a_loose) ts = false -> WireFields false ts vs bs)
    (fun t bs vs _ => vs = [] \/ reaches a_loose t = false -> WireItems false t vs bs)
    (fun k v bs l _ => True));
    intros;
    try match goal with H : AcceptsFields _ _ _ |- _ => pose proof (fields_decodable H) end;
    try match goal with H : reaches _ _ = false |- _ => pose proof (reaches_kind _ _ H); try (pose proof (@reaches_owned a_loose (fun _ => eq_refl) eq_refl eq_refl _ H)); try (pose proof (@reaches_variant _ _ _ _ _ _ _ _ H ltac:(eassumption) ltac:(eassumption) ltac:(eassumption) ltac:(eassumption))); cbn [reaches a_loose a_lossy orb] in H end;
    repeat match goal with H : _ || _ = false |- _ => apply orb_false_iff in H; destruct H end;
    try discriminate; try (constructor; auto; fail); try exact I.
  - match goal with Ha : Accepts t _ _, Hd : decodable t = false |- _ => rewrite (accepts_decodable Ha) in Hd; discriminate Hd end.
  - match goal with Ha : Accepts e _ _, Hd : decodable e = false |- _ => rewrite (accepts_decodable Ha) in Hd; discriminate Hd end.
  - constructor. rewrite H1 in H0. exact (H H0).
  - constructor. rewrite H1 in H0. exact (H H0).
  - econstructor; try eassumption. auto.
  - constructor; [assumption|]. subst n. destruct vs; auto.
  - subst n. destruct vs as [|v vs].
    + cbn [length] in l. assert (len = 0) as -> by lia. match goal with Hi : AcceptsItems _ _ [] |- _ => inversion Hi; subst end. constructor; [cbn; lia | assumption | constructor].
    + cbn [length Nat.ltb Nat.leb andb] in *. assert (Ht : takes_octets t = false) by (unfold a_loose in H1; apply orb_false_iff in H1; exact (proj1 H1)). assert (Hb : bs = []) by (eapply no_octets_items; eassumption). subst bs.
      assert (Hv : WireItems false t (v :: vs) []) by auto. destruct (items_split len Hv) as (x & y & E & Hx). symmetry in E. apply app_eq_nil in E. destruct E as [-> ->].
      constructor; [rewrite firstn_length; lia | rewrite firstn_length, Nat.min_l by (cbn [length]; lia); assumption | exact Hx].
  - constructor. apply owned_wire. auto.
  - constructor; unfold time_ns; [discriminate|]. rewrite Z.add_0_r, Z.quot_mul by lia. assumption.
  - cbn [existsb] in *. apply orb_false_iff in H1. destruct H1. constructor; auto.
  - destruct H1 as [H1|H1]; [discriminate|]. constructor; auto.
Qed.

Lemma C20_exact_lemma t : EnumsOk t ->
  (forall bs v, wt t v -> Yields (decode t) bs v -> Appends (encode false t v) bs (Ok tt)) <-> reaches a_loose t = false.
Proof.
  intros He. split.
  - intros HA. destruct (reaches a_loose t) eqn:E; [|reflexivity]. exfalso.
    destruct (@reaches_bad a_loose Loose loose_spreads start_loose (fun t x v H => proj1 (proj1 H)) eq_refl eq_refl t He E) as (x & v & [[Ha Hw] Hn]).
    specialize (HA x v Hw (accepts_parses Ha)). apply (Hn x); [|reflexivity]. exact (@appends_wire false t v x Hw HA).
  - intros E bs v Hw Hy. apply accepts_iff in Hy; [|exact He]. apply succeeds_appends, wire_succeeds; [|exact Hw]. exact (proj1 accepts_tight_all _ _ _ Hy E).
Qed.
