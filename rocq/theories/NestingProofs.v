From Coq Require Import ListDec Lia ZifyBool ZifyNat ZifyN.
From Verif Require Import Base BaseFacts Streams StreamFacts Utf8 Utf8Facts Types TypesFacts Traits Encode Decode Spec SpecCalls SpecDecode SpecValues
  StreamProofs DecodeFacts DecodeLocal AcceptFacts PanicProofs RoundTrip Recursive SpecRecursive RecursiveFacts RecursiveProofs RecursiveLemmas WireFacts  SpecNesting.
Set Implicit Arguments.

(* ---- What a call does with octets, wherever they stand *)
Definition Gives {A} (m : D A) (bs : list byte) (r : res derr A) : Prop :=
  forall pre post, m (Input (pre ++ bs ++ post) (length pre)) = (Input (pre ++ bs ++ post) (length pre + length bs)%nat, r).
Definition Sinks {A} (m : D A) : Prop := exists bs, Gives m bs (Panic PInfallible).
Definition Makes_ {A} (m : D A) : Prop := exists bs a, Gives m bs (Ok a).

Lemma local_gives {A} (m : D A) i i' r : Local m -> wf_in i -> m i = (i', r) -> (forall e, r <> Panic (PInput e)) -> exists bs, Gives m bs r.
Proof.
  intros Hl Hw Hm Hr. exists (firstn (i_pos i' - i_pos i) (rest i)). intros pre post.
  destruct (local_forward Hl Hw Hm) as (Hb & Hp & Hw').
  assert (Hlen : length (firstn (i_pos i' - i_pos i) (rest i)) = (i_pos i' - i_pos i)%nat).
  { rewrite firstn_length, rest_length. unfold wf_in in *. rewrite Hb in Hw'. lia. }
  rewrite (local_transport Hl Hw Hm Hr).
  - cbn [i_buf i_pos]. rewrite Hlen. reflexivity.
  - unfold wf_in. cbn [i_buf i_pos]. rewrite !app_length. lia.
  - unfold rest at 1. cbn [i_buf i_pos]. rewrite skipn_app, skipn_all, Nat.sub_diag. cbn [skipn app].
    rewrite firstn_app, Hlen, Nat.sub_diag. cbn [firstn]. rewrite app_nil_r, firstn_firstn. f_equal. lia.
Qed.
Lemma gives_start {A} (m : D A) bs r : Gives m bs r -> wf_in (input_new bs) /\ exists i', m (input_new bs) = (i', r).
Proof.
  intros H. split; [unfold wf_in; cbn; lia|]. specialize (H [] []). cbn [app length] in H. rewrite app_nil_r in H. eexists. exact H.
Qed.
Lemma sinks_by {A} (m : D A) : Local m -> (Sinks m <-> exists i, wf_in i /\ snd (m i) = Panic PInfallible).
Proof.
  intros Hl. split.
  - intros [bs H]. destruct (gives_start H) as [Hw [i' Hm]]. exists (input_new bs). rewrite Hm. auto.
  - intros (i & Hw & Hm). destruct (m i) as [i' r] eqn:E. cbn [snd] in Hm. subst r. apply (local_gives Hl Hw E). discriminate.
Qed.
Lemma makes_by {A} (m : D A) : Local m -> (Makes_ m <-> exists i i' a, wf_in i /\ m i = (i', Ok a)).
Proof.
  intros Hl. split.
  - intros (bs & a & H). destruct (gives_start H) as [Hw [i' Hm]]. exists (input_new bs), i', a. auto.
  - intros (i & i' & a & Hw & Hm). destruct (local_gives Hl Hw Hm) as [bs H]; [discriminate|]. exists bs, a. exact H.
Qed.

Lemma gives_parses {A} (m : D A) bs a : Parses m bs a -> Gives m bs (Ok a).
Proof. exact (fun H => H). Qed.
Lemma gives_bind {A B} (m : D A) (k : A -> D B) x y a r : Gives m x (Ok a) -> Gives (k a) y r -> Gives (dbind m k) (x ++ y) r.
Proof.
  intros Hm Hk pre post. unfold dbind. rewrite <- app_assoc. rewrite Hm. specialize (Hk (pre ++ x) post). rewrite app_length, <- !app_assoc in Hk.
  rewrite Hk. rewrite app_length, Nat.add_assoc. reflexivity.
Qed.
Lemma K_bind_l {A B} (m : D A) (k : A -> D B) : Sinks m -> Sinks (dbind m k).
Proof. intros [bs H]. exists bs. intros pre post. unfold dbind. rewrite H. reflexivity. Qed.
Lemma K_bind_r {A B} (m : D A) (k : A -> D B) x a : Gives m x (Ok a) -> Sinks (k a) -> Sinks (dbind m k).
Proof. intros Hm [y Hk]. exists (x ++ y). apply (gives_bind _ Hm Hk). Qed.
Lemma K_bind {A B} (m : D A) (k : A -> D B) : Local m -> (forall a, Local (k a)) -> Sinks (dbind m k) ->
  Sinks m \/ exists x a, Gives m x (Ok a) /\ Sinks (k a).
Proof.
  intros Hm Hk [bs H]. destruct (gives_start H) as [Hw [i' E]]. unfold dbind in E. destruct (m (input_new bs)) as [i1 [a|e|p]] eqn:E1.
  - right. destruct (local_gives Hm Hw E1) as [x Hx]; [discriminate|]. exists x, a. split; [exact Hx|].
    refine (@local_gives _ (k a) i1 i' _ (Hk a) _ E _); [apply (local_forward Hm Hw E1) | discriminate].
  - discriminate.
  - left. injection E as -> ->. apply (local_gives Hm Hw E1). discriminate.
Qed.
Lemma K_map {A B} (f : A -> B) (m : D A) : Local m -> (Sinks (dmap f m) <-> Sinks m).
Proof.
  intros Hl. split; [|apply K_bind_l]. intros H. apply K_bind in H; [|exact Hl | intros a; apply L_ok].
  destruct H as [H|(x & a & _ & bs & H)]; [exact H|]. destruct (gives_start H) as (_ & i' & E). discriminate.
Qed.
Lemma K_unmap {A B} (f : A -> B) (m : D A) : Sinks (dmap f m) -> Local m -> Sinks m.
Proof. intros H Hl. revert H. apply K_map, Hl. Qed.
Lemma K_map_err {A} f (m : D A) : Sinks (dmap_err f m) <-> Sinks m.
Proof.
  split; intros [bs H]; exists bs; intros pre post; specialize (H pre post); unfold dmap_err in *.
  - destruct (m _) as [i1 [a|e|p]]; try discriminate. exact H.
  - rewrite H. reflexivity.
Qed.
Lemma K_unmap_err {A} f (m : D A) : Sinks (dmap_err f m) -> Sinks m.
Proof. apply K_map_err. Qed.
Lemma M_map_err {A} f (m : D A) x a : Gives (dmap_err f m) x (Ok a) <-> Gives m x (Ok a).
Proof.
  split; intros H pre post; specialize (H pre post); unfold dmap_err in *.
  - destruct (m _) as [i1 [b|e|p]]; try discriminate. exact H.
  - rewrite H. reflexivity.
Qed.
Lemma M_unmap_err {A} f (m : D A) x a : Gives (dmap_err f m) x (Ok a) -> Gives m x (Ok a).
Proof. apply M_map_err. Qed.
Lemma K_ok {A} (a : A) : ~ Sinks (dok a).
Proof. intros [bs H]. destruct (gives_start H) as (_ & i' & E). discriminate. Qed.
Lemma K_error {A} e : ~ Sinks (@derror A e).
Proof. intros [bs H]. destruct (gives_start H) as (_ & i' & E). discriminate. Qed.
Lemma K_panic {A} p : p <> PInfallible -> ~ Sinks (@dpanic A p).
Proof. intros Hp [bs H]. destruct (gives_start H) as (_ & i' & E). injection E as _ E. contradiction. Qed.
Lemma K_panics {A} (m : D A) : Panics m (fun _ p => p <> PInfallible) -> ~ Sinks m.
Proof. intros Hp [bs H]. destruct (gives_start H) as (Hw & i' & E). apply (Hp _ _ _ Hw E). reflexivity. Qed.

Lemma K_items {A} (f : D A) n : Local f -> forall i, Sinks (dec_items f n i) <-> (0 < n)%nat /\ Sinks f.
Proof.
  intros Hl. induction n as [|n IH]; intros i; cbn [dec_items].
  - split; [intros H; destruct (K_ok H) | intros [H _]; lia].
  - split.
    + intros H. split; [lia|]. apply K_bind in H; [|apply L_map_err, Hl | intros a; apply L_map, L_items, Hl].
      destruct H as [H|(x & a & _ & H)]; [apply K_unmap_err in H; exact H|]. apply K_unmap in H; [|apply L_items, Hl]. apply IH in H. apply H.
    + intros [_ H]. apply K_bind_l, K_map_err, H.
Qed.

(* fields, one after another *)
Lemma K_fields conv fs : Forall Local fs -> (Sinks (dec_fields conv fs) <-> exists l f r, fs = l ++ f :: r /\ Forall Makes_ l /\ Sinks f).
Proof.
  intros Hl. induction Hl as [|f fs Hf Hfs IH]; cbn [dec_fields].
  - split; [intros H; destruct (K_ok H) | intros ([|? l] & f & r & E & _); discriminate].
  - split.
    + intros H. apply K_bind in H; [|apply L_map_err, Hf | intros a; apply L_map, L_fields, Hfs].
      destruct H as [H|(x & a & Hx & H)].
      * exists [], f, fs. split; [reflexivity|]. split; [constructor | apply K_unmap_err in H; exact H].
      * apply K_unmap in H; [|apply L_fields, Hfs]. apply IH in H. destruct H as (l & g & r & -> & H1 & H2).
        exists (f :: l), g, r. split; [reflexivity|]. split; [|exact H2]. constructor; [|exact H1]. exists x, a. apply (M_unmap_err Hx).
    + intros (l & g & r & E & H1 & H2). destruct l as [|f' l]; injection E as <- E.
      * apply K_bind_l, K_map_err, H2.
      * inversion H1 as [|? ? (x & a & Hx) H3]; subst. eapply K_bind_r; [apply M_map_err, Hx|].
        apply K_map; [apply L_fields, Hfs|]. apply IH. exists l, g, r. auto.
Qed.
Lemma K_entries fk fv n : Local fk -> Local fv -> forall i acc,
  (Sinks (dec_entries fk fv n i acc) -> Sinks fk \/ (Makes_ fk /\ Sinks fv)) /\
  ((0 < n)%nat -> Sinks fk \/ (Makes_ fk /\ Sinks fv) -> Sinks (dec_entries fk fv n i acc)).
Proof.
  intros Hk Hv. induction n as [|n IH]; intros i acc; cbn [dec_entries].
  - split; [intros H; destruct (K_ok H) | intros H; lia].
  - split.
    + intros H. apply K_bind in H; [|apply L_map_err, Hk | intros a; apply L_bind; [apply L_map_err, Hv | intros b; apply L_entries; assumption]].
      destruct H as [H|(x & a & Hx & H)]; [left; apply K_unmap_err in H; exact H|]. apply M_unmap_err in Hx.
      apply K_bind in H; [|apply L_map_err, Hv | intros b; apply L_entries; assumption].
      destruct H as [H|(y & b & _ & H)]; [right; split; [exists x, a; exact Hx | apply K_unmap_err in H; exact H]|]. exact (proj1 (IH _ _) H).
    + intros _ [H|[(x & a & Hx) H]]; [apply K_bind_l, K_map_err, H|].
      eapply K_bind_r; [apply M_map_err, Hx|]. apply K_bind_l, K_map_err, H.
Qed.
Lemma K_keys fk n : Local fk -> forall i acc, (Sinks (dec_keys fk n i acc) -> Sinks fk) /\ ((0 < n)%nat -> Sinks fk -> Sinks (dec_keys fk n i acc)).
Proof.
  intros Hk. induction n as [|n IH]; intros i acc; cbn [dec_keys].
  - split; [intros H; destruct (K_ok H) | intros H; lia].
  - split.
    + intros H. apply K_bind in H; [|apply L_map_err, Hk | intros a; apply L_keys; assumption].
      destruct H as [H|(x & a & _ & H)]; [apply K_unmap_err in H; exact H | exact (proj1 (IH _ _) H)].
    + intros _ H. apply K_bind_l, K_map_err, H.
Qed.

(* a number comes first *)
Lemma K_number {A} (m : D Z) (k : Z -> D A) : Local m -> (forall z, Local (k z)) -> ~ Sinks m -> (Sinks (dbind m k) <-> exists x z, Gives m x (Ok z) /\ Sinks (k z)).
Proof.
  intros Hm Hk Hn. split.
  - intros H. apply K_bind in H; [|assumption..]. destruct H as [H|H]; [contradiction | exact H].
  - intros (x & z & Hx & H). apply (K_bind_r _ Hx H).
Qed.
Lemma K_short {A} (m : D A) : Panics m too_short -> ~ Sinks m.
Proof. intros H. apply K_panics. apply (@X_ext A m too_short); [exact H|]. exact no_bottom_short. Qed.
Lemma one_first : Gives dec_usize [x01; x00] (Ok 1%Z).
Proof. apply (P_unsigned 2 (z := 1)). lia. Qed.

Lemma usize_floats : ~ Sinks dec_usize.
Proof. apply K_short, X_unsigned. auto. Qed.
Lemma u8_floats : ~ Sinks dec_u8.
Proof. apply K_short, X_unsigned. auto. Qed.
Lemma int_floats r : ~ Sinks (dec_int r).
Proof. apply K_short, X_int. auto. Qed.

Lemma K_vec f : Local f -> (Sinks (dec_vec f) <-> Sinks f).
Proof.
  intros Hl. unfold dec_vec. rewrite K_number; [|local | intros z; apply L_map, L_items, Hl | exact usize_floats]. split.
  - intros (x & z & _ & H). apply K_unmap in H; [|apply L_items, Hl]. apply K_items in H; [apply H | exact Hl].
  - intros H. exists [x01; x00], 1%Z. split; [exact one_first|]. apply K_map; [apply L_items, Hl|]. apply K_items; [exact Hl|]. split; [lia | exact H].
Qed.
Lemma K_sized_slice f n : Local f -> (Sinks (dec_sized_slice f n) <-> (0 < n)%nat /\ Sinks f).
Proof.
  intros Hl. unfold dec_sized_slice. rewrite K_number; [| local | intros z; destruct (n <? Z.to_nat z)%nat; [apply L_error | apply L_map, L_items, Hl] | exact usize_floats]. split.
  - intros (x & z & _ & H). destruct (n <? Z.to_nat z)%nat; [destruct (K_error H)|]. apply K_unmap in H; [|apply L_items, Hl]. apply K_items in H; [exact H | exact Hl].
  - intros [Hn H]. exists [x01; x00], 1%Z. split; [exact one_first|]. replace (n <? Z.to_nat 1)%nat with false by (symmetry; apply Nat.ltb_ge; lia).
    apply K_map; [apply L_items, Hl|]. apply K_items; auto.
Qed.
Lemma K_option f : Local f -> (Sinks (dec_option f) <-> Sinks f).
Proof.
  intros Hl. unfold dec_option. split.
  - intros H. apply K_bind in H; [|local | intros b; destruct b; [apply L_map, Hl | apply L_ok]].
    destruct H as [H|(x & b & _ & H)]; [apply K_unmap in H; [destruct (u8_floats H) | local]|].
    destruct b; [apply K_unmap in H; assumption | destruct (K_ok H)].
  - intros H. eapply (@K_bind_r _ _ dec_bool _ [x01] true); [exact (P_bool x01)|]. apply K_map; assumption.
Qed.
Lemma K_bound f : Local f -> (Sinks (dec_bound f) <-> Sinks f).
Proof.
  intros Hl. unfold dec_bound.
  assert (L : forall d : Z, Local (if (d =? 0)%Z then dmap VIncluded (dmap_err DField f) else if (d =? 1)%Z then dmap VExcluded (dmap_err DField f)
    else if (d =? 2)%Z then dok VUnbounded else derror (DUnassigned U8 d))).
  { intros d. destruct (d =? 0)%Z; [apply L_map, L_map_err, Hl|]. destruct (d =? 1)%Z; [apply L_map, L_map_err, Hl|]. destruct (d =? 2)%Z; [apply L_ok | apply L_error]. }
  rewrite K_number; [|local | exact L | exact u8_floats]. split.
  - intros (x & d & _ & H). destruct (d =? 0)%Z; [apply K_unmap in H; [apply K_unmap_err in H; exact H | apply L_map_err, Hl]|].
    destruct (d =? 1)%Z; [apply K_unmap in H; [apply K_unmap_err in H; exact H | apply L_map_err, Hl]|]. destruct (d =? 2)%Z; [destruct (K_ok H) | destruct (K_error H)].
  - intros H. exists [x00], 0%Z. split; [exact (P_byte x00)|]. cbn [Z.eqb]. apply K_map; [apply L_map_err, Hl | apply K_map_err, H].
Qed.
Lemma K_hash_map fk fv : Local fk -> Local fv -> (Sinks (dec_map fk fv) <-> Sinks fk \/ (Makes_ fk /\ Sinks fv)).
Proof.
  intros Hk Hv. unfold dec_map. rewrite K_number; [|local | intros z; apply L_map, L_entries; assumption | exact usize_floats]. split.
  - intros (x & z & _ & H). apply K_unmap in H; [|apply L_entries; assumption]. exact (proj1 (K_entries _ Hk Hv _ _) H).
  - intros H. exists [x01; x00], 1%Z. split; [exact one_first|]. apply K_map; [apply L_entries; assumption|]. apply K_entries; try assumption. lia.
Qed.
Lemma K_hash_set fk : Local fk -> (Sinks (dec_set fk) <-> Sinks fk).
Proof.
  intros Hk. unfold dec_set. rewrite K_number; [|local | intros z; apply L_map, L_keys; assumption | exact usize_floats]. split.
  - intros (x & z & _ & H). apply K_unmap in H; [|apply L_keys; assumption]. exact (proj1 (K_keys _ Hk _ _) H).
  - intros H. exists [x01; x00], 1%Z. split; [exact one_first|]. apply K_map; [apply L_keys; assumption|]. apply K_keys; try assumption. lia.
Qed.
Lemma K_twice (f : D val) (g : val -> val -> val) : Local f -> (Sinks (dbind f (fun a => dmap (g a) f)) <-> Sinks f).
Proof.
  intros Hl. split; [|apply K_bind_l]. intros H. apply K_bind in H; [|exact Hl | intros a; apply L_map, Hl].
  destruct H as [H|(x & a & _ & H)]; [exact H | apply K_unmap in H; assumption].
Qed.

(* which variant is selected *)
Lemma find_disc_some d ds : forall i k, find_disc d ds k = Some i -> exists j, i = (k + j)%nat /\ nth_error ds j = Some d /\ forall j', (j' < j)%nat -> nth_error ds j' <> Some d.
Proof.
  induction ds as [|x ds IH]; intros i k H; cbn [find_disc] in H; [discriminate|]. destruct (d =? x)%Z eqn:E.
  - injection H as <-. apply Z.eqb_eq in E. subst x. exists 0%nat. split; [lia|]. split; [reflexivity|]. intros j' Hj. lia.
  - apply IH in H. destruct H as (j & -> & Hj & Hl). exists (S j). split; [lia|]. split; [exact Hj|].
    intros [|j'] Hj'; cbn [nth_error]; [intros [= ->]; rewrite Z.eqb_refl in E; discriminate | apply Hl; lia].
Qed.
Lemma find_disc_first d ds : forall j k, nth_error ds j = Some d -> (forall j', (j' < j)%nat -> nth_error ds j' <> Some d) -> find_disc d ds k = Some (k + j)%nat.
Proof.
  induction ds as [|x ds IH]; intros j k Hj Hl; [destruct j; discriminate|]. cbn [find_disc]. destruct j as [|j].
  - injection Hj as ->. rewrite Z.eqb_refl. f_equal. lia.
  - destruct (d =? x)%Z eqn:E.
    + apply Z.eqb_eq in E. subst x. exfalso. apply (Hl 0%nat); [lia | reflexivity].
    + rewrite (IH j (S k)); [f_equal; lia | exact Hj|]. intros j' Hj'. apply (Hl (S j')). lia.
Qed.
Lemma K_enum r ds fss : Forall (Forall Local) fss -> (Sinks (dec_enum r ds fss) <->
  exists l i d bs fs, ds = Some l /\ nth_error l i = Some d /\ (forall i', (i' < i)%nat -> nth_error l i' <> Some d) /\ in_ity r d /\ WireInt r d bs /\
    nth_error fss i = Some fs /\ exists a f b, fs = a ++ f :: b /\ Forall Makes_ a /\ Sinks f).
Proof.
  intros Hl. unfold dec_enum. destruct ds as [ds|].
  2: { split; [intros H; exfalso; revert H; apply K_panic; discriminate | intros (l & i & d & bs & fs & E & _); discriminate]. }
  assert (L : forall fs i, nth_error fss i = Some fs -> Forall Local fs).
  { intros fs i E. rewrite Forall_forall in Hl. apply Hl, (nth_error_In _ _ E). }
  rewrite K_number; [|local | | apply int_floats].
  2: { intros d. destruct (find_disc d ds 0) as [i|]; [|apply L_error]. destruct (nth_error fss i) as [fs|] eqn:E; [|apply L_panic]. apply L_map, L_fields, (L fs i E). }
  split.
  - intros (x & d & Hx & H). destruct (find_disc d ds 0) as [i|] eqn:Ed; [|destruct (K_error H)]. apply find_disc_some in Ed. destruct Ed as (j & E & Hj & Hf).
    cbn [Nat.add] in E. subst i. destruct (nth_error fss j) as [fs|] eqn:E; [|exfalso; revert H; apply K_panic; discriminate].
    apply K_unmap in H; [|apply L_fields, (L fs j E)]. apply K_fields in H; [|apply (L fs j E)].
    destruct (gives_start Hx) as (Hw & i' & Ex). destruct (@AcceptFacts.N_int r _ _ _ Hw Ex) as (n & _ & _ & Hin & Hwi).
    exists ds, j, d, (firstn n (rest (input_new x))), fs. auto 10.
  - intros (l & i & d & bs & fs & E & Hi & Hf & Hin & Hwi & Efs & H). injection E as <-. exists bs, d. split; [exact (P_int Hin Hwi)|].
    rewrite (@find_disc_first d ds i 0 Hi Hf). cbn [Nat.add]. rewrite Efs. apply K_map; [apply L_fields, (L fs i Efs)|]. apply K_fields; [apply (L fs i Efs) | exact H].
Qed.

Lemma selected_iff r (vs : list (option Z * list rty)) i : enum_ok r (map (fun x => (fst x, @nil ty)) vs) ->
  (selected r vs i <-> exists ds d bs, discriminants (map fst vs) = Some ds /\ nth_error ds i = Some d /\ (forall i', (i' < i)%nat -> nth_error ds i' <> Some d) /\
      in_ity r d /\ WireInt r d bs).
Proof.
  unfold enum_ok. rewrite map_map. cbn [fst]. destruct (discriminants (map fst vs)) as [ds|] eqn:E; [|intros []]. intros [Hin Hnd]. split.
  - intros (d & bs & Ha & Hw). apply (@discriminants_assigned _ _ i d E) in Ha. exists ds, d, bs. split; [reflexivity|]. split; [exact Ha|]. split.
    + intros i' Hi' H. assert (i' = i); [|lia]. apply (proj1 (NoDup_nth_error ds) Hnd); [apply nth_error_Some; congruence | congruence].
    + split; [|exact Hw]. rewrite Forall_forall in Hin. apply Hin, (nth_error_In _ _ Ha).
  - intros (ds' & d & bs & E' & Ha & _ & _ & Hw). injection E' as <-. exists d, bs. split; [|exact Hw]. apply (@discriminants_assigned _ _ i d E), Ha.
Qed.

Section Level.
  Variable defs : nat -> rdef.
  Hypothesis Hi : forall k, compiled (defs k).
  Variable n : nat.
  Let env := unroll defs n.

  Lemma inst_levels m m' t : (m <= m')%nat -> tle (inst (unroll defs m) t) (inst (unroll defs m') t).
  Proof. intros Hm. apply inst_le; intros k; [apply unroll_le, Hm | apply unroll_nominal..]. Qed.
  (* what can be decoded at some depth can be decoded at this one, or falls *)
  Lemma makes_here t : Makes defs t -> Makes_ (decode (inst env t)) \/ Sinks (decode (inst env t)).
  Proof.
    intros (m & i & i' & v & Hw & E). destruct (Nat.le_ge_cases m n) as [H|H].
    - left. destruct (inst_levels t H) as (_ & _ & Hd). destruct (Hd i) as [Hs|[j Hs]]; [|congruence].
      apply makes_by; [apply decode_local|]. exists i, i', v. split; [exact Hw|]. unfold env. congruence.
    - destruct (inst_levels t H) as (_ & _ & Hd). destruct (Hd i) as [Hs|[j Hs]].
      + left. apply makes_by; [apply decode_local|]. exists i, i', v. split; [exact Hw|]. unfold env. congruence.
      + right. apply sinks_by; [apply decode_local|]. exists i. split; [exact Hw|]. unfold env. rewrite Hs. reflexivity.
  Qed.
  Lemma makes_there t : Makes_ (decode (inst env t)) -> Makes defs t.
  Proof. intros H. apply makes_by in H; [|apply decode_local]. destruct H as (i & i' & v & Hw & E). exists n, i, i', v. auto. Qed.

  Definition At (t : rty) : Prop := exists j, Calls defs t j /\ Sinks (decode (env j)).
  Definition Fields (ts : list rty) : Prop := exists a f b, map decode (map (inst env) ts) = a ++ f :: b /\ Forall Makes_ a /\ Sinks f.
  Lemma at_fields ts : Forall (fun t => Sinks (decode (inst env t)) <-> At t) ts -> (Fields ts <-> At (RTuple ts)).
  Proof.
    intros H. induction H as [|t ts Ht Hts IH].
    - split; [intros ([|? a] & f & b & E & _); discriminate | intros (j & H & _); inversion H].
    - split.
      + intros (a & f & b & E & H1 & H2). destruct a as [|g a]; cbn [map app] in E; injection E as E1 E2; subst.
        * apply Ht in H2. destruct H2 as (j & Hc & Hs). exists j. split; [apply Ca_first, Hc | exact Hs].
        * inversion H1; subst. assert (HF : Fields ts) by (exists a, f, b; auto). apply IH in HF. destruct HF as (j & Hc & Hs).
          exists j. split; [apply Ca_later; [apply makes_there; assumption | exact Hc] | exact Hs].
      + intros (j & Hc & Hs). inversion Hc as [| |? ? ? Hf|? ? ? Hm Hr| | | | | | | | | | | | | | | | | |]; subst.
        * exists [], (decode (inst env t)), (map decode (map (inst env) ts)). split; [reflexivity|]. split; [constructor|]. apply Ht. exists j. auto.
        * destruct (makes_here Hm) as [Hm'|Hm'].
          -- destruct IH as [_ IH]. destruct IH as (a & f & b & E & H1 & H2); [exists j; auto|].
             exists (decode (inst env t) :: a), f, b. cbn [map app]. rewrite E. auto.
          -- exists [], (decode (inst env t)), (map decode (map (inst env) ts)). auto.
  Qed.

  Ltac one H := split;
    [let j := fresh "j" in let H1 := fresh in let H2 := fresh in intros H1; apply H in H1; destruct H1 as (j & H1 & H2); exists j; split; [constructor; assumption | exact H2] |
     let j := fresh "j" in let H1 := fresh in let H2 := fresh in intros (j & H1 & H2); inversion H1; subst; apply H; exists j; split; assumption].

  Lemma sinks_at t : inhabited_parts t = true ->
    (Sinks (decode (inst env t)) <-> At t) /\ (Sinks (decode (owned (inst env t))) <-> At (RCow t)).
  Proof.
    assert (Nom : forall k, owned (env k) = env k) by (intros k; apply unroll_nominal).
    assert (Cow : forall t, (forall u, t <> RSlice u) -> (At (RCow t) <-> At t)).
    { intros u Hu. split; intros (j & H1 & H2); exists j; (split; [|exact H2]); [|apply Ca_cow, H1].
      inversion H1; subst; [exfalso; eapply Hu; reflexivity | assumption]. }
    assert (Both : forall t (P : Prop), (forall u, t <> RSlice u) -> owned (inst env t) = inst env t -> (Sinks (decode (inst env t)) <-> At t) ->
      (Sinks (decode (inst env t)) <-> At t) /\ (Sinks (decode (owned (inst env t))) <-> At (RCow t))).
    { intros u _ Hu Ho H. split; [exact H|]. rewrite Ho, Cow by exact Hu. exact H. }
    induction t using rty_ind_strong; cbn [inhabited_parts]; intros Hin;
      try (specialize (IHt Hin); destruct IHt as [IH1 IH2]);
      try (apply (@Both _ True); [discriminate | reflexivity|]); cbn [inst decode].
    - apply negb_true_iff, closed_panics in Hin. destruct Hin as [P1 P2].
      split; (split; [intros H; exfalso; revert H; apply K_panics; assumption | intros (j & H & _); inversion H; subst; match goal with X : Calls _ (RConst _) _ |- _ => inversion X end]).
    - rewrite Nom. assert (H : Sinks (decode (env k)) <-> At (RVar k)).
      { split; [intros H; exists k; split; [constructor | exact H] | intros (j & H & Hs); inversion H; subst; exact Hs]. }
      split; [exact H|]. rewrite Cow by discriminate. exact H.
    - rewrite K_option by apply decode_local. one IH1.
    - rewrite K_map by (apply L_fields, local_decode_all). rewrite K_fields by apply local_decode_all. apply (@at_fields ts).
      rewrite forallb_forall in Hin. rewrite Forall_forall in *. intros t Ht. apply H; auto.
    - rewrite K_map by (apply L_items, decode_local). rewrite K_items by apply decode_local. rewrite IH1. split.
      + intros (Hn & j & H1 & H2). exists j. split; [apply Ca_array; assumption | exact H2].
      + intros (j & H1 & H2). inversion H1; subst. split; [assumption|]. exists j. auto.
    - cbn [owned decode]. split.
      + split; [intros H; exfalso; revert H; apply K_panic; discriminate | intros (j & H & _); inversion H].
      + rewrite K_vec by apply decode_local. rewrite IH1. split; intros (j & H1 & H2); exists j; (split; [|exact H2]); [apply Ca_cow_slice, H1|].
        inversion H1 as [| | | | | | | | |? ? Hc|? ? Hc| | | | | | | | | | |]; subst; [exact Hc | inversion Hc].
    - rewrite K_vec by apply decode_local. one IH1.
    - rewrite K_vec by apply decode_local. one IH1.
    - rewrite K_sized_slice by apply decode_local. rewrite IH1. split.
      + intros (Hn & j & H1 & H2). exists j. split; [apply Ca_sized_slice; assumption | exact H2].
      + intros (j & H1 & H2). inversion H1; subst. split; [assumption|]. exists j. auto.
    - rewrite K_map by apply decode_local. one IH1.
    - rewrite decode_owned. rewrite K_map by apply decode_local. exact IH2.
    - rewrite K_map by apply decode_local. one IH1.
    - rewrite K_map by apply decode_local. one IH1.
    - rewrite (K_twice (fun a b => VRange a b)) by apply decode_local. one IH1.
    - rewrite (K_twice (fun a b => VRangeInclusive a b false)) by apply decode_local. one IH1.
    - rewrite K_map by apply decode_local. one IH1.
    - rewrite K_map by apply decode_local. one IH1.
    - rewrite K_map by apply decode_local. one IH1.
    - rewrite K_bound by apply decode_local. one IH1.
    - apply andb_true_iff in Hin. destruct Hin as [Hk Hv]. destruct (IHt1 Hk) as [I1 _]. destruct (IHt2 Hv) as [I2 _].
      rewrite K_hash_map by apply decode_local. split.
      + intros [H|[Hm H]]; [apply I1 in H | apply I2 in H]; destruct H as (j & H1 & H2); exists j; (split; [|exact H2]);
          [apply Ca_key, H1 | apply Ca_value; [apply makes_there, Hm | exact H1]].
      + intros (j & H1 & H2). inversion H1 as [| | | | | | | | | | | | | | | | | | |? ? ? Hc|? ? ? Hm Hc|]; subst.
        * left. apply I1. exists j. auto.
        * destruct (makes_here Hm) as [Hm'|Hm']; [|left; exact Hm']. right. split; [exact Hm'|]. apply I2. exists j. auto.
    - rewrite K_hash_set by apply decode_local. one IH1.
  Qed.

  Lemma sinks_def k : Sinks (decode (unroll defs (S n) k)) <-> exists j, calls defs k j /\ Sinks (decode (env j)).
  Proof.
    cbn [unroll]. fold env. destruct (Hi k) as [Hk Hok]. unfold calls.
    assert (HF : forall ts, forallb inhabited_parts ts = true -> (Fields ts <-> At (RTuple ts))).
    { intros ts H. apply at_fields. rewrite forallb_forall in H. rewrite Forall_forall. intros t Ht. apply sinks_at. auto. }
    destruct (defs k) as [ts|r vs]; cbn [inhabited_def inst_def decode] in *.
    - rewrite K_map by (apply L_fields, local_decode_all). rewrite K_fields by apply local_decode_all. apply (HF ts Hk).
    - rewrite K_enum by apply variants_local. rewrite !map_map. cbn [fst].
      assert (HN : forall i fs, nth_error (map (fun x : option Z * list rty => map decode (snd (fst x, map (inst env) (snd x)))) vs) i = Some fs ->
        exists o ts, nth_error vs i = Some (o, ts) /\ fs = map decode (map (inst env) ts)).
      { intros i fs E. rewrite nth_error_map in E. destruct (nth_error vs i) as [[o ts]|]; [|discriminate]. injection E as <-. exists o, ts. auto. }
      split.
      + intros (l & i & d & bs & fs & E & H1 & H2 & H3 & H4 & H5 & H6). apply HN in H5. destruct H5 as (o & ts & Ev & ->).
        assert (Hts : forallb inhabited_parts ts = true) by (rewrite forallb_forall in Hk; apply (Hk (o, ts)), (nth_error_In _ _ Ev)).
        destruct (proj1 (HF ts Hts) H6) as (j & Hc & Hs). exists j. split; [|exact Hs]. exists i, o, ts. split; [exact Ev|]. split; [|exact Hc].
        apply (@selected_iff r vs i Hok). exists l, d, bs. auto 10.
      + intros (j & (i & o & ts & Ev & Hsel & Hc) & Hs). apply (@selected_iff r vs i Hok) in Hsel. destruct Hsel as (l & d & bs & E & H1 & H2 & H3 & H4).
        assert (Hts : forallb inhabited_parts ts = true) by (rewrite forallb_forall in Hk; apply (Hk (o, ts)), (nth_error_In _ _ Ev)).
        exists l, i, d, bs, (map decode (map (inst env) ts)). split; [exact E|]. do 4 (split; [assumption|]).
        split; [rewrite nth_error_map, Ev; reflexivity|]. apply (proj2 (HF ts Hts)). exists j. auto.
  Qed.
End Level.

Lemma sinks_chain defs : (forall k, compiled (defs k)) -> forall n k, Sinks (decode (unroll defs n k)) <-> chain defs n k.
Proof.
  intros Hi. induction n as [|n IH]; intros k; cbn [chain].
  - split; [auto|]. intros _. exists []. intros pre post. cbn [unroll decode length app]. rewrite Nat.add_0_r. reflexivity.
  - rewrite sinks_def by exact Hi. split; intros (j & H1 & H2); exists j; (split; [exact H1 | apply IH, H2]).
Qed.
Lemma C95_exact_lemma defs : (forall k, compiled (defs k)) -> forall n k,
  (exists i, in_bounds i /\ ~ depth_suffices defs k n i) <-> chain defs n k.
Proof.
  intros Hi n k. rewrite <- (sinks_chain defs Hi n k). rewrite sinks_by by apply decode_local. split; intros (i & Hw & H); exists i; (split; [exact Hw|]).
  - unfold depth_suffices in H. destruct (snd (decode (unroll defs n k) i)) as [a|e|p]; try (exfalso; apply H; discriminate).
    destruct p; try (exfalso; apply H; discriminate). reflexivity.
  - intros Hd. apply Hd, H.
Qed.
Lemma C95_limit_lemma defs : (forall k, compiled (defs k)) -> forall n k,
  (forall i, in_bounds i -> depth_suffices defs k n i) <-> ~ chain defs n k.
Proof.
  intros Hi n k. rewrite <- (C95_exact_lemma defs Hi n k). split.
  - intros H (i & Hw & Hn). apply Hn, H, Hw.
  - intros H i Hw Hd. apply H. exists i. split; [exact Hw|]. intros Hs. apply Hs, Hd.
Qed.
Lemma comes_chain defs n k j : comes defs k j -> (forall l, l = j -> chain defs n l) -> chain defs (S n) k.
Proof.
  intros H. revert n. induction H as [k j H|k j l H H' IH]; intros n Hn.
  - exists j. auto.
  - exists j. split; [exact H|]. specialize (IH n Hn). clear - IH. revert j IH. induction n as [|n IHn]; intros j Hc; [exact I|].
    destruct Hc as (x & Hx & Hc). exists x. auto.
Qed.
Lemma C95_cycle_lemma defs k : (forall k, compiled (defs k)) -> comes defs k k -> forall n, exists i, in_bounds i /\ ~ depth_suffices defs k n i.
Proof.
  intros Hi H n. apply (C95_exact_lemma defs Hi). induction n as [|n IH]; [exact I|]. apply (comes_chain n H). intros l ->. exact IH.
Qed.

(* ---- finitely many definitions: no limit only if there is a cycle *)
Fixpoint path (defs : nat -> rdef) (k : nat) (l : list nat) : Prop := match l with [] => True | j :: l' => calls defs k j /\ path defs j l' end.
Lemma chain_path defs n : forall k, chain defs n k -> exists l, length l = n /\ path defs k l.
Proof.
  induction n as [|n IH]; intros k H; [exists []; cbn; auto|]. destruct H as (j & Hj & H). destruct (IH j H) as (l & El & Hl).
  exists (j :: l). cbn. auto.
Qed.
Lemma path_comes defs l1 : forall k x r, path defs k (l1 ++ x :: r) -> comes defs k x /\ path defs x r.
Proof.
  induction l1 as [|j l1 IH]; intros k x r H; cbn [app path] in H; destruct H as [H1 H2].
  - split; [apply comes_one, H1 | exact H2].
  - destruct (IH j x r H2) as [H3 H4]. split; [exact (@comes_more defs k j x H1 H3) | exact H4].
Qed.
Lemma path_in defs l : forall k x, path defs k l -> In x l -> exists j, calls defs j x.
Proof. induction l as [|j l IH]; intros k x H Hx; [destruct Hx|]. destruct H as [H1 H2], Hx as [<-|Hx]; [exists k; exact H1 | apply (IH j x H2 Hx)]. Qed.
Lemma repeated (l : list nat) : ~ NoDup l -> exists x l1 l2 l3, l = l1 ++ x :: l2 ++ x :: l3.
Proof.
  induction l as [|x l IH]; intros H; [destruct H; constructor|]. destruct (in_dec Nat.eq_dec x l) as [Hx|Hx].
  - destruct (in_split _ _ Hx) as (l2 & l3 & ->). exists x, [], l2, l3. reflexivity.
  - destruct IH as (y & l1 & l2 & l3 & ->); [intros Hn; apply H; constructor; assumption|]. exists y, (x :: l1), l2, l3. reflexivity.
Qed.
Lemma long_cycle defs N k : (forall i j, calls defs i j -> (j < N)%nat) -> chain defs (S N) k -> exists j, comes defs k j /\ comes defs j j.
Proof.
  intros HN H. destruct (chain_path _ _ _ H) as (l & El & Hl).
  destruct (ListDec.NoDup_dec Nat.eq_dec l) as [Hd|Hd].
  - exfalso. assert (Hlen : (length l <= length (seq 0 N))%nat).
    { apply NoDup_incl_length; [exact Hd|]. intros x Hx. apply in_seq. destruct (path_in _ _ _ _ Hl Hx) as [i Hi]. apply HN in Hi. lia. }
    rewrite List.seq_length in Hlen. lia.
  - apply repeated in Hd. destruct Hd as (x & l1 & l2 & l3 & ->).
    apply path_comes in Hl. destruct Hl as [H1 H2]. apply path_comes in H2. exists x. tauto.
Qed.
Lemma chain_less defs n : forall k, chain defs (S n) k -> chain defs n k.
Proof. induction n as [|n IH]; intros k H; [exact I|]. destruct H as (j & Hj & H). exists j. split; [exact Hj | apply IH, H]. Qed.
Lemma cycle_chain defs j : comes defs j j -> forall n, chain defs n j.
Proof. intros H n. induction n as [|n IH]; [exact I|]. apply (comes_chain n H). intros l ->. exact IH. Qed.
Lemma C95_finite_lemma defs N k : (forall k, compiled (defs k)) -> (forall i j, calls defs i j -> (j < N)%nat) ->
  ((exists n, forall i, in_bounds i -> depth_suffices defs k n i) <-> ~ exists j, comes defs k j /\ comes defs j j) /\
  ((exists n, forall i, in_bounds i -> depth_suffices defs k n i) <-> forall i, in_bounds i -> depth_suffices defs k (S N) i).
Proof.
  intros Hi HN.
  assert (A : (exists n, forall i, in_bounds i -> depth_suffices defs k n i) -> ~ exists j, comes defs k j /\ comes defs j j).
  { intros [n Hn] (j & H1 & H2). apply (C95_limit_lemma defs Hi) in Hn. apply Hn. apply chain_less. apply (comes_chain n H1). intros l ->. apply cycle_chain, H2. }
  assert (B : (~ exists j, comes defs k j /\ comes defs j j) -> forall i, in_bounds i -> depth_suffices defs k (S N) i).
  { intros H. apply (C95_limit_lemma defs Hi). intros Hc. apply H, (@long_cycle defs N k HN Hc). }
  split; split; eauto.
Qed.

(* ---- examples *)
Lemma never_not_made : ~ Makes never_defs (RVar 1).
Proof.
  intros (n & i & i' & v & _ & H). cbn [inst] in H. destruct n as [|n]; cbn [unroll never_defs inst_def map decode] in H; [discriminate|].
  cbn in H. unfold dec_enum, dbind in H. cbn in H. destruct (dec_unsigned 1 i) as [j [d|e|p]]; discriminate.
Qed.
Lemma never_limited : ~ chain never_defs 2 0.
Proof.
  intros (j & H1 & l & H2 & _). unfold calls in H1, H2. cbn [never_defs] in H1.
  inversion H1 as [| |? ? ? Hf|? ? ? Hm Hr| | | | | | | | | | | | | | | | | |]; subst.
  - inversion Hf as [| | | | |? ? Hv| | | | | | | | | | | | | | | |]; subst. inversion Hv; subst. cbn [never_defs] in H2.
    inversion H2 as [| |? ? ? Hg|? ? ? _ Hs| | | | | | | | | | | | | | | | | |]; subst; [inversion Hg|].
    inversion Hs as [| |? ? ? Hg|? ? ? _ Hs'| | | | | | | | | | | | | | | | | |]; subst; [|inversion Hs']. inversion Hg; subst. lia.
  - inversion Hr as [| |? ? ? Hg|? ? ? Hm' Hs| | | | | | | | | | | | | | | | | |]; subst.
    + inversion Hg; subst. cbn [never_defs] in H2. destruct H2 as (i & o & ts & E & _). destruct i; discriminate.
    + apply (never_not_made Hm').
Qed.
Lemma list_cycle : comes list_defs 0 0.
Proof.
  apply comes_one. unfold calls. cbn [list_defs]. exists 1%nat, None, [RConst (TInt U8); RWrap WBox (RVar 0)]. split; [reflexivity|]. split.
  - exists 1%Z, (le_bytes 1 1). split; [apply (@discriminants_assigned _ [0; 1]%Z 1 1%Z); reflexivity|].
    apply WI_fixed; [discriminate | discriminate | apply le_repr_iff; reflexivity].
  - apply Ca_later; [|apply Ca_first, Ca_wrap, Ca_var]. exists 0%nat, (input_new [x00]), (Input [x00] 1), (VInt 0). split; [cbv; lia | reflexivity].
Qed.
Lemma list_compiled k : compiled (list_defs k).
Proof. split; [reflexivity|]. cbn [list_defs]. split; [repeat constructor; cbn; lia|]. repeat constructor; cbn; intuition discriminate. Qed.
Lemma never_compiled k : compiled (never_defs k).
Proof. destruct k as [|[|k]]; (split; [reflexivity|]); cbn [never_defs]; [exact I | | exact I]. split; constructor. Qed.
Lemma never_below i j : calls never_defs i j -> (j < 3)%nat.
Proof.
  intros H. unfold calls in H. destruct i as [|[|i]]; cbn [never_defs] in H.
  - repeat match goal with H : Calls _ _ _ |- _ => inversion H; clear H; subst end; lia.
  - destruct H as (i & o & ts & E & _). destruct i; discriminate.
  - repeat match goal with H : Calls _ _ _ |- _ => inversion H; clear H; subst end; lia.
Qed.
