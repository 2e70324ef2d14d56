(* C108: reading and writing data of a smaller form. *)
From Coq Require Import Lia ZifyBool ZifyNat ZifyN Permutation.
From Verif Require Import Base BaseFacts WireFacts EncodeFacts SizeProofs RoundTrip ValueProofs Streams StreamFacts Utf8 Types TypesFacts Traits Encode Decode Spec SpecCalls SpecForm SpecGrow AcceptFacts
  SpecDecode ComputeFacts PortableProofs EncodeProofs DecodeProofs DeriveProofs FormProofs FormExamples UserSafety.
Set Implicit Arguments.

Section FormInd.
  Variable P : form -> Prop.
  Hypothesis HLeaf : forall t, P (FLeaf t).
  Hypothesis HSign : forall a b, Forall P a -> Forall P b -> P (FSign a b).
  Hypothesis HMany : forall a, Forall P a -> P (FMany a).
  Hypothesis HText : P FText.
  Hypothesis HNull : P FNullFree.
  Hypothesis HChoice : forall r vs, Forall (fun x => Forall P (snd x)) vs -> P (FChoice r vs).
  Fixpoint form_ind_strong (f : form) : P f :=
    let all := fix all (l : list form) : Forall P l :=
      match l with [] => Forall_nil P | f :: l' => Forall_cons f (form_ind_strong f) (all l') end in
    match f with
    | FLeaf t => HLeaf t
    | FSign a b => HSign (all a) (all b)
    | FMany a => HMany (all a)
    | FText => HText
    | FNullFree => HNull
    | FChoice r vs =>
      HChoice r
        ((fix allv (vs : list (Z * list form)) : Forall (fun x => Forall P (snd x)) vs :=
            match vs with
            | [] => Forall_nil _
            | x :: vs' => Forall_cons x (match x as y return Forall P (snd y) with (_, l) => all l end) (allv vs')
            end) vs)
    end.
End FormInd.

Lemma select_assoc {A} d (l : list (Z * A)) : select d l = assoc d l.
Proof. induction l as [|[d' x] l IH]; [reflexivity|]. cbn [select assoc]. rewrite IH. reflexivity. Qed.
Lemma assoc_in {A} d (l : list (Z * A)) x : assoc d l = Some x -> In (d, x) l.
Proof.
  induction l as [|[d' y] l IH]; cbn [assoc]; [discriminate|]. destruct (Z.eqb_spec d d') as [->|]; [intros [= ->]; left; reflexivity | right; auto].
Qed.
Lemma fold_and_forall {A} (P : A -> Prop) l : fold_right and True (map P l) <-> Forall P l.
Proof.
  induction l as [|x l IH]; cbn [map fold_right]; [split; constructor|]. rewrite IH. split; [intros []; constructor; assumption | intros H; inversion H; auto].
Qed.
Lemma choice_known vs vs' : fold_right and True (map (fun x => select (fst x) vs = Some (snd x) ->
    match select (fst x) vs' with Some gs => all2 (map Known (snd x)) gs | None => False end) vs) <->
  (forall d fs, assoc d vs = Some fs -> exists gs, assoc d vs' = Some gs /\ all2 (map Known fs) gs).
Proof.
  rewrite fold_and_forall, Forall_forall. split.
  - intros H d fs E. specialize (H _ (assoc_in _ _ E)). cbn [fst snd] in H. rewrite !select_assoc in H. specialize (H E). rewrite select_assoc in H.
    destruct (assoc d vs') as [gs|]; [eauto | contradiction].
  - intros H [d fs] _ E. cbn [fst snd] in *. rewrite !select_assoc in *. destruct (H _ _ E) as (gs & -> & Hk). exact Hk.
Qed.

(* ---- reading *)

Definition Follows {A} (m n : D A) : Prop := forall i i' a, m i = (i', Ok a) -> n i = (i', Ok a).
Lemma fo_bind {A B} (m n : D A) (k l : A -> D B) : Follows m n -> (forall a, Follows (k a) (l a)) -> Follows (dbind m k) (dbind n l).
Proof.
  intros Hm Hk i i' b. unfold dbind. destruct (m i) as [i1 [a|e|p]] eqn:E; try discriminate. rewrite (Hm _ _ _ E). apply Hk.
Qed.
Lemma fo_refl {A} (m : D A) : Follows m m.
Proof. intros i i' a H. exact H. Qed.
Lemma fo_map {A B} (f : A -> B) m n : Follows m n -> Follows (dmap f m) (dmap f n).
Proof. intros H. apply fo_bind; [exact H | intros a; apply fo_refl]. Qed.
Lemma fo_pieces fs : Forall (fun f => forall g, Known f g -> Follows (rform f) (rform g)) fs -> forall gs, all2 (map Known fs) gs ->
  Follows (pieces (map rform fs)) (pieces (map rform gs)).
Proof.
  induction 1 as [|f fs Hf _ IH]; intros [|g gs] H; cbn [map all2] in H; try contradiction; cbn [map pieces]; [apply fo_refl|].
  destruct H. apply fo_bind; [apply Hf; assumption | intros p; apply fo_map, IH; assumption].
Qed.
Lemma fo_times {A} (m n : D A) k : Follows m n -> Follows (times m k) (times n k).
Proof. intros H. induction k as [|k IH]; cbn [times]; [apply fo_refl|]. apply fo_bind; [exact H | intros x; apply fo_map, IH]. Qed.

Lemma fo_known f : forall g, Known f g -> Follows (rform f) (rform g).
Proof.
  induction f using form_ind_strong; intros g Hg; destruct g; cbn [Known] in Hg; try contradiction; cbn [rform].
  - destruct Hg as [->|[(i & -> & ->)|(m & n & -> & -> & Hmn)]]; [apply fo_refl | |]; apply fo_map; cbn [decode]; intros i0 i' a H.
    + unfold dec_nonzero, dmap, dbind in *. destruct (dec_int i i0) as [i1 [z|e|p]]; try discriminate.
      destruct (z =? 0)%Z; unfold derror, dok in *; [discriminate | exact H].
    + unfold dec_sized_str, dmap, dbind in *. destruct (dec_usize i0) as [i1 [len|e|p]]; try discriminate.
      destruct (dread (Z.to_nat len) i1) as [i2 [bs|e|p]]; try discriminate. unfold dlift, sized_from_utf8 in *.
      destruct (Nat.ltb_spec m (length bs)); [discriminate|]. destruct (Nat.ltb_spec n (length bs)); [exfalso; lia | exact H].
  - destruct Hg as [H1 H2]. apply fo_bind; [apply fo_refl|]. intros s. apply fo_map. destruct s; apply fo_pieces; assumption.
  - apply fo_bind; [apply fo_refl|]. intros len. apply fo_map, fo_times, fo_pieces; assumption.
  - apply fo_refl.
  - apply fo_refl.
  - destruct Hg as [-> Hg]. pose proof (proj1 (choice_known _ _) Hg) as Hg2; clear Hg; rename Hg2 into Hg. apply fo_bind; [apply fo_refl|]. intros d. rewrite !assoc_map.
    destruct (assoc d vs) as [fs|] eqn:E; cbn [option_map]; [|intros i i' a Hx; discriminate].
    destruct (Hg _ _ E) as (gs & E' & Hk). apply assoc_in in E. rewrite Forall_forall in H. rewrite E'. cbn [option_map].
    apply fo_map, fo_pieces; [apply (H _ E) | exact Hk].
Qed.

Lemma pieces_known fs gs : all2 (map Known fs) gs -> Follows (pieces (map rform fs)) (pieces (map rform gs)).
Proof. apply fo_pieces. apply Forall_forall. intros f _. apply fo_known. Qed.

Lemma decode_pieces t i i' v : decode t i = (i', Ok v) <->
  exists ps, pieces (map rform (forms true t)) i = (i', Ok ps) /\ ps = content true t v /\ decode t i = (i', Ok v).
Proof.
  split; [|intros (ps & _ & _ & H); exact H]. intros H. pose proof (reads t i) as Hr. rewrite H in Hr.
  destruct (pieces _ i) as [i1 [ps|e|p]]; try contradiction. destruct Hr as [-> ->]. eauto.
Qed.
Lemma pieces_decode t i i' ps : pieces (map rform (forms true t)) i = (i', Ok ps) -> exists v, decode t i = (i', Ok v) /\ content true t v = ps.
Proof.
  intros H. pose proof (reads t i) as Hr. rewrite H in Hr. destruct (decode t i) as [i1 [v|e|p]]; try contradiction. destruct Hr as [-> ->]. eauto.
Qed.

Lemma C108_reads_lemma t t' i i' v : Understands true t' t -> decode t i = (i', Ok v) ->
  exists v', decode t' i = (i', Ok v') /\ content true t' v' = content true t v.
Proof.
  intros Hu H. apply decode_pieces in H. destruct H as (ps & Hp & -> & _). apply pieces_decode. exact (@pieces_known _ _ Hu _ _ _ Hp).
Qed.

(* ---- the input only moves forward *)
Definition Onward (i j : input) : Prop := i_pos i <= i_pos j.
Lemma onward_refl i : Onward i i.
Proof. unfold Onward. lia. Qed.
Lemma onward_trans a b c : Onward a b -> Onward b c -> Onward a c.
Proof. unfold Onward. lia. Qed.
Lemma onward_read i n : Onward i (fst (input_read i n)).
Proof. unfold Onward, input_read. destruct (_ <? _); cbn [fst i_pos]; lia. Qed.
Notation KD := (KeepsD Onward).
Lemma kd_pieces fs : Forall KD fs -> KD (pieces fs).
Proof.
  induction 1 as [|f fs Hf _ IH]; cbn [pieces]; [apply (kd_ok _ onward_refl)|].
  apply (kd_bind onward_trans); [exact Hf | intros p; apply (kd_map onward_refl onward_trans), IH].
Qed.
Lemma kd_times {A} (f : D A) n : KD f -> KD (times f n).
Proof.
  intros Hf. induction n as [|n IH]; cbn [times]; [apply (kd_ok _ onward_refl)|].
  apply (kd_bind onward_trans); [exact Hf | intros p; apply (kd_map onward_refl onward_trans), IH].
Qed.
Lemma kd_rform f : KD (rform f).
Proof.
  assert (Hd : forall t, KD (decode t)) by (intros t; apply (kd_decode Onward onward_refl onward_trans onward_read)).
  induction f using form_ind_strong; cbn [rform].
  - apply (kd_map onward_refl onward_trans), Hd.
  - apply (kd_bind onward_trans); [apply (kd_map onward_refl onward_trans), (kd_unsigned Onward onward_refl onward_trans onward_read)|].
    intros s. apply (kd_map onward_refl onward_trans). destruct s; apply kd_pieces, forall_map; assumption.
  - apply (kd_bind onward_trans); [apply (kd_unsigned Onward onward_refl onward_trans onward_read)|].
    intros len. apply (kd_map onward_refl onward_trans), kd_times, kd_pieces, forall_map. assumption.
  - apply (kd_map onward_refl onward_trans), (Hd TString).
  - apply (kd_map onward_refl onward_trans), (Hd TCString).
  - apply (kd_bind onward_trans); [apply (kd_int Onward onward_refl onward_trans onward_read)|].
    intros d. rewrite assoc_map. destruct (assoc d vs) as [fs|] eqn:E; cbn [option_map]; [|apply (kd_error Onward onward_refl)].
    apply (kd_map onward_refl onward_trans), kd_pieces, forall_map. apply assoc_in in E. rewrite Forall_forall in H. apply (H _ E).
Qed.

Lemma pieces_length fs : forall i i' ps, pieces fs i = (i', Ok ps) -> length ps = length fs.
Proof.
  induction fs as [|f fs IH]; cbn [pieces]; intros i i' ps H; [injection H as _ <-; reflexivity|].
  unfold dbind, dmap in H. destruct (f i) as [i1 [p|e|q]]; try discriminate. unfold dbind in H.
  destruct (pieces fs i1) as [i2 [qs|e|q]] eqn:E; try discriminate. unfold dok in H. injection H as _ <-. cbn [length]. f_equal. apply (IH _ _ _ E).
Qed.

Lemma C108_head_lemma n t t' i i' v : UnderstandsHead n t' t -> decode t i = (i', Ok v) ->
  exists i1 v', decode t' i = (i1, Ok v') /\ content true t' v' = firstn n (content true t v) /\ input_position i <= input_position i1 <= input_position i'.
Proof.
  intros Hu H. apply decode_pieces in H. destruct H as (ps & Hp & -> & _). rewrite <- (firstn_skipn n (forms true t)), map_app, pieces_app in Hp.
  unfold dbind in Hp. destruct (pieces (map rform (firstn n (forms true t))) i) as [i1 [xs|e|p]] eqn:E1; try discriminate.
  unfold dmap, dbind in Hp. destruct (pieces (map rform (skipn n (forms true t))) i1) as [i2 [ys|e|p]] eqn:E2; try discriminate.
  unfold dok in Hp. injection Hp as -> Hc. rewrite <- Hc.
  assert (Hx : xs = firstn n (xs ++ ys)).
  { pose proof (pieces_length _ _ E1) as L1. pose proof (pieces_length _ _ E2) as L2. rewrite map_length, firstn_length in L1. rewrite map_length, skipn_length in L2.
    destruct (Nat.le_gt_cases n (length (forms true t))).
    - rewrite firstn_app. replace (n - length xs) with 0 by lia. rewrite firstn_O, app_nil_r, firstn_all2 by lia. reflexivity.
    - assert (ys = []) by (destruct ys; [reflexivity | cbn [length] in L2; lia]). subst ys. rewrite app_nil_r, firstn_all2 by lia. reflexivity. }
  rewrite <- Hx. pose proof (@pieces_known _ _ Hu _ _ _ E1) as E1'. destruct (pieces_decode _ _ E1') as (v' & Hv & Hcv). exists i1, v'. split; [exact Hv|].
  split; [exact Hcv|].
  assert (K : forall fs i0 i3 qs, pieces (map rform fs) i0 = (i3, Ok qs) -> Onward i0 i3).
  { intros fs i0 i3 qs Hq. assert (KD (pieces (map rform fs))) as Hk by (apply kd_pieces, forall_map, Forall_forall; intros f _; apply kd_rform).
    specialize (Hk i0). rewrite Hq in Hk. exact Hk. }
  apply K in E1. apply K in E2. unfold Onward, input_position in *. lia.
Qed.

Lemma C108_crossing_lemma checks n t t' v bs : wt t v -> RoundTrips t v -> Appends (encode checks t v) bs (Ok tt) -> UnderstandsHead n t' t ->
  exists b1 b2 v', bs = b1 ++ b2 /\ Yields (decode t') b1 v' /\ content true t' v' = firstn n (content true t (norm v)).
Proof.
  intros Hv Hr Ha Hu. pose proof (@wt_norm_accepts checks t v bs Hv Hr Ha) as Hy.
  pose proof (Hy [] []) as H0. rewrite app_nil_r in H0. cbn [app length Nat.add] in H0.
  destruct (@C108_head_lemma _ _ _ _ _ _ Hu H0) as (i1 & v' & Hd & Hc & Hp).
  assert (Hb : in_bounds (Input bs 0)) by (unfold in_bounds; apply Nat.le_0_l).
  destruct (@C22_lemma _ _ _ _ Hb Hd) as [Hbuf Hpos]. unfold input_position, input_capacity in *. cbn [i_buf i_pos] in *.
  exists (firstn (i_pos i1) bs), (skipn (i_pos i1) bs), v'. split; [symmetry; apply firstn_skipn|]. split; [|exact Hc].
  apply yields_by_run.
  assert (Hb' : in_bounds (Input (firstn (i_pos i1) bs) 0)) by (unfold in_bounds; apply Nat.le_0_l).
  rewrite (@C15_lemma _ _ _ _ Hb Hd) with (j := Input (firstn (i_pos i1) bs) 0).
  - unfold input_position. cbn [i_buf i_pos]. rewrite firstn_length. do 2 f_equal. lia.
  - intros p. discriminate.
  - exact Hb'.
  - unfold unread, input_position. cbn [i_buf i_pos skipn]. rewrite Nat.sub_0_r, firstn_firstn, Nat.min_id. reflexivity.
Qed.

(* ---- writing *)
Section Writing.
  Variable checks : bool.
  Definition Same (a b : E) : Prop := forall o, snd (a o) = Panic PStuck \/
    (fst (a o) = fst (b o) /\
     match snd (a o), snd (b o) with
     | Ok _, Ok _ => True
     | Err _, Err _ => True
     | Panic p, Panic q => p = q
     | _, _ => False
     end).
  Lemma sa_refl a : Same a a.
  Proof. intros o. right. split; [reflexivity|]. destruct (snd (a o)); auto. Qed.
  Lemma sa_stuck b : Same (epanic PStuck) b.
  Proof. intros o. left. reflexivity. Qed.
  Lemma sa_seq a b a' b' : Same a a' -> Same b b' -> Same (eseq a b) (eseq a' b').
  Proof.
    intros Ha Hb o. unfold eseq. specialize (Ha o). destruct (a o) as [o1 [[]|e|p]], (a' o) as [o2 [[]|e'|p']]; cbn [fst snd] in *;
      destruct Ha as [Ha|[Ha1 Ha2]]; try discriminate; try contradiction; subst; auto.
  Qed.
  Lemma sa_err f a b : Same a b -> Same (emap_err f a) (emap_err f b).
  Proof.
    intros Ha o. unfold emap_err. specialize (Ha o). destruct (a o) as [o1 [[]|e|p]], (b o) as [o2 [[]|e'|p']]; cbn [fst snd] in *;
      destruct Ha as [Ha|[Ha1 Ha2]]; try discriminate; try contradiction; subst; auto.
  Qed.
  Lemma sa_items {A} (f g : A -> E) w l : (forall x, Same (f x) (g x)) -> forall i, Same (enc_items f w i l) (enc_items g w i l).
  Proof. intros H. induction l as [|x l IH]; intros i; cbn [enc_items]; [apply sa_refl|]. apply sa_seq; [apply sa_err, H | apply IH]. Qed.
  Lemma sa_run fs : Forall (fun f => forall g, Known f g -> forall p, Same (wform checks f p) (wform checks g p)) fs ->
    forall gs, all2 (map Known fs) gs -> forall ps, Same (run (map (wform checks) fs) ps) (run (map (wform checks) gs) ps).
  Proof.
    induction 1 as [|f fs Hf _ IH]; intros [|g gs] H; cbn [map all2] in H; try contradiction; intros ps; [apply sa_refl|]. destruct H as [H1 H2].
    destruct ps as [|p ps]; cbn [map]; [apply sa_stuck|]. destruct p; cbn [run]; try apply sa_refl; apply sa_seq; auto.
  Qed.
  Lemma sa_known f : forall g, Known f g -> forall p, Same (wform checks f p) (wform checks g p).
  Proof.
    induction f using form_ind_strong; intros g Hg p; destruct g; cbn [Known] in Hg; try contradiction; destruct p; cbn [wform]; try apply sa_stuck;
      try apply sa_refl.
    - destruct Hg as [->|[(i & -> & ->)|(m & n & -> & -> & _)]]; [apply sa_refl | |]; destruct v; cbn [encode]; first [apply sa_stuck | apply sa_refl].
    - destruct Hg as [H1 H2]. apply sa_seq; [apply sa_refl|]. destruct s; apply sa_run; assumption.
    - apply sa_seq; [apply sa_refl|]. apply sa_items. intros x. apply sa_run; assumption.
    - destruct Hg as [-> Hg]. pose proof (proj1 (choice_known _ _) Hg) as Hg2; clear Hg; rename Hg2 into Hg. apply sa_seq; [apply sa_refl|]. rewrite !assoc_map.
      destruct (assoc d vs) as [fs|] eqn:E; cbn [option_map]; [|apply sa_stuck].
      destruct (Hg _ _ E) as (gs & E' & Hk). apply assoc_in in E. rewrite Forall_forall in H. rewrite E'. cbn [option_map].
      apply sa_run; [apply (H _ E) | exact Hk].
  Qed.
End Writing.

Lemma C108_writes_lemma checks t t' v v' o : Understands false t' t -> wt t v -> wt t' v' -> content false t v = content false t' v' ->
  output_position o <= output_capacity o ->
  fst (encode checks t' v' o) = fst (encode checks t v o) /\
  match snd (encode checks t v o) with
  | Ok _ => snd (encode checks t' v' o) = Ok tt
  | Err e => exists e', snd (encode checks t' v' o) = Err e'
  | Panic p => snd (encode checks t' v' o) = Panic p
  end.
Proof.
  intros Hu Hv Hv' Ec Ho. destruct (writes checks t v Hv) as [_ H1], (writes checks t' v' Hv') as [_ H2]. rewrite Ec in H1.
  assert (Hs : Same (run (map (wform checks) (forms false t)) (content false t' v')) (run (map (wform checks) (forms false t')) (content false t' v'))).
  { apply sa_run; [|exact Hu]. apply Forall_forall. intros f _. apply sa_known. }
  specialize (H1 o). specialize (H2 o). specialize (Hs o).
  assert (Hn : snd (encode checks t v o) <> Panic PStuck).
  { destruct (@C09_lemma checks t v Hv) as (bs & r & Hr & H). destruct (H o Ho) as [Ha Hb].
    destruct (Nat.le_gt_cases (length bs) (output_remaining o)) as [Hl|Hl].
    - destruct (Ha Hl) as (o' & E & _). rewrite E. cbn [snd]. destruct Hr as [->|[[e ->]|[-> _]]]; discriminate.
    - destruct (Hb Hl) as (o' & e & E & _). rewrite E. discriminate. }
  destruct H1 as [F1 S1], H2 as [F2 S2]. destruct Hs as [Hs|[F3 S3]].
  - rewrite Hs in S1. destruct (snd (encode checks t v o)); try contradiction. subst. contradiction Hn. reflexivity.
  - split; [congruence|].
    destruct (snd (encode checks t v o)) as [[]|e|p], (snd (run (map (wform checks) (forms false t)) _ o)) as [[]|e1|p1],
      (snd (run (map (wform checks) (forms false t')) _ o)) as [[]|e2|p2], (snd (encode checks t' v' o)) as [[]|e3|p3]; try contradiction; eauto. congruence.
Qed.

(* ---- which types *)

Lemma all2_map_refl fs : Forall (fun f => Known f f) fs -> all2 (map Known fs) fs.
Proof. induction 1; cbn [map all2]; auto. Qed.
Lemma known_refl f : Known f f.
Proof.
  induction f using form_ind_strong; cbn [Known]; auto using all2_map_refl. split; [reflexivity|]. apply choice_known.
  intros d fs E. exists fs. split; [exact E|]. apply assoc_in in E. rewrite Forall_forall in H. apply all2_map_refl, (H _ E).
Qed.
Lemma all_known fs : all2 (map Known fs) fs.
Proof. apply all2_map_refl, Forall_forall. intros f _. apply known_refl. Qed.
Lemma known_app a a' b b' : all2 (map Known a) a' -> all2 (map Known b) b' -> all2 (map Known (a ++ b)) (a' ++ b').
Proof.
  revert a'. induction a as [|x a IH]; intros [|y a'] Ha Hb; cbn [map all2 app] in *; try contradiction; auto. destruct Ha. split; auto.
Qed.
Lemma understands_refl reading t : Understands reading t t.
Proof. apply all_known. Qed.

Lemma C108_like_lemma reading t t' : forms reading t = forms reading t' -> Understands reading t' t.
Proof. intros E. unfold Understands. rewrite E. apply all_known. Qed.

Lemma C108_inside_lemma reading t t' : Understands reading t' t ->
  Understands reading (TOption t') (TOption t) /\ Understands reading (TVec t') (TVec t) /\ Understands reading (TLinked t') (TLinked t) /\
  (forall w, Understands reading (TWrap w t') (TWrap w t)) /\ (forall n, Understands reading (TArray t' n) (TArray t n)) /\
  (forall e e', Understands reading e' e -> Understands reading (TResult t' e') (TResult t e)) /\
  (forall pre post, Understands reading (TTuple (pre ++ t' :: post)) (TTuple (pre ++ t :: post))) /\
  (forall pre post, Understands reading (TStruct (pre ++ t' :: post)) (TStruct (pre ++ t :: post))).
Proof.
  unfold Understands. intros H. cbn [forms map all2 Known]. repeat split; intros; auto using all_known.
  - induction n as [|n IH]; cbn [repeat concat map all2]; [exact I | apply known_app; assumption].
  - rewrite !flat_map_app. cbn [flat_map]. apply known_app; [apply all_known | apply known_app; [exact H | apply all_known]].
  - rewrite !flat_map_app. cbn [flat_map]. apply known_app; [apply all_known | apply known_app; [exact H | apply all_known]].
Qed.

Lemma assoc_nth_inv {A} ds : forall d (xs : list A) x, assoc d (combine ds xs) = Some x -> exists k, nth_error ds k = Some d /\ nth_error xs k = Some x.
Proof.
  induction ds as [|d' ds IH]; intros d [|y xs] x; cbn [combine assoc]; try discriminate.
  destruct (Z.eqb_spec d d') as [->|]; [intros [= ->]; exists 0; split; reflexivity | intros H; destruct (IH _ _ _ H) as [k Hk]; exists (S k); exact Hk].
Qed.

Lemma C108_enum_lemma reading r vs vs' : enum_ok r vs -> enum_ok r vs' ->
  (forall k d e ts, Assigned (map fst vs) k d -> nth_error vs k = Some (e, ts) ->
     exists k' e' ts', Assigned (map fst vs') k' d /\ nth_error vs' k' = Some (e', ts') /\ Understands reading (TTuple ts') (TTuple ts)) ->
  Understands reading (TEnum r vs') (TEnum r vs).
Proof.
  unfold enum_ok. destruct (discriminants (map fst vs)) as [ds|] eqn:Ed; [|contradiction].
  destruct (discriminants (map fst vs')) as [ds'|] eqn:Ed'; [|contradiction]. intros [_ Hn] [_ Hn'] H.
  unfold Understands. cbn [forms]. rewrite Ed, Ed'. cbn [map all2]. split; [|exact I]. cbn [Known]. split; [reflexivity|]. apply choice_known.
  intros d fs E. apply assoc_nth_inv in E. destruct E as (k & Hk & Hf). rewrite nth_error_map in Hf.
  destruct (nth_error vs k) as [[e ts]|] eqn:Ev; [|discriminate]. injection Hf as <-.
  destruct (H k d e ts) as (k' & e' & ts' & Ha & Hv & Hu); [apply (@discriminants_assigned _ _ _ _ Ed); exact Hk | exact Ev|].
  exists (flat_map (forms reading) ts'). split; [|exact Hu].
  apply assoc_nth with (i := k'); [exact Hn' | apply (@discriminants_assigned _ _ _ _ Ed'); exact Ha | rewrite nth_error_map, Hv; reflexivity].
Qed.

Lemma C108_reordered_lemma reading r vs vs' : enum_ok r vs -> Permutation vs vs' -> (forall x, In x vs -> fst x <> None) ->
  enum_ok r vs' /\ Understands reading (TEnum r vs') (TEnum r vs) /\ Understands reading (TEnum r vs) (TEnum r vs').
Proof.
  intros Hok Hp He.
  assert (He' : forall x, In x vs' -> fst x <> None) by (intros x Hx; apply He, (Permutation_in _ (Permutation_sym Hp) Hx)).
  assert (X : forall prev l, (forall x : option Z * list ty, In x l -> fst x <> None) ->
    discriminants_from prev (map fst l) = Some (map (fun x => match fst x with Some d => d | None => 0%Z end) l)).
  { intros prev l. revert prev. induction l as [|[[d|] ts] l IH]; intros prev Hl; [reflexivity | | contradiction (Hl (None, ts)); [left; reflexivity | reflexivity]].
    cbn [map fst discriminants_from next_discriminant]. rewrite IH by (intros x Hx; apply Hl; right; exact Hx). reflexivity. }
  assert (Hok' : enum_ok r vs').
  { unfold enum_ok, discriminants in *. rewrite (X None vs He) in Hok. rewrite (X None vs' He'). destruct Hok as [Hf Hn]. split.
    - rewrite Forall_forall in *. intros d Hd. apply Hf. apply (Permutation_in _ (Permutation_sym (Permutation_map _ Hp)) Hd).
    - apply (Permutation_NoDup (Permutation_map _ Hp) Hn). }
  split; [exact Hok'|].
  assert (Y : forall l l' : list (option Z * list ty), Permutation l l' -> (forall x, In x l -> fst x <> None) -> enum_ok r l -> enum_ok r l' -> Understands reading (TEnum r l') (TEnum r l)).
  { intros l l' Hl Hx Ho Ho'. apply C108_enum_lemma; [exact Ho | exact Ho'|]. intros k d e ts Ha Hk.
    pose proof (nth_error_In _ _ Hk) as Hi. pose proof (Hx _ Hi) as Hs. cbn [fst] in Hs. destruct e as [d'|]; [|contradiction].
    assert (d' = d).
    { assert (Hm : nth_error (map fst l) k = Some (Some d')) by (rewrite nth_error_map, Hk; reflexivity).
      inversion Ha; subst; congruence. }
    subst d'. apply (Permutation_in _ Hl) in Hi. apply In_nth_error in Hi. destruct Hi as [k' Hk']. exists k', (Some d), ts.
    split; [constructor; rewrite nth_error_map, Hk'; reflexivity|]. split; [exact Hk' | apply understands_refl]. }
  split; [apply Y; assumption | apply Y; [apply Permutation_sym | | |]; assumption].
Qed.

Lemma C108_longer_lemma ts more : UnderstandsHead (length (forms true (TStruct ts))) (TStruct ts) (TStruct (ts ++ more)) /\
  UnderstandsHead (length (forms true (TTuple ts))) (TTuple ts) (TTuple (ts ++ more)).
Proof.
  unfold UnderstandsHead. cbn [forms]. rewrite flat_map_app, firstn_app, Nat.sub_diag, firstn_O, app_nil_r, firstn_all. split; apply all_known.
Qed.

Lemma C108_leaf_lemma : (forall i, Understands true (TInt i) (TNonZero i)) /\ (forall m n, m <= n -> Understands true (TSizedStr n) (TSizedStr m)).
Proof.
  unfold Understands. split; intros; cbn [forms map all2 Known]; (split; [|exact I]); right; [left; exists i; auto | right; exists m, n; auto].
Qed.

Lemma C108_removed_lemma checks r vs vs' k fs d bs : enum_ok r vs -> enum_ok r vs' -> wt (TEnum r vs) (VEnum k fs) -> Assigned (map fst vs) k d ->
  (forall k', ~ Assigned (map fst vs') k' d) -> Appends (encode checks (TEnum r vs) (VEnum k fs)) bs (Ok tt) ->
  exists db rest, bs = db ++ rest /\ Refuses (decode (TEnum r vs')) db (DUnassigned r d).
Proof.
  intros Hok Hok' Hv Hd Hno Ha. apply C39_encode_lemma in Ha; [|exact Hok]. destruct Ha as (e & ts & d1 & db & bss & Hn & Has & Hdb & _ & ->).
  unfold enum_ok in Hok. destruct (discriminants (map fst vs)) as [ds|] eqn:Ed; [|contradiction].
  pose proof (proj2 (@discriminants_assigned _ _ k d Ed) Hd) as E1. pose proof (proj2 (@discriminants_assigned _ _ k d1 Ed) Has) as E2.
  assert (d1 = d) by congruence. subst d1. exists db, (concat bss). split; [reflexivity|].
  assert (Hl : length db = wire_width r). { pose proof (wireint_len Hdb) as Hl. destruct r; cbn in Hl |- *; lia. }
  destruct (@C39_decode_lemma r vs' db Hok' Hl) as (d' & Hin & Hd' & Hc).
  assert (Hdi : in_ity r d). { destruct Hok as [Hf _]. rewrite Forall_forall in Hf. apply Hf. eapply nth_error_In. exact E1. }
  assert (d' = d). { pose proof (P_int Hin Hd' [] []) as P1. pose proof (P_int Hdi Hdb [] []) as P2. rewrite P1 in P2. congruence. }
  subst d'. destruct Hc as [(k' & e' & ts' & _ & Hak & _)|[_ Hr]]; [contradiction (Hno k') | exact Hr].
Qed.

Lemma C108_case_lemma :
  let old := TVec (TEnum U8 [(Some 3%Z, [TNonZero U16]); (Some 7%Z, [])]) in
  let new := TVec (TEnum U8 [(Some 7%Z, []); (Some 1%Z, [TBool]); (Some 3%Z, [TInt U16])]) in
  let bs := [x02; x00; x07; x03; x05; x01] in
  Understands true new old /\ ~ Understands true old new /\
  UnderstandsHead 1 (TStruct [new]) (TStruct [old; TString]) /\
  Yields (decode old) bs (VSeq [VEnum 1 []; VEnum 0 [VInt 261]]) /\ Yields (decode new) bs (VSeq [VEnum 0 []; VEnum 2 [VInt 261]]) /\
  content true old (VSeq [VEnum 1 []; VEnum 0 [VInt 261]]) = content true new (VSeq [VEnum 0 []; VEnum 2 [VInt 261]]) /\
  Yields (decode (TStruct [new])) bs (VTuple [VSeq [VEnum 0 []; VEnum 2 [VInt 261]]]) /\
  Yields (decode (TStruct [old; TString])) (bs ++ [x01; x00; x61]) (VTuple [VSeq [VEnum 1 []; VEnum 0 [VInt 261]]; VStr [x61]]) /\
  Refuses (decode old) [x01; x00; x01] (DItem 0 (DUnassigned U8 1)).
Proof.
  assert (H : Understands true (TVec (TEnum U8 [(Some 7%Z, []); (Some 1%Z, [TBool]); (Some 3%Z, [TInt U16])])) (TVec (TEnum U8 [(Some 3%Z, [TNonZero U16]); (Some 7%Z, [])]))).
  { cbn. repeat split; auto. right. left. exists U16. auto. }
  cbv zeta. split; [exact H|]. split; [|split; [|split; [|split; [|split; [|split; [|split]]]]]].
  - cbn. intros [[[_ [_ [H2 _]]] _] _]. exact (H2 eq_refl).
  - cbn in *. exact H.
  - apply yields_by_run. vm_compute. reflexivity.
  - apply yields_by_run. vm_compute. reflexivity.
  - vm_compute. reflexivity.
  - apply yields_by_run. vm_compute. reflexivity.
  - apply yields_by_run. vm_compute. reflexivity.
  - apply refuses_by_run. vm_compute. reflexivity.
Qed.
