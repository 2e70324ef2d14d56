(* C104: which values come back from their own encodings. The length of what is read is compared with the length of what was written. *)
From Coq Require Import Lia Permutation.
From Verif Require Import Base BaseFacts Streams Utf8 Types TypesFacts Traits Encode Decode Spec SpecCalls SpecDecode SpecEq SpecWork SpecSurvive
  StreamFacts DecodeLocal WireFacts EncodeFacts RoundTrip EncodeProofs AcceptFacts DecodeProofs ValueProofs WorkProofs PortableProofs.
Set Implicit Arguments.

(* ---- pieces *)

Lemma accepted_pieces t bs vs : AcceptsItems t bs vs -> exists ps, Forall2 (fun v p => Accepts t p v) vs ps /\ bs = concat ps.
Proof.
  revert bs. induction vs as [|v vs IH]; intros bs H; inversion H; subst.
  - exists []. split; [constructor | reflexivity].
  - match goal with G : AcceptsItems t ?y vs |- _ => destruct (IH _ G) as (ps & Hp & ->) end.
    eexists (_ :: ps). split; [constructor; eassumption | reflexivity].
Qed.

Lemma written_pieces ch t vs bs : WireItems ch t vs bs -> exists ps, Forall2 (fun v p => Wire ch t v p) vs ps /\ bs = concat ps.
Proof.
  revert bs. induction vs as [|v vs IH]; intros bs H; inversion H; subst.
  - exists []. split; [constructor | reflexivity].
  - match goal with G : WireItems _ t vs ?y |- _ => destruct (IH _ G) as (ps & Hp & ->) end.
    eexists (_ :: ps). split; [constructor; eassumption | reflexivity].
Qed.
Lemma accepted_entries k v bs l : AcceptsEntries k v bs l ->
  exists ps, Forall2 (fun e p => Accepts k (fst p) (fst e) /\ Accepts v (snd p) (snd e)) l ps /\ bs = concat (map (fun p => fst p ++ snd p) ps).
Proof.
  revert bs. induction l as [|e l IH]; intros bs H; inversion H; subst.
  - exists []. split; [constructor | reflexivity].
  - match goal with G : AcceptsEntries k v ?y l |- _ => destruct (IH _ G) as (ps & Hp & ->) end.
    eexists ((_, _) :: ps). split; [constructor; [split; cbn [fst snd]; eassumption | exact Hp] | cbn [map concat fst snd]; rewrite app_assoc; reflexivity].
Qed.
Lemma written_entries ch k v bs l : WireEntries ch k v l bs ->
  exists ps, Forall2 (fun e p => Wire ch k (fst e) (fst p) /\ Wire ch v (snd e) (snd p)) l ps /\ bs = concat (map (fun p => fst p ++ snd p) ps).
Proof.
  revert bs. induction l as [|e l IH]; intros bs H; inversion H; subst.
  - exists []. split; [constructor | reflexivity].
  - match goal with G : WireEntries _ k v l ?y |- _ => destruct (IH _ G) as (ps & Hp & ->) end.
    eexists ((_, _) :: ps). split; [constructor; [split; cbn [fst snd]; eassumption | exact Hp] | cbn [map concat fst snd]; rewrite app_assoc; reflexivity].
Qed.

Lemma forall2_permutation {A B} (R : A -> B -> Prop) l l' : Permutation l l' -> forall m, Forall2 R l m -> exists m', Permutation m m' /\ Forall2 R l' m'.
Proof.
  induction 1 as [|x l l' _ IH|x y l|l l1 l2 _ IH1 _ IH2]; intros m H.
  - inversion H. exists []. split; constructor.
  - inversion H; subst. destruct (IH _ H4) as (m' & Hp & Hm). eexists. split; [apply perm_skip, Hp | constructor; assumption].
  - inversion H; subst. inversion H4; subst. eexists. split; [apply perm_swap | repeat (constructor; try assumption)].
  - destruct (IH1 _ H) as (m1 & P1 & H1). destruct (IH2 _ H1) as (m2 & P2 & H2). exists m2. split; [eapply perm_trans; eassumption | exact H2].
Qed.

Lemma length_concat_permutation {A} (l m : list (list A)) : Permutation l m -> length (concat l) = length (concat m).
Proof. intros H. induction H; cbn [concat]; rewrite ?app_length in *; lia. Qed.

(* of the keys read into a set, some pieces remain *)
Lemma addall_pieces {K P} (R : K -> list P -> Prop) s l s' : AddAll s l s' -> forall qs ps, Forall2 R s qs -> Forall2 R l ps ->
  exists qs', Forall2 R s' qs' /\ length (concat qs') <= length (concat qs) + length (concat ps).
Proof.
  induction 1 as [s|s k l s' _ _ IH|s k l s' _ _ IH]; intros qs ps Hq Hp.
  - exists qs. split; [exact Hq | lia].
  - inversion Hp as [|? p ? ps' Hk Hl]; subst. destruct (IH (qs ++ [p]) ps') as (qs' & H1 & H2); [apply Forall2_app; [exact Hq | repeat constructor; exact Hk] | exact Hl|].
    exists qs'. split; [exact H1|]. rewrite concat_app, app_length in H2. cbn [concat] in *. rewrite app_length in *. cbn [length] in *. lia.
  - inversion Hp as [|? p ? ps' Hk Hl]; subst. destruct (IH qs ps' Hq Hl) as (qs' & H1 & H2). exists qs'. split; [exact H1|]. cbn [concat]. rewrite app_length. lia.
Qed.

Definition sizes {P} (ps : list (list P * list P)) : nat := length (concat (map (fun p => fst p ++ snd p) ps)).
Lemma sizes_cons {P} (p : list P * list P) ps : sizes (p :: ps) = length (fst p) + length (snd p) + sizes ps.
Proof. unfold sizes. cbn [map concat]. rewrite !app_length. lia. Qed.
Lemma sizes_app {P} (a b : list (list P * list P)) : sizes (a ++ b) = sizes a + sizes b.
Proof. unfold sizes. rewrite map_app, concat_app, app_length. reflexivity. Qed.

Lemma putall_pieces {K V P} (R : K -> list P -> Prop) (Q : V -> list P -> Prop) m l m' : PutAll m l m' -> forall qs ps,
  Forall2 (fun e p => R (fst e) (fst p) /\ Q (snd e) (snd p)) m qs -> Forall2 (fun e p => R (fst e) (fst p) /\ Q (snd e) (snd p)) l ps ->
  exists qs', Forall2 (fun e p => R (fst e) (fst p) /\ Q (snd e) (snd p)) m' qs' /\ sizes qs' <= sizes qs + sizes ps.
Proof.
  induction 1 as [m|m k v m1 l m2 Hput _ IH]; intros qs ps Hq Hp.
  - exists qs. split; [exact Hq | lia].
  - inversion Hp as [|? p ? ps' [Hk Hv] Hl]; subst. cbn [fst snd] in *. rewrite sizes_cons. destruct Hput as [m Hn|a v' b Hn].
    + destruct (IH (qs ++ [p]) ps') as (qs' & H1 & H2); [apply Forall2_app; [exact Hq | repeat constructor; assumption] | exact Hl|].
      exists qs'. split; [exact H1|]. rewrite sizes_app, sizes_cons in H2. unfold sizes in H2 at 3. cbn in H2. lia.
    + destruct (Forall2_app_inv_l _ _ Hq) as (qa & qb & Ha & Hb & ->). inversion Hb as [|? q ? qb' [Hk' Hv'] Hb']; subst. cbn [fst snd] in *.
      destruct (IH (qa ++ (fst q, snd p) :: qb') ps') as (qs' & H1 & H2); [apply Forall2_app; [exact Ha | constructor; [split; assumption | exact Hb']] | exact Hl|].
      exists qs'. split; [exact H1|]. rewrite sizes_app, sizes_cons in *. cbn [fst snd] in *. lia.
Qed.

Lemma Forall2_split {A B} (R : A -> B -> Prop) l m : Forall2 R l m -> forall n, Forall2 R (firstn n l) (firstn n m) /\ Forall2 R (skipn n l) (skipn n m).
Proof.
  induction 1 as [|x y l m Hx _ IH]; intros n; destruct n; cbn; repeat split; try constructor; try assumption; try (apply IH).
  rewrite <- (firstn_skipn 0 l), <- (firstn_skipn 0 m). apply (IH 0).
Qed.

Lemma forall2_length {A B} (R : A -> B -> Prop) l m : Forall2 R l m -> length l = length m.
Proof. induction 1; cbn; congruence. Qed.

(* ---- what is read for a value is no shorter than what is written for it *)

Definition NoShorter (ch : bool) (t : ty) : Prop := forall bs v' b v, Accepts (owned t) bs v' -> Wire ch t v b -> SameValue t v' v ->
  length b <= length bs /\ (length b = length bs -> Survives t v).

Lemma accepts_owned t bs v : Accepts t bs v -> Accepts (owned t) bs v.
Proof. intros H. destruct t; try exact H; inversion H. Qed.

Lemma no_shorter_items ch t : NoShorter ch t -> forall vs' ps, Forall2 (fun v p => Accepts t p v) vs' ps ->
  forall vs qs, Forall2 (fun v p => Wire ch t v p) vs qs -> Forall2 (SameValue t) vs' vs ->
  length (concat qs) <= length (concat ps) /\ (length (concat qs) = length (concat ps) -> Forall (Survives t) vs).
Proof.
  intros HL vs' ps Ha. induction Ha as [|v' p vs' ps Hv _ IH]; intros vs qs Hw Hs; inversion Hs; subst.
  - inversion Hw; subst. split; [cbn; lia | constructor].
  - inversion Hw; subst. cbn [concat]. rewrite !app_length.
    match goal with H : Wire _ _ _ ?q, G : SameValue _ _ _, I : Forall2 (SameValue t) _ _ , J : Forall2 _ _ ?qs |- _ =>
      destruct (HL _ _ _ _ (accepts_owned Hv) H G) as [L1 L2]; destruct (IH _ _ J I) as [M1 M2] end.
    split; [lia|]. intros E. constructor; [apply L2 | apply M2]; lia.
Qed.

Lemma no_shorter_fields ch ts : Forall (NoShorter ch) ts -> forall bs vs', AcceptsFields ts bs vs' -> forall vs b, WireFields ch ts vs b -> all3 (map SameValue ts) vs' vs ->
  length b <= length bs /\ (length b = length bs -> all2 (map Survives ts) vs).
Proof.
  induction 1 as [|t ts HL _ IH]; intros bs vs' Ha vs b Hw Hs; inversion Ha; subst; inversion Hw; subst.
  - split; [lia | intros _; exact I].
  - cbn [map all3] in Hs. destruct Hs as [S1 S2]. rewrite !app_length.
    match goal with H : Wire _ t _ _, G : Accepts t _ _, I : AcceptsFields ts _ _, J : WireFields _ ts _ _ |- _ =>
      destruct (HL _ _ _ _ (accepts_owned G) H S1) as [L1 L2]; destruct (IH _ _ I _ _ J S2) as [M1 M2] end.
    split; [lia|]. intros E. split; [apply L2 | apply M2]; lia.
Qed.

Lemma wireint_size i z bs : WireInt i z bs -> length bs = wire_width i.
Proof. intros H. destruct H; match goal with H : le_repr _ _ _ |- _ => apply le_repr_length in H; rewrite H end; try reflexivity. destruct i; (reflexivity || congruence). Qed.

Lemma accepts_octets :
  (forall t bs v, Accepts t bs v -> bit (nonempty t) <= length bs) /\
  (forall ts bs vs, AcceptsFields ts bs vs -> bit (existsb nonempty ts) <= length bs) /\
  (forall t bs vs, AcceptsItems t bs vs -> length vs * bit (nonempty t) <= length bs) /\
  (forall k v bs l, AcceptsEntries k v bs l -> True).
Proof.
  apply (@Accepts_mutind (fun t bs v _ => bit (nonempty t) <= length bs) (fun ts bs vs _ => bit (existsb nonempty ts) <= length bs)
    (fun t bs vs _ => length vs * bit (nonempty t) <= length bs) (fun k v bs l _ => True)); intros;
    repeat match goal with H : le_repr _ _ _ |- _ => apply le_repr_length in H | H : WireInt _ _ _ |- _ => apply wireint_length in H
      | H : WireLen _ _ |- _ => apply wirelen_length in H end;
    cbn [nonempty existsb length] in *; rewrite ?app_length, ?rev_length in *; cbn [bit length] in *; try exact I; try lia.
  - subst n. destruct vs, (nonempty t); cbn in *; lia.
  - rewrite owned_nonempty in H. exact H.
  - destruct (nonempty t), (existsb nonempty ts); cbn [bit orb] in *; lia.
Qed.
Lemma accepts_nonempty t x : Accepts t [] x -> nonempty t = false.
Proof. intros H. apply (proj1 accepts_octets) in H. destruct (nonempty t); [cbn in H; lia | reflexivity]. Qed.

Lemma no_shorter ch t : NoShorter ch t.
Proof.
  induction t using ty_ind_strong; intros bs v' b v Ha Hw Hs; cbn [owned] in Ha; inversion Hw; subst; inversion Ha; subst; cbn [SameValue] in Hs; try discriminate Hs; try (destruct Hs; fail).
  all: repeat match goal with
    | H : le_repr _ _ _ |- _ => apply le_repr_length in H
    | H : WireLen _ _ |- _ => apply wirelen_length in H
    | H : WireInt _ _ _ |- _ => apply wireint_size in H
    end.
  all: repeat match goal with H : AcceptsItems _ _ _ |- _ => apply accepted_pieces in H; destruct H as (?ps & ? & ->) 
     | H : WireItems _ _ _ _ |- _ => apply written_pieces in H; destruct H as (?qs & ? & ->) end.
  all: cbn [Survives].
  all: cbn [length] in *; rewrite ?app_length, ?rev_length in *; cbn [length] in *.
  all: try (split; [lia | intros _; exact I]).
  all: try (match goal with IH : NoShorter _ ?t, A : Accepts ?t _ _, W : Wire _ ?t _ _ |- _ =>
     destruct (IH _ _ _ _ (accepts_owned A) W Hs) as [L1 L2]; split; [lia | intros; apply L2; lia] end).
  all: try (match goal with IH : NoShorter _ ?t, A : Forall2 _ _ _, W : Forall2 _ _ _ |- _ =>
     destruct (no_shorter_items IH A W Hs) as [L1 L2]; split; [lia | intros; apply L2; lia] end).
  all: try (match goal with IH : Forall _ ?ts, A : AcceptsFields _ _ _, W : WireFields _ _ _ _ |- _ =>
     destruct (no_shorter_fields IH A W Hs) as [L1 L2]; split; [lia | intros; apply L2; lia] end).
  all: try (injection Hs; intros; subst; split; [lia | intros _; exact I]).
  - (* SizedSlice *)
    rename vs0 into xs. destruct (Forall2_split H len) as [Hk Hr].
    destruct (no_shorter_items IHt Hk H0 Hs) as [L1 L2].
    assert (E : length (concat ps) = length (concat (firstn len ps)) + length (concat (skipn len ps))) by (rewrite <- app_length, <- concat_app, firstn_skipn; reflexivity).
    split; [lia|]. intros Hl. split; [|apply L2; lia].
    pose proof (forall2_length Hs) as Hlen. rewrite firstn_length in Hlen.
    destruct (Nat.eq_dec len (length xs)) as [->|Hne]; [left; lia|]. right.
    remember (skipn len xs) as rest eqn:Er. destruct Hr as [|x q rest' qs' Hx _].
    + apply (f_equal (@length _)) in Er. rewrite skipn_length in Er. cbn in Er. lia.
    + cbn [concat] in E. rewrite app_length in E. assert (q = []) by (apply length_zero_iff_nil; lia). subst q. exact (accepts_nonempty Hx).
  - (* Cow *) match goal with A : Accepts (owned t) _ _, W : Wire _ t _ _ |- _ => exact (IHt _ _ _ _ A W Hs) end.
  - (* SystemTime *) injection Hs; intros; subst. split; [lia | reflexivity].
  - (* Range *) destruct Hs as [S1 S2].
    match goal with A : Accepts t ?x0 ?a0, B : Accepts t ?y0 ?b0, W : Wire _ t ?a ?x, X : Wire _ t ?b ?y, S1 : SameValue t ?a0 ?a, S2 : SameValue t ?b0 ?b |- _ =>
      destruct (IHt _ _ _ _ (accepts_owned A) W S1) as [L1 L2]; destruct (IHt _ _ _ _ (accepts_owned B) X S2) as [M1 M2] end.
    split; [lia|]. intros E. split; [apply L2 | apply M2]; lia.
  - (* RangeInclusive *) destruct Hs as (S1 & S2 & S3).
    match goal with A : Accepts t ?x0 ?a0, B : Accepts t ?y0 ?b0, W : Wire _ t ?a ?x, X : Wire _ t ?b ?y, S1 : SameValue t ?a0 ?a, S2 : SameValue t ?b0 ?b |- _ =>
      destruct (IHt _ _ _ _ (accepts_owned A) W S1) as [L1 L2]; destruct (IHt _ _ _ _ (accepts_owned B) X S2) as [M1 M2] end.
    split; [lia|]. intros E. split; [symmetry; exact S3 | split; [apply L2 | apply M2]; lia].
  - (* HashMap *) destruct Hs as (l' & Hperm & Hall).
    match goal with A : AcceptsEntries _ _ _ _, P : PutAll _ _ _, W : WireEntries _ _ _ _ _ |- _ =>
      destruct (accepted_entries A) as (ps & Hps & ->); destruct (written_entries W) as (ws & Hws & ->);
      destruct (putall_pieces (fun v p => Accepts t1 p v) (fun v p => Accepts t2 p v) P (Forall2_nil _) Hps) as (qs & Hqs & Hle) end.
    destruct (forall2_permutation Hperm Hqs) as (qs' & Hp & Hqs').
    assert (Hlen : length (concat (map (fun p => fst p ++ snd p) ws)) <= sizes qs').
    { clear - IHt1 IHt2 Hqs' Hws Hall. revert ws Hws l' qs' Hqs' Hall.
      induction kvs as [|e kvs IH]; intros ws Hws l' qs' Hqs' Hall; inversion Hws; subst; [cbn; lia|].
      inversion Hall; subst. inversion Hqs'; subst. rewrite sizes_cons. cbn [map concat]. rewrite !app_length.
      repeat match goal with H : _ /\ _ |- _ => destruct H end.
      match goal with A : Accepts t1 _ _, W : Wire _ t1 _ _, S : SameValue t1 _ _ |- _ => destruct (IHt1 _ _ _ _ (accepts_owned A) W S) as [L1 _] end.
      match goal with A : Accepts t2 _ _, W : Wire _ t2 _ _, S : SameValue t2 _ _ |- _ => destruct (IHt2 _ _ _ _ (accepts_owned A) W S) as [M1 _] end.
      match goal with A : Forall2 _ kvs _, B : Forall2 _ _ kvs, C : Forall2 (fun _ _ => Accepts _ _ _ /\ _) _ _ |- _ => pose proof (IH _ A _ _ C B) end. lia. }
    assert (Hsz : sizes qs = sizes qs') by (apply length_concat_permutation, Permutation_map, Hp).
    change (sizes (@nil (list byte * list byte))) with 0 in Hle. unfold sizes in *. lia.
  - (* HashSet *) destruct Hs as (l' & Hperm & Hall).
    match goal with A : Forall2 (fun _ _ => Accepts _ _ _) _ _, P : AddAll _ _ _, W : Forall2 (fun _ _ => Wire _ _ _ _) _ _ |- _ =>
      destruct (addall_pieces P (Forall2_nil _) A) as (qs' & Hqs & Hle);
      destruct (forall2_permutation Hperm Hqs) as (qs'' & Hp & Hqs');
      destruct (no_shorter_items IHt Hqs' W Hall) as [L1 _] end.
    apply length_concat_permutation in Hp. cbn [concat length] in Hle. lia.
  - (* enumerations *) destruct Hs as [<- Hs].
    match goal with A : nth_error vs _ = Some _, B : nth_error vs _ = Some _ |- _ => rewrite A in B; injection B; intros; subst end.
    match goal with A : nth_error vs _ = Some _ |- _ =>
      rewrite (nth_error_map_some (fun x => map SameValue (snd x)) _ _ A) in Hs; rewrite (nth_error_map_some (fun x => map Survives (snd x)) _ _ A);
      pose proof (nth_error_In _ _ A) as Hin end. cbn [snd] in *.
    rewrite Forall_forall in H. specialize (H _ Hin). cbn [snd] in H.
    match goal with A : AcceptsFields _ _ _, W : WireFields _ _ _ _ |- _ => destruct (no_shorter_fields H A W Hs) as [L1 L2] end.
    split; [lia|]. intros E. apply L2. lia.
Qed.

(* ---- the converse *)

Definition ComesBack (ch : bool) (t : ty) : Prop := forall v b, dec_ety (owned t) <> None -> wt t v -> Wire ch t v b -> Survives t v ->
  exists v', Accepts (owned t) b v' /\ SameValue t v' v.

Lemma dec_sized t : dec_ety t <> None -> owned t = t.
Proof. destruct t; cbn; congruence. Qed.

Lemma comes_back_sized ch t v b : ComesBack ch t -> dec_ety t <> None -> wt t v -> Wire ch t v b -> Survives t v -> exists v', Accepts t b v' /\ SameValue t v' v.
Proof. intros H Hd Hw Hb Hs. pose proof (H v b) as H'. rewrite (@dec_sized t Hd) in H'. auto. Qed.

Lemma dec_coll f t : option_map (fun e : dety => f e : dety) (dec_ety t) <> None -> dec_ety t <> None.
Proof. destruct (dec_ety t); cbn; congruence. Qed.
Lemma dec_tuple ts : dec_ety (TTuple ts) <> None -> Forall (fun t => dec_ety t <> None) ts.
Proof.
  cbn [dec_ety]. destruct ts as [|t ts]; cbn [map]; [congruence|]. destruct (dec_ety t) as [e|] eqn:E; [|congruence].
  intros H. constructor; [congruence|]. destruct (all_same_d (map dec_ety ts) e) eqn:Ea; [|congruence]. clear H.
  revert Ea. induction ts as [|u ts IH]; cbn [map all_same_d]; intros Ea; constructor; destruct (dec_ety u); try discriminate.
  - apply IH. apply andb_true_iff in Ea. tauto.
Qed.
Lemma dec_generic ts : all_generic_d (map dec_ety ts) = true -> Forall (fun t => dec_ety t <> None) ts.
Proof.
  induction ts as [|u ts IH]; cbn [map all_generic_d]; intros Ea; constructor; destruct (dec_ety u); try discriminate.
  apply IH. apply andb_true_iff in Ea. tauto.
Qed.

Lemma comes_back_items ch t : ComesBack ch t -> dec_ety t <> None -> forall vs qs, Forall2 (fun v p => Wire ch t v p) vs qs -> Forall (wt t) vs -> Forall (Survives t) vs ->
  exists vs', AcceptsItems t (concat qs) vs' /\ Forall2 (SameValue t) vs' vs.
Proof.
  intros HC Hd vs qs H. induction H as [|v q vs qs Hv _ IH]; intros Hw Hs; inversion Hw; inversion Hs; subst.
  - exists []. split; constructor.
  - destruct IH as (vs' & H1' & H2'); [assumption | assumption|]. edestruct (@comes_back_sized ch t v q HC Hd) as (v' & Ha & Hv'); [eassumption | exact Hv | eassumption|].
    exists (v' :: vs'). split; constructor; assumption.
Qed.

Lemma comes_back_fields ch ts : Forall (ComesBack ch) ts -> Forall (fun t => dec_ety t <> None) ts -> forall vs b, WireFields ch ts vs b -> all2 (map wt ts) vs -> all2 (map Survives ts) vs ->
  exists vs', AcceptsFields ts b vs' /\ all3 (map SameValue ts) vs' vs.
Proof.
  induction 1 as [|t ts HC _ IH]; intros Hd vs b H Hw Hs; inversion H; subst; inversion Hd; subst.
  - exists []. split; [constructor | exact I].
  - cbn [map all2] in Hw, Hs. destruct Hw as [W1 W2], Hs as [S1 S2].
    edestruct IH as (vs' & H1' & H2'); [assumption | eassumption | exact W2 | exact S2|].
    match goal with H : dec_ety t <> None, G : Wire _ t _ _ |- _ => destruct (@comes_back_sized ch t _ _ HC H W1 G S1) as (v' & Ha & Hv') end.
    exists (v' :: vs'). split; [constructor; assumption | split; assumption].
Qed.

Lemma dec_cow b : dec_ety (TCow b) = dec_ety (owned b).
Proof. destruct b; reflexivity. Qed.
Lemma dec_wrap w t : dec_ety (TWrap w t) <> None -> dec_ety t <> None.
Proof. destruct w; cbn; congruence. Qed.
Lemma dec_struct ts : dec_ety (TStruct ts) <> None -> Forall (fun t => dec_ety t <> None) ts.
Proof. cbn [dec_ety]. destruct (all_generic_d (map dec_ety ts)) eqn:E; [intros _; exact (dec_generic _ E) | congruence]. Qed.
Lemma dec_result t e : dec_ety (TResult t e) <> None -> dec_ety t <> None /\ dec_ety e <> None.
Proof. cbn [dec_ety]. destruct (dec_ety t), (dec_ety e); intros; split; congruence. Qed.
Lemma dec_enum r vs i e ts : dec_ety (TEnum r vs) <> None -> nth_error vs i = Some (e, ts) -> Forall (fun t => dec_ety t <> None) ts.
Proof.
  cbn [dec_ety]. destruct (forallb _ vs) eqn:E; [intros _ Hn | congruence]. rewrite forallb_forall in E.
  exact (dec_generic _ (E _ (nth_error_In _ _ Hn))).
Qed.

Lemma empty_fields ts : Forall (fun t => nonempty t = false -> dec_ety t <> None -> exists x, Accepts t [] x) ts -> existsb nonempty ts = false ->
  Forall (fun t => dec_ety t <> None) ts -> exists xs, AcceptsFields ts [] xs.
Proof.
  induction 1 as [|t ts Ht _ IH]; cbn [existsb]; intros Hn Hd; [exists []; constructor|].
  apply orb_false_iff in Hn. destruct Hn as [N1 N2]. inversion Hd; subst.
  destruct Ht as [x Hx]; [assumption | assumption|]. destruct IH as [xs Hxs]; [assumption | assumption|].
  exists (x :: xs). change (@nil byte) with (@nil byte ++ []). constructor; assumption.
Qed.
Lemma empty_items_accepts t x n : Accepts t [] x -> AcceptsItems t [] (repeat x n).
Proof. intros H. induction n; cbn [repeat]; [constructor|]. change (@nil byte) with (@nil byte ++ []). constructor; assumption. Qed.

Lemma empty_accepts t : nonempty t = false -> dec_ety t <> None -> exists x, Accepts t [] x.
Proof.
  induction t using ty_ind_strong; cbn [nonempty]; intros Hn Hd; try discriminate Hn; try (eexists; constructor; fail).
  all: try (destruct (IHt Hn Hd) as [x Hx]; eexists; constructor; exact Hx).
  - destruct (@empty_fields ts H Hn (dec_tuple _ Hd)) as [xs Hxs]. exists (VTuple xs). constructor. exact Hxs.
  - destruct n; [exists (VSeq []); constructor; [reflexivity | constructor]|]. cbn in Hn.
    destruct (IHt Hn (dec_coll _ _ Hd)) as [x Hx]. exists (VSeq (repeat x (S n))). constructor; [apply repeat_length | apply empty_items_accepts, Hx].
  - destruct (IHt Hn (dec_wrap _ _ Hd)) as [x Hx]. eexists; constructor; exact Hx.
  - rewrite dec_cow in Hd. assert (E : owned t = t) by (destruct t; discriminate Hn || reflexivity). rewrite E in Hd.
    destruct (IHt Hn Hd) as [x Hx]. eexists. constructor. rewrite E. exact Hx.
  - destruct (IHt Hn Hd) as [x Hx]. exists (VRange x x). change (@nil byte) with (@nil byte ++ []). constructor; exact Hx.
  - destruct (IHt Hn Hd) as [x Hx]. exists (VRangeInclusive x x false). change (@nil byte) with (@nil byte ++ []). constructor; exact Hx.
  - destruct (@empty_fields ts H Hn (dec_struct _ Hd)) as [xs Hxs]. exists (VTuple xs). constructor. exact Hxs.
Qed.

Lemma accepts_items_app t a b xs ys : AcceptsItems t a xs -> AcceptsItems t b ys -> AcceptsItems t (a ++ b) (xs ++ ys).
Proof. induction 1; intros H'; cbn [app]; [exact H' | rewrite <- app_assoc; constructor; auto]. Qed.

Lemma comes_back ch t : ComesBack ch t.
Proof.
  induction t using ty_ind_strong; intros v b Hd Hw Hb Hs; inversion Hb; subst; cbn [owned] in *; cbn [wt Survives] in Hw, Hs; try (destruct Hs; fail).
  all: try (eexists; split; [constructor; eassumption | solve [reflexivity | left; reflexivity]]).
  all: repeat match goal with H : _ /\ _ |- _ => destruct H end.
  all: try (eexists; split; [constructor; (eassumption || discriminate) | solve [reflexivity | left; reflexivity]]).
  all: try (match goal with IH : ComesBack _ ?t, Hd : dec_ety _ <> None, W : Wire _ ?t ?v ?b, Hw : wt ?t ?v, Hs : Survives ?t ?v |- _ =>
       destruct (@comes_back_sized ch t _ _ IH Hd Hw W Hs) as (v' & Ha & Hv');
       eexists; split; [constructor; first [exact Ha | discriminate] | exact Hv'] end).
  all: try (match goal with |- context [SameValue _ _ ?v] => exists v end; split; [constructor; assumption | reflexivity]).
  - (* char *) exists (VChar c). split; [constructor; [|assumption] | reflexivity].
    unfold is_scalar in Hw. rewrite orb_true_iff, !andb_true_iff, !Z.leb_le in Hw. lia.
  - destruct (dec_result _ _ Hd) as [D _]. destruct (@comes_back_sized ch t1 v0 bs IHt1 D) as (v' & Ha & Hv'); try assumption.
    exists (VOk v'). split; [constructor; exact Ha | exact Hv'].
  - destruct (dec_result _ _ Hd) as [_ D]. destruct (@comes_back_sized ch t2 v0 bs IHt2 D) as (v' & Ha & Hv'); try assumption.
    exists (VErr v'). split; [constructor; [discriminate | exact Ha] | exact Hv'].
  - destruct (@comes_back_fields ch ts H (dec_tuple _ Hd) vs b) as (vs' & Ha & Hv'); try assumption.
    exists (VTuple vs'). split; [constructor; exact Ha | exact Hv'].
  - match goal with W : WireItems _ _ _ _ |- _ => destruct (written_pieces W) as (qs & Hq & ->) end.
    destruct (@comes_back_items ch t IHt (dec_coll _ _ Hd) vs qs) as (vs' & Ha & Hv'); try assumption.
    exists (VSeq vs'). split; [constructor; [exact (forall2_length Hv') | exact Ha] | exact Hv'].
  - match goal with W : WireItems _ _ _ _ |- _ => destruct (written_pieces W) as (qs & Hq & ->) end.
    destruct (@comes_back_items ch t IHt (dec_coll _ _ Hd) vs qs) as (vs' & Ha & Hv'); try assumption.
    exists (VSeq vs'). split; [constructor; [rewrite (forall2_length Hv'); assumption | exact Ha] | exact Hv'].
  - match goal with W : WireItems _ _ _ _ |- _ => destruct (written_pieces W) as (qs & Hq & ->) end.
    destruct (@comes_back_items ch t IHt (dec_coll _ _ Hd) vs qs) as (vs' & Ha & Hv'); try assumption.
    exists (VSeq vs'). split; [constructor; [rewrite (forall2_length Hv'); assumption | exact Ha] | exact Hv'].
  - match goal with W : WireItems _ _ _ _ |- _ => destruct (written_pieces W) as (qs & Hq & ->) end.
    destruct (@comes_back_items ch t IHt (dec_coll _ _ Hd) vs qs) as (vs' & Ha & Hv'); try assumption.
    exists (VSeq vs'). split; [constructor; [rewrite (forall2_length Hv'); assumption | exact Ha] | exact Hv'].
  - (* SizedSlice *)
    match goal with W : WireItems _ _ _ _ |- _ => destruct (written_pieces W) as (qs & Hq & ->) end.
    destruct (@comes_back_items ch t IHt (dec_coll _ _ Hd) vs qs) as (vs' & Ha & Hv'); try assumption.
    pose proof (forall2_length Hv') as Hl. exists (VSeq vs'). split; [|exact Hv'].
    assert (Hpad : exists pad, AcceptsItems t [] pad /\ length (vs' ++ pad) = n).
    { match goal with H : _ = n \/ _ |- _ => destruct H as [E|E] end.
      - exists []. split; [constructor | rewrite app_length; cbn; lia].
      - destruct (empty_accepts t E (dec_coll _ _ Hd)) as [x Hx]. exists (repeat x (n - length vs)). split; [apply empty_items_accepts, Hx | rewrite app_length, repeat_length; lia]. }
    destruct Hpad as (pad & Hp & Hn). pose proof (accepts_items_app Ha Hp) as Hall. rewrite app_nil_r in Hall.
    replace vs' with (firstn (length vs) (vs' ++ pad)) by (rewrite <- Hl, firstn_app, firstn_all, Nat.sub_diag; cbn; apply app_nil_r).
    constructor; try assumption.
  - destruct (@comes_back_sized ch t v0 b IHt (dec_wrap _ _ Hd)) as (v' & Ha & Hv'); try assumption.
    exists (VWrap v'). split; [constructor; exact Ha | exact Hv'].
  - rewrite dec_cow in Hd. destruct (IHt v0 b Hd) as (v' & Ha & Hv'); try assumption.
    exists (VCow true v'). split; [constructor; exact Ha | exact Hv'].
  - (* Duration *) exists (VDuration s n). split; [|reflexivity].
    replace (VDuration s n) with (VDuration (s + n / 1000000000) (n mod 1000000000))%Z by (rewrite Z.div_small, Z.mod_small, Z.add_0_r by lia; reflexivity).
    constructor; try assumption; lia.
  - (* SystemTime *) subst n. exists (VTime s 0). split; [|reflexivity]. constructor; [lia|].
    match goal with H : le_repr 8 _ _ |- _ => unfold time_ns in H; rewrite Z.add_0_r, Z.quot_mul in H by lia; exact H end.
  - destruct (@comes_back_sized ch t a x IHt Hd) as (v1 & A1 & V1); try assumption.
    destruct (@comes_back_sized ch t b0 y IHt Hd) as (v2 & A2 & V2); try assumption.
    exists (VRange v1 v2). split; [constructor; assumption | split; assumption].
  - destruct (@comes_back_sized ch t a x IHt Hd) as (v1 & A1 & V1); try assumption.
    destruct (@comes_back_sized ch t b0 y IHt Hd) as (v2 & A2 & V2); try assumption.
    exists (VRangeInclusive v1 v2 false). split; [constructor; assumption | repeat split; try assumption; symmetry; assumption].
  - destruct (@comes_back_sized ch t v0 bs IHt (dec_coll _ _ Hd)) as (v' & Ha & Hv'); try assumption.
    exists (VIncluded v'). split; [constructor; exact Ha | exact Hv'].
  - destruct (@comes_back_sized ch t v0 bs IHt (dec_coll _ _ Hd)) as (v' & Ha & Hv'); try assumption.
    exists (VExcluded v'). split; [constructor; exact Ha | exact Hv'].
  - destruct (@comes_back_fields ch ts H (dec_struct _ Hd) vs b) as (vs' & Ha & Hv'); try assumption.
    exists (VTuple vs'). split; [constructor; exact Ha | exact Hv'].
  - (* enumerations *)
    match goal with A : nth_error vs _ = Some _ |- _ => rename A into Hn end.
    match goal with A : match nth_error (map (fun x => map wt _) _) _ with _ => _ end |- _ => rewrite (nth_error_map_some (fun x => map wt (snd x)) _ _ Hn) in A end.
    rewrite (nth_error_map_some (fun x => map Survives (snd x)) _ _ Hn) in Hs. cbn [snd] in *.
    rewrite Forall_forall in H. specialize (H _ (nth_error_In _ _ Hn)). cbn [snd] in H.
    destruct (@comes_back_fields ch ts H (@dec_enum _ _ _ _ _ Hd Hn) fs bs) as (vs' & Ha & Hv'); try assumption.
    exists (VEnum i vs'). split; [econstructor; eassumption|].
    cbn [SameValue]. rewrite (nth_error_map_some (fun x => map SameValue (snd x)) _ _ Hn). split; [reflexivity | exact Hv'].
Qed.

Lemma C104_lemma ch t v bs : EnumsOk t -> dec_ety t <> None -> wt t v -> Appends (encode ch t v) bs (Ok tt) ->
  (exists i' v', decode t (input_new bs) = (i', Ok v') /\ SameValue t v' v) <-> Survives t v.
Proof.
  intros He Hd Hw Ha. pose proof (@appends_wire ch t v bs Hw Ha) as Hb. split.
  - intros (i' & v' & Hy & Hv). destruct (@decode_exact t (input_new bs) i' v' He (Nat.le_0_l _) Hy) as (x & post & Hx & -> & Hacc).
    unfold unread, input_new in Hx. cbn [i_buf i_pos skipn] in Hx.
    destruct (no_shorter (accepts_owned Hacc) Hb Hv) as [L1 L2]. apply L2. rewrite Hx in L1 |- *. rewrite app_length in L1 |- *. lia.
  - intros Hs. destruct (@comes_back_sized ch t v bs (@comes_back ch t) Hd Hw Hb Hs) as (v' & Hv & Hs').
    apply (@accepts_iff t He) in Hv. specialize (Hv [] []). cbn [app] in Hv. rewrite app_nil_r in Hv. exists (Input bs (length bs)), v'. split; [exact Hv | exact Hs'].
Qed.

Lemma C104_everywhere ch t v bs : EnumsOk t -> dec_ety t <> None -> wt t v -> Appends (encode ch t v) bs (Ok tt) -> Survives t v ->
  exists v', Yields (decode t) bs v' /\ SameValue t v' v.
Proof.
  intros He Hd Hw Ha Hs. destruct (@comes_back_sized ch t v bs (@comes_back ch t) Hd Hw (@appends_wire ch t v bs Hw Ha) Hs) as (v' & Hv & Hs').
  exists v'. split; [apply (@accepts_iff t He), Hv | exact Hs'].
Qed.

(* ---- `==` is finer *)

Lemma forall2_mono {A B} (R Q : A -> B -> Prop) l m : (forall x y, R x y -> Q x y) -> Forall2 R l m -> Forall2 Q l m.
Proof. intros H. induction 1; constructor; auto. Qed.
Lemma all3_mono ts : Forall (fun t => forall v w, RustEq t v w -> SameValue t v w) ts -> forall vs ws, all3 (map RustEq ts) vs ws -> all3 (map SameValue ts) vs ws.
Proof. induction 1; intros [|v vs] [|w ws]; cbn [map all3]; try tauto. intros [H1 H2]. split; auto. Qed.

Lemma rust_eq_same t v w : RustEq t v w -> SameValue t v w.
Proof.
  revert v w. induction t using ty_ind_strong; intros v w0 Hr.
  all: destruct v; try (destruct Hr; fail); destruct w0; try (destruct Hr; fail); cbn [RustEq SameValue] in *; try (destruct Hr; fail); try exact Hr; try reflexivity; try tauto; auto.
  all: try (match goal with w : wrapper |- _ => destruct w end; cbn [RustEq] in Hr; try tauto; auto; fail).
  all: try (eapply forall2_mono; [|exact Hr]; assumption).
  all: try (apply all3_mono; assumption).
  all: try (match type of Hr with _ /\ _ => destruct Hr as [? Hr] end; try (match type of Hr with _ /\ _ => destruct Hr as [? Hr] end); auto; fail).
  - destruct Hr as (l' & Hp & Hall). exists l'. split; [exact Hp|]. eapply forall2_mono; [|exact Hall]. cbn. intros x y [H1 H2]. split; auto.
  - destruct Hr as (l' & Hp & Hall). exists l'. split; [exact Hp|]. eapply forall2_mono; [|exact Hall]. auto.
  - destruct Hr as [<- Hr]. split; [reflexivity|]. rewrite !nth_error_map in *. destruct (nth_error vs i) as [x|] eqn:E; cbn [option_map] in *; [|exact Hr].
    apply nth_error_In in E. rewrite Forall_forall in H. apply all3_mono; [exact (H _ E) | exact Hr].
Qed.

Lemma same_refl t v : wt t v -> SameValue t v v.
Proof.
  revert v. induction t using ty_ind_strong; intros v Hw.
  all: destruct v; try (destruct Hw; fail); cbn [wt SameValue] in *; try reflexivity; try (left; reflexivity); auto.
  all: repeat match goal with H : _ /\ _ |- _ => destruct H end.
  all: try (match goal with IH : forall v, wt ?t v -> _, H : Forall (wt ?t) ?l |- Forall2 _ ?l ?l => clear - IH H; induction H; constructor; auto end).
  all: try (repeat split; auto; fail).
  all: try (match goal with H : Forall _ ?ts, G : all2 _ ?vs |- all3 _ ?vs ?vs => revert H G; clear; intros H; revert vs; induction H; intros [|v vs]; cbn [map all2 all3]; try tauto; intros [? ?]; split; auto end).
  - exists kvs. split; [apply Permutation_refl|]. match goal with H : Forall _ kvs |- _ => clear - IHt1 IHt2 H; induction H as [|x l [? ?] _ IH]; constructor; auto end.
  - exists ks. split; [apply Permutation_refl|]. match goal with H : Forall _ ks |- _ => clear - IHt H; induction H; constructor; auto end.
  - split; [reflexivity|]. rewrite nth_error_map in *. destruct (nth_error vs i) as [x|] eqn:E; cbn [option_map] in *; [|assumption].
    rewrite Forall_forall in H. apply nth_error_In in E. specialize (H _ E).
    match goal with G : all2 _ ?l |- _ => revert H G; generalize (snd x); clear; intros ts H; revert l; induction H; intros [|v l]; cbn [map all2 all3]; try tauto; intros [? ?]; split; auto end.
Qed.

Lemma C104_widest_lemma t v : (forall w, RustEq t v w -> SameValue t v w) /\ (wt t v -> SameValue t v v).
Proof. split; [intros w; apply rust_eq_same | apply same_refl]. Qed.

Lemma C104_hash_lemma ch t v bs i' v' : EnumsOk t -> dec_ety t <> None -> wt t v -> Appends (encode ch t v) bs (Ok tt) ->
  (exists k x, t = THashMap k x) \/ (exists k, t = THashSet k) -> decode t (input_new bs) = (i', Ok v') -> ~ SameValue t v' v.
Proof.
  intros He Hd Hw Ha Ht Hdec Hs. pose proof (proj1 (@C104_lemma ch t v bs He Hd Hw Ha) (ex_intro _ i' (ex_intro _ v' (conj Hdec Hs)))) as H.
  destruct Ht as [(k & x & ->)|(k & ->)]; exact H.
Qed.

(* ---- values one after another *)

Lemma encode_list_wire ch l : forall o o', Forall (fun p => wt (fst p) (snd p)) l -> wf_out o -> encode_list ch l o = (o', Ok tt) ->
  exists bs, fits o bs /\ o' = append o bs /\ WireFields ch (map fst l) (map snd l) bs.
Proof.
  induction l as [|[t v] l IH]; intros o o' Hl Hw He; cbn [encode_list] in He.
  - injection He as <-. exists []. split; [unfold fits, wf_out in *; cbn; lia|]. split; [rewrite append_nil by exact Hw; reflexivity|]. constructor.
  - inversion Hl as [|? ? Hv Hl']; subst. cbn [fst snd] in *. unfold eseq in He.
    destruct (encode ch t v o) as [o1 r1] eqn:E1. destruct r1 as [[]|?|?]; try discriminate.
    destruct (encode_touches _ _ _ Hw E1) as (b1 & Hf1 & ->).
    destruct (IH _ _ Hl' (append_wf Hf1) He) as (b2 & Hf2 & -> & Hp).
    exists (b1 ++ b2). split; [apply fits_append; assumption|]. split; [apply append_app; exact Hw|].
    cbn [map fst snd]. constructor; [|exact Hp]. apply (@encoded_wire ch t v o (append o b1) b1); try assumption. apply append_slice; exact Hw.
Qed.
Lemma decode_list_accepts ts : forall i i' vs, Forall EnumsOk ts -> wf_in i -> decode_list ts i = (i', Ok vs) ->
  exists bs, i_pos i' = i_pos i + length bs /\ AcceptsFields ts bs vs.
Proof.
  induction ts as [|t ts IH]; intros i i' vs Hok Hw Hd; cbn [decode_list] in Hd.
  - injection Hd as <- <-. exists []. split; [cbn; lia | constructor].
  - inversion Hok; subst. unfold dbind in Hd. destruct (decode t i) as [i1 r1] eqn:E1. destruct r1 as [v|?|?]; try discriminate.
    destruct (decode_list ts i1) as [i2 r2] eqn:E2. destruct r2 as [ws|?|?]; try discriminate. injection Hd as <- <-.
    match goal with H : EnumsOk t |- _ => destruct (decode_accepts _ H Hw E1) as (x & post & Hx & -> & Ha) end.
    assert (Hw1 : wf_in (Input (i_buf i) (i_pos i + length x))).
    { unfold wf_in in *. cbn [i_pos i_buf]. apply (f_equal (@length byte)) in Hx. rewrite rest_length, app_length in Hx. lia. }
    match goal with H : Forall EnumsOk ts |- _ => destruct (IH _ _ _ H Hw1 E2) as (y & Hy & Hb) end.
    exists (x ++ y). cbn [i_pos] in Hy. rewrite app_length. split; [lia | constructor; assumption].
Qed.
Lemma accepts_fields_parse ts bs vs : AcceptsFields ts bs vs -> Parses (decode_list ts) bs vs.
Proof.
  induction 1; cbn [decode_list]; [apply P_ok|]. eapply P_bind; [apply accepts_parses; eassumption|]. eapply P_bind_last; [eassumption | apply P_ok].
Qed.

Lemma forall_pairs {A B} (P : A -> B -> Prop) l : Forall2 P (map fst l) (map snd l) <-> Forall (fun p => P (fst p) (snd p)) l.
Proof.
  induction l as [|[a b] l IH]; cbn [map fst snd]; [split; constructor|].
  split; inversion 1; subst; constructor; cbn [fst snd] in *; try assumption; apply IH; assumption.
Qed.
Lemma C104_chain_lemma ch l o o' tail : Forall (fun p => EnumsOk (fst p) /\ dec_ety (fst p) <> None /\ wt (fst p) (snd p)) l ->
  output_position o <= output_capacity o -> encode_list ch l o = (o', Ok tt) ->
  ((exists vs, decode_list (map fst l) (Input (output_as_slice o' ++ tail) (output_position o)) =
      (Input (output_as_slice o' ++ tail) (output_position o'), Ok vs) /\ all3 (map SameValue (map fst l)) vs (map snd l)) <->
   Forall (fun p => Survives (fst p) (snd p)) l).
Proof.
  intros Hl Hw He.
  assert (Hv : Forall (fun p => wt (fst p) (snd p)) l) by (eapply Forall_impl; [|exact Hl]; intros p Hp; apply Hp).
  destruct (encode_list_wire _ Hv Hw He) as (bs & Hf & -> & Hwf).
  assert (Hlen : length (output_as_slice o) = output_position o).
  { unfold output_as_slice, output_position. rewrite firstn_length. unfold output_capacity, output_position in Hw. lia. }
  rewrite append_slice by exact Hw. unfold output_position at 2. rewrite append_pos. fold (output_position o). rewrite <- app_assoc. split.
  - intros (vs & Hd & Hs).
    assert (Hok : Forall EnumsOk (map fst l)) by (apply Forall_map; eapply Forall_impl; [|exact Hl]; intros p Hp; apply Hp).
    assert (Hi : wf_in (Input (output_as_slice o ++ bs ++ tail) (output_position o))) by (unfold wf_in; cbn [i_pos i_buf]; rewrite app_length; lia).
    destruct (decode_list_accepts Hok Hi Hd) as (b' & Hp & Ha). cbn [i_pos] in Hp.
    assert (Hn : Forall (NoShorter ch) (map fst l)) by (apply Forall_forall; intros t _; apply no_shorter).
    destruct (no_shorter_fields Hn Ha Hwf Hs) as [_ K]. apply forall_pairs, all2_forall2, K. lia.
  - intros Hk. assert (Hn : Forall (ComesBack ch) (map fst l)) by (apply Forall_forall; intros t _; apply comes_back).
    assert (Hd : Forall (fun t => dec_ety t <> None) (map fst l)) by (apply Forall_map; eapply Forall_impl; [|exact Hl]; intros p Hp; apply Hp).
    destruct (comes_back_fields Hn Hd Hwf) as (vs & Ha & Hs); [apply all2_forall2, forall_pairs, Hv | apply all2_forall2, forall_pairs, Hk|].
    exists vs. split; [|exact Hs]. rewrite <- Hlen. apply (accepts_fields_parse Ha).
Qed.
