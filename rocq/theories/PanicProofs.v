(* Why decoding panics: C21. *)
From Coq Require Import Lia ZifyBool ZifyNat ZifyN.
From Verif Require Import Base BaseFacts Streams StreamFacts Utf8 Utf8Facts Types TypesFacts Traits Decode Spec
  SpecCalls SpecDecode EncodeFacts WireFacts DecodeFacts StreamProofs DecodeLocal AcceptFacts.
Set Implicit Arguments.

Definition Panics {A} (m : D A) (P : nat -> panic -> Prop) : Prop :=
  forall i i' p, wf_in i -> m i = (i', Panic p) -> P (length (i_buf i)) p.

(* the input ended before the read was satisfied *)
Definition too_short (cap : nat) (p : panic) : Prop :=
  exists e, p = PInput e /\ se_capacity e = cap /\ se_capacity e < se_position e + se_count e.

Lemma X_ext {A} (m : D A) (P Q : nat -> panic -> Prop) : Panics m P -> (forall c p, P c p -> Q c p) -> Panics m Q.
Proof. intros H HQ i i' p Hw Hm. apply HQ, (H i i' p Hw Hm). Qed.
Lemma X_ok {A} (a : A) P : Panics (dok a) P.
Proof. intros i i' p _ H. discriminate. Qed.
Lemma X_error {A} e P : Panics (@derror A e) P.
Proof. intros i i' p _ H. discriminate. Qed.
Lemma X_panic {A} p (P : nat -> panic -> Prop) : (forall c, P c p) -> Panics (@dpanic A p) P.
Proof. intros HP i i' q _ H. injection H as _ <-. apply HP. Qed.
Lemma X_lift {A} (r : res derr A) (P : nat -> panic -> Prop) : (forall c p, r = Panic p -> P c p) -> Panics (dlift r) P.
Proof. intros HP i i' q _ H. injection H as _ ->. apply HP. reflexivity. Qed.
Lemma X_bind {A B} (m : D A) (k : A -> D B) P : Local m -> Panics m P -> (forall a, Panics (k a) P) -> Panics (dbind m k) P.
Proof.
  intros Hl Hm Hk i i' p Hw H. unfold dbind in H. destruct (m i) as [i1 [a|e|q]] eqn:E; try discriminate.
  - destruct (local_forward Hl Hw E) as (Hb & _ & Hw1). rewrite <- Hb. apply (Hk a i1 i' p Hw1 H).
  - injection H as <- <-. apply (Hm i i1 q Hw E).
Qed.
Lemma X_map {A B} (f : A -> B) m P : Local m -> Panics m P -> Panics (dmap f m) P.
Proof. intros Hl H. apply X_bind; [exact Hl | exact H | intros a; apply X_ok]. Qed.
Lemma X_map_err {A} f (m : D A) P : Panics m P -> Panics (dmap_err f m) P.
Proof.
  intros H i i' p Hw Hm. unfold dmap_err in Hm. destruct (m i) as [i1 [a|e|q]] eqn:E; try discriminate.
  injection Hm as <- <-. apply (H i i1 q Hw E).
Qed.
Lemma X_read n (P : nat -> panic -> Prop) : (forall c p, too_short c p -> P c p) -> Panics (dread n) P.
Proof.
  intros HP i i' p Hw Hm. apply HP. destruct (Nat.leb_spec n (length (rest i))) as [Hn|Hn].
  - rewrite dread_ok in Hm by assumption. discriminate.
  - rewrite dread_short in Hm by assumption. injection Hm as <- <-. rewrite rest_length in Hn. unfold wf_in in Hw.
    eexists. split; [reflexivity|]. cbn [se_capacity se_position se_count]. lia.
Qed.
Lemma X_read_into n (P : nat -> panic -> Prop) : (forall c p, too_short c p -> P c p) -> Panics (dread_into n) P.
Proof. intros HP i i' p Hw Hm. rewrite dread_into_read in Hm. apply (@X_read n P HP i i' p Hw Hm). Qed.

Section Panics.
  Variable P : nat -> panic -> Prop.
  Hypothesis HP : forall c p, too_short c p -> P c p.

  Lemma X_unsigned w : Panics (dec_unsigned w) P.
  Proof. apply X_map; [apply L_dread_into | apply X_read_into, HP]. Qed.
  Lemma X_signed w : Panics (dec_signed w) P.
  Proof. apply X_map; [apply L_dread_into | apply X_read_into, HP]. Qed.
  Lemma X_int i : Panics (dec_int i) P.
  Proof. destruct i; cbn [dec_int isigned]; first [apply X_unsigned | apply X_signed]. Qed.
  Lemma X_items {A} (f : D A) n : Local f -> Panics f P -> forall i, Panics (dec_items f n i) P.
  Proof.
    intros Hl Hf. induction n as [|n IH]; intros i; cbn [dec_items]; [apply X_ok|].
    apply X_bind; [apply L_map_err, Hl | apply X_map_err, Hf | intros a; apply X_map; [apply L_items, Hl | apply IH]].
  Qed.
  Lemma X_fields conv fs : Forall Local fs -> Forall (fun f => Panics f P) fs -> Panics (dec_fields conv fs) P.
  Proof.
    intros Hl H. induction H as [|f fs Hf Hfs IH]; cbn [dec_fields]; [apply X_ok|]. inversion Hl; subst.
    apply X_bind; [apply L_map_err; assumption | apply X_map_err, Hf | intros a; apply X_map; [apply L_fields; assumption | apply IH; assumption]].
  Qed.
  Lemma X_entries fk fv n : Local fk -> Local fv -> Panics fk P -> Panics fv P -> forall i acc, Panics (dec_entries fk fv n i acc) P.
  Proof.
    intros Lk Lv Hk Hv. induction n as [|n IH]; intros i acc; cbn [dec_entries]; [apply X_ok|].
    apply X_bind; [apply L_map_err, Lk | apply X_map_err, Hk | intros k].
    apply X_bind; [apply L_map_err, Lv | apply X_map_err, Hv | intros v; apply IH].
  Qed.
  Lemma X_keys fk n : Local fk -> Panics fk P -> forall i acc, Panics (dec_keys fk n i acc) P.
  Proof.
    intros Lk Hk. induction n as [|n IH]; intros i acc; cbn [dec_keys]; [apply X_ok|].
    apply X_bind; [apply L_map_err, Lk | apply X_map_err, Hk | intros k; apply IH].
  Qed.
  Lemma X_check bs : Panics (dlift (check_utf8 bs)) P.
  Proof.
    apply X_lift. intros c p H. exfalso. unfold check_utf8 in H. destruct (from_utf8 bs) as [k|] eqn:E; [|discriminate].
    destruct (from_utf8_in_bounds _ E) as (x & Hx). rewrite Hx in H. discriminate.
  Qed.
  Lemma X_sized_check n bs : Panics (dlift (sized_from_utf8 n bs)) P.
  Proof.
    apply X_lift. intros c p H. exfalso. unfold sized_from_utf8, check_utf8 in H. destruct (n <? length bs); [discriminate|].
    destruct (from_utf8 bs) as [k|] eqn:E; [|discriminate].
    destruct (from_utf8_in_bounds _ E) as (x & Hx). rewrite Hx in H. discriminate.
  Qed.
End Panics.

Ltac locald := local; apply decode_local.

Ltac panics :=
  lazymatch goal with
  | |- Panics (dok _) _ => apply X_ok
  | |- Panics (derror _) _ => apply X_error
  | |- Panics (dlift (check_utf8 _)) _ => apply X_check
  | |- Panics (dlift (sized_from_utf8 _ _)) _ => apply X_sized_check
  | |- Panics (dmap _ _) _ => apply X_map; [locald | panics]
  | |- Panics (dmap_err _ _) _ => apply X_map_err; panics
  | |- Panics (dbind _ _) _ => apply X_bind; [locald | panics | intros ?; panics]
  | |- Panics (dread _) _ => apply X_read; assumption
  | |- Panics (dec_unsigned _) _ => apply X_unsigned; assumption
  | |- Panics (dec_signed _) _ => apply X_signed; assumption
  | |- Panics (dec_int _) _ => apply X_int; assumption
  | |- Panics dec_u8 _ => apply X_unsigned; assumption
  | |- Panics dec_usize _ => apply X_unsigned; assumption
  | |- Panics dec_bool _ => unfold dec_bool; panics
  | |- Panics dec_ip4 _ => unfold dec_ip4; panics
  | |- Panics dec_ip6 _ => unfold dec_ip6; panics
  | |- Panics (dec_items _ _ _) _ => apply X_items; [locald | panics]
  | |- Panics (dec_entries _ _ _ _ _) _ => apply X_entries; [locald | locald | panics | panics]
  | |- Panics (dec_keys _ _ _ _) _ => apply X_keys; [locald | panics]
  | |- Panics (dec_vec _) _ => unfold dec_vec; panics
  | |- Panics dec_string _ => unfold dec_string; panics
  | |- Panics (dec_sized_str _) _ => unfold dec_sized_str; panics
  | |- Panics dec_cstring _ => unfold dec_cstring; panics
  | |- Panics (dec_sized_slice _ _) _ => unfold dec_sized_slice; panics
  | |- Panics dec_char _ => unfold dec_char; panics
  | |- Panics (dec_nonzero _) _ => unfold dec_nonzero; panics
  | |- Panics (dec_option _) _ => unfold dec_option; panics
  | |- Panics (dec_result _ _) _ => unfold dec_result; panics
  | |- Panics (dec_sock4 _) _ => unfold dec_sock4; panics
  | |- Panics (dec_sock6 _) _ => unfold dec_sock6; panics
  | |- Panics dec_ip_addr _ => unfold dec_ip_addr; panics
  | |- Panics dec_sock_addr _ => unfold dec_sock_addr; panics
  | |- Panics (dec_bound _) _ => unfold dec_bound; panics
  | |- Panics dec_time _ => unfold dec_time; panics
  | |- Panics (dec_map _ _) _ => unfold dec_map; panics
  | |- Panics (dec_set _) _ => unfold dec_set; panics
  | |- Panics (if ?b then _ else _) _ => destruct b; panics
  | |- Panics (match ?x with Some _ => _ | None => _ end) _ => destruct x eqn:?; panics
  | |- Panics _ _ => try assumption
  end.

(* the reasons a type has for panicking *)
Definition reasons (t : ty) (cap : nat) (p : panic) : Prop :=
  too_short cap p \/ (p = PDuration /\ contains is_duration t = true) \/ (p = PInfallible /\ contains is_infallible t = true).

Lemma local_decode_all ts : Forall Local (map decode ts).
Proof. apply forall_map. apply Forall_forall. intros t _. apply decode_local. Qed.

Lemma reasons_in t t' c p : (forall q, contains q t = true -> contains q t' = true) -> reasons t c p -> reasons t' c p.
Proof. intros Hi [H|[[H1 H2]|[H1 H2]]]; [left|right; left|right; right]; auto. Qed.

Lemma all_same_some l e : all_same_d l e = true -> Forall (fun x => x <> None) l.
Proof.
  induction l as [|[x|] l IH]; cbn [all_same_d]; intros H; try discriminate; constructor; [discriminate|].
  apply andb_true_iff in H. tauto.
Qed.
Lemma all_generic_some l : all_generic_d l = true -> Forall (fun x => x <> None) l.
Proof.
  induction l as [|[x|] l IH]; cbn [all_generic_d]; intros H; try discriminate; constructor; [discriminate|].
  apply andb_true_iff in H. tauto.
Qed.

Lemma forall_map_inv {A B} (P : B -> Prop) (f : A -> B) l : Forall P (map f l) -> Forall (fun x => P (f x)) l.
Proof. induction l; intros H; inversion H; subst; constructor; auto. Qed.

Lemma fields_panic conv ts (Q : nat -> panic -> Prop) :
  Forall (fun t => EnumsOk t -> dec_ety t <> None -> Panics (decode t) (reasons t)) ts ->
  Forall EnumsOk ts -> Forall (fun t => dec_ety t <> None) ts ->
  (forall c p, too_short c p -> Q c p) ->
  (forall t, In t ts -> forall c p, reasons t c p -> Q c p) ->
  Panics (dec_fields conv (map decode ts)) Q.
Proof.
  intros H Ho He Hs Hq. apply X_fields; [apply local_decode_all|]. apply forall_map. apply Forall_forall. intros t Ht.
  rewrite Forall_forall in H, Ho, He. eapply X_ext; [apply H; auto|]. apply Hq, Ht.
Qed.

Lemma contains_in q t ts : In t ts -> contains q t = true -> existsb (contains q) ts = true.
Proof. intros Hin Hc. apply existsb_exists. eauto. Qed.

Lemma X_in {A} (m : D A) t t' : Panics m (reasons t) -> (forall q, contains q t = true -> contains q t' = true) -> Panics m (reasons t').
Proof. intros H Hi. eapply X_ext; [exact H|]. intros c p. apply reasons_in. exact Hi. Qed.

Ltac inside := let q := fresh "q" in let Hq := fresh "Hq" in intros q Hq; cbn [contains]; rewrite ?Hq, ?orb_true_r; reflexivity.

Ltac implemented He := let E := fresh "E" in intros E; apply He; cbn [dec_ety]; rewrite ?E; try reflexivity.
Ltac one x H He :=
  match goal with |- Panics _ (reasons ?t') =>
    let Hp := fresh "Hp" in
    assert (Hp : Panics (decode x) (reasons t')) by (apply X_in with (t := x); [apply H; implemented He | inside])
  end.

Lemma decode_panics t : EnumsOk t ->
  (dec_ety t <> None -> Panics (decode t) (reasons t)) /\ (dec_ety (TCow t) <> None -> Panics (decode (owned t)) (reasons t)).
Proof.
  assert (HS : forall t c p, too_short c p -> reasons t c p) by (intros; left; assumption).
  induction t using ty_ind_strong; intros Hok; cbn [EnumsOk] in Hok;
    try (match goal with |- (dec_ety ?t <> None -> ?P) /\ _ => enough (dec_ety t <> None -> P) by (split; assumption) end);
    repeat match goal with H : EnumsOk ?t -> _, H' : EnumsOk ?t |- _ => specialize (H H'); destruct H end;
    match goal with |- context[reasons ?t] => specialize (HS t) end;
    try (intros He; one t H He; cbn [decode]; panics; fail);
    try (intros _; cbn [decode]; panics; fail).
  - intros He. destruct Hok as [Ha Hb]. destruct (IHt1 Ha) as [H1 _]. destruct (IHt2 Hb) as [H2 _]. one t1 H1 He.
    assert (Panics (decode t2) (reasons (TResult t1 t2))).
    { apply X_in with (t := t2); [apply H2 | inside]. intros E. apply He. cbn [dec_ety]. rewrite E. destruct (dec_ety t1); reflexivity. }
    cbn [decode]. panics.
  - intros He. cbn [decode]. apply X_map; [apply L_fields, local_decode_all|]. apply fold_and_map in Hok. apply fields_panic; try assumption.
    + eapply Forall_impl; [|exact H]. cbn beta. intros t Ht Hk Hn. apply Ht; assumption.
    + cbn [dec_ety] in He. destruct ts as [|t ts]; [constructor|]. cbn [map] in He. destruct (dec_ety t) as [e|] eqn:Et; [|congruence].
      destruct (all_same_d (map dec_ety ts) e) eqn:Es; [|congruence]. constructor; [congruence|].
      apply all_same_some in Es. apply forall_map_inv in Es. exact Es.
    + intros t Ht c p. apply reasons_in. intros q Hq. cbn [contains]. rewrite (@contains_in q t ts Ht Hq). apply orb_true_r.
  - split; [intros He; exfalso; apply He; reflexivity|]. intros He. cbn [owned decode]. one t H He. panics.
  - split; [intros He; exfalso; apply He; reflexivity|]. intros He. cbn [owned decode]. panics.
  - split; [intros He; exfalso; apply He; reflexivity|]. intros He. cbn [owned decode]. panics.
  - intros He. assert (Hp : Panics (decode t) (reasons (TWrap w t))).
    { apply X_in with (t := t); [apply H | inside]. intros E. apply He. cbn [dec_ety]. rewrite E. destruct w; reflexivity. }
    cbn [decode]. panics.
  - intros He. specialize (H0 He). apply X_in with (t' := TCow t) in H0; [|inside]. cbn [decode]. rewrite decode_owned.
    panics.
  - intros He. cbn [decode]. unfold dec_duration. apply X_bind; [local | panics | intros s]. apply X_bind; [local | panics | intros n].
    apply X_lift. intros c p Hp. unfold duration_new in Hp. destruct (n <? 1000000000)%Z; [discriminate|].
    destruct (s + n / 1000000000 <? 2 ^ 64)%Z; [discriminate|]. injection Hp as <-. right. left. auto.
  - intros He. apply X_panic. intros c. right. right. auto.
  - intros He. destruct Hok as [Ha Hb]. destruct (IHt1 Ha) as [H1 _]. destruct (IHt2 Hb) as [H2 _]. one t1 H1 He.
    assert (Panics (decode t2) (reasons (THashMap t1 t2))).
    { apply X_in with (t := t2); [apply H2 | inside]. intros E. apply He. cbn [dec_ety]. rewrite E. destruct (dec_ety t1); reflexivity. }
    cbn [decode]. panics.
  - intros He. cbn [decode]. apply X_map; [apply L_fields, local_decode_all|]. apply fold_and_map in Hok. apply fields_panic; try assumption.
    + eapply Forall_impl; [|exact H]. cbn beta. intros t Ht Hk Hn. apply Ht; assumption.
    + cbn [dec_ety] in He. destruct (all_generic_d (map dec_ety ts)) eqn:Es; [|congruence].
      apply all_generic_some in Es. apply forall_map_inv in Es. exact Es.
    + intros t Ht c p. apply reasons_in. intros q Hq. cbn [contains]. rewrite (@contains_in q t ts Ht Hq). apply orb_true_r.
  - intros He. cbn [decode]. destruct Hok as [Heok Hok]. unfold dec_enum. unfold enum_ok in Heok.
    destruct (discriminants (map fst vs)) as [ds|] eqn:Hd; [|contradiction].
    apply X_bind; [local | panics|]. intros d. destruct (find_disc d ds 0) as [i|] eqn:Ei; [|apply X_error].
    apply find_disc_inv in Ei. destruct Ei as (j & -> & Hj). cbn [Nat.add].
    assert (Hj' : exists x, nth_error vs j = Some x).
    { pose proof (discriminants_from_spec _ _ Hd) as Hlen. rewrite map_length in Hlen.
      destruct (nth_error vs j) as [x|] eqn:Ex; [eauto|]. apply nth_error_None in Ex.
      assert (nth_error ds j <> None) as Hs by congruence. apply nth_error_Some in Hs. lia. }
    destruct Hj' as [[e ts] Hx]. rewrite (nth_error_map_some (fun x => map decode (snd x)) _ _ Hx). cbn [snd].
    pose proof (nth_error_In _ _ Hx) as Hin. apply fold_and_map in Hok. rewrite Forall_forall in Hok, H.
    specialize (Hok _ Hin). specialize (H _ Hin). cbn [snd] in *. apply fold_and_map in Hok.
    cbn [dec_ety] in He. destruct (forallb (fun x => all_generic_d (map dec_ety (snd x))) vs) eqn:Es; [|congruence].
    rewrite forallb_forall in Es. specialize (Es _ Hin). cbn [snd] in Es. apply all_generic_some in Es. apply forall_map_inv in Es.
    apply X_map; [apply L_fields, local_decode_all|]. apply fields_panic; try assumption.
    + eapply Forall_impl; [|exact H]. cbn beta. intros t Ht Hk Hn. apply Ht; assumption.
    + intros t Ht c p. apply reasons_in. intros q Hq. cbn [contains].
      replace (existsb (fun x => existsb (contains q) (snd x)) vs) with true; [apply orb_true_r|].
      symmetry. apply existsb_exists. exists (e, ts). split; [exact Hin|]. apply (contains_in _ _ _ Ht Hq).
Qed.

Lemma C21_lemma t i i' p : EnumsOk t -> dec_ety t <> None -> in_bounds i -> decode t i = (i', Panic p) ->
  (exists e, p = PInput e /\ se_capacity e = input_capacity i /\ se_capacity e < se_position e + se_count e) \/
  (p = PDuration /\ contains is_duration t = true) \/ (p = PInfallible /\ contains is_infallible t = true).
Proof. intros Hok He Hw Hd. destruct (decode_panics t Hok) as [H _]. exact (H He i i' p Hw Hd). Qed.
