(* The decoder accepts exactly what the specification says. *)
From Coq Require Import Lia ZifyBool ZifyNat ZifyN.
From Verif Require Import Base BaseFacts Streams StreamFacts Utf8 Utf8Facts Types TypesFacts ValEq Traits Decode Spec SpecDecode
  EncodeFacts WireFacts DecodeFacts StreamProofs DecodeLocal RoundTrip.
Set Implicit Arguments.
Local Open Scope Z_scope.

(* ---- Consumes: what a successful call consumed and returned *)
Definition Consumes {A} (m : D A) (Q : list byte -> A -> Prop) : Prop :=
  forall i i' a, wf_in i -> m i = (i', Ok a) ->
  exists n, (n <= length (rest i))%nat /\ i' = Input (i_buf i) (i_pos i + n) /\ Q (firstn n (rest i)) a.

Lemma N_ext {A} (m : D A) (Q Q' : list byte -> A -> Prop) : Consumes m Q -> (forall bs a, Q bs a -> Q' bs a) -> Consumes m Q'.
Proof. intros H HQ i i' a Hw Hm. destruct (H i i' a Hw Hm) as (n & Hn & Hi & Hq). exists n. auto. Qed.
Lemma N_same {A} (m m' : D A) Q : Consumes m Q -> (forall i, m' i = m i) -> Consumes m' Q.
Proof. intros H E i i' a Hw Hm. rewrite E in Hm. apply (H i i' a Hw Hm). Qed.
Lemma N_ok {A} (a : A) (Q : list byte -> A -> Prop) : Q [] a -> Consumes (dok a) Q.
Proof.
  intros HQ i i' b Hw H. injection H as <- <-. exists 0%nat. rewrite Nat.add_0_r. cbn [firstn].
  split; [lia|]. split; [destruct i; reflexivity | exact HQ].
Qed.
Lemma N_error {A} e (Q : list byte -> A -> Prop) : Consumes (derror e) Q.
Proof. intros i i' a _ H. discriminate. Qed.
Lemma N_panic {A} p (Q : list byte -> A -> Prop) : Consumes (dpanic p) Q.
Proof. intros i i' a _ H. discriminate. Qed.
Lemma N_lift {A} (r : res derr A) (Q : list byte -> A -> Prop) : (forall a, r = Ok a -> Q [] a) -> Consumes (dlift r) Q.
Proof.
  intros HQ i i' b Hw H. injection H as <- Hr. subst r. exists 0%nat. rewrite Nat.add_0_r. cbn [firstn].
  split; [lia|]. split; [destruct i; reflexivity | apply HQ; reflexivity].
Qed.
Lemma N_bind {A B} (m : D A) (k : A -> D B) Q R : Consumes m Q ->
  (forall x a, Q x a -> Consumes (k a) (fun y b => R (x ++ y) b)) -> Consumes (dbind m k) R.
Proof.
  intros Hm Hk i i' b Hw H. unfold dbind in H. destruct (m i) as [i1 [a|e|p]] eqn:E; try discriminate.
  destruct (Hm i i1 a Hw E) as (n & Hn & -> & Hq).
  destruct (Hk _ _ Hq _ _ _ (advance_wf Hn Hw) H) as (n' & Hn' & -> & Hr). cbn [i_buf i_pos] in *.
  rewrite rest_advance in Hn', Hr. rewrite skipn_length in Hn'. exists (n + n')%nat.
  split; [lia|]. split; [f_equal; lia|]. rewrite firstn_plus. exact Hr.
Qed.
Lemma N_map {A B} (f : A -> B) m Q : Consumes m (fun x a => Q x (f a)) -> Consumes (dmap f m) Q.
Proof. intros H. eapply N_bind; [exact H|]. intros x a Hq. apply N_ok. rewrite app_nil_r. exact Hq. Qed.
Lemma N_map_err {A} f (m : D A) Q : Consumes m Q -> Consumes (dmap_err f m) Q.
Proof.
  intros H i i' a Hw Hm. unfold dmap_err in Hm. destruct (m i) as [i1 [b|e|p]] eqn:E; try discriminate.
  injection Hm as <- <-. apply (H i i1 b Hw E).
Qed.
Lemma N_read n (Q : list byte -> list byte -> Prop) : (forall bs, length bs = n -> Q bs bs) -> Consumes (dread n) Q.
Proof.
  intros HQ i i' a Hw Hm. destruct (Nat.leb_spec n (length (rest i))) as [Hn|Hn].
  - rewrite dread_ok in Hm by assumption. injection Hm as <- <-. exists n. split; [exact Hn|]. split; [reflexivity|].
    apply HQ. rewrite firstn_length. lia.
  - rewrite dread_short in Hm by assumption. discriminate.
Qed.
Lemma N_read_into n (Q : list byte -> list byte -> Prop) : (forall bs, length bs = n -> Q bs bs) -> Consumes (dread_into n) Q.
Proof. intros HQ. eapply N_same; [apply N_read; exact HQ|]. intros i. apply dread_into_read. Qed.

(* numbers *)
Lemma N_unsigned w : Consumes (dec_unsigned w) (fun bs z => 0 <= z < 2 ^ (8 * Z.of_nat w) /\ le_repr w z bs).
Proof.
  apply N_map, N_read_into. intros bs <-. split; [apply of_le_range|]. apply le_repr_iff. symmetry. apply le_bytes_of_le.
Qed.
Lemma N_signed w : (0 < w)%nat ->
  Consumes (dec_signed w) (fun bs z => - 2 ^ (8 * Z.of_nat w - 1) <= z < 2 ^ (8 * Z.of_nat w - 1) /\ le_repr w z bs).
Proof.
  intros Hw. apply N_map, N_read_into. intros bs <-. split; [apply to_signed_range; [exact Hw | apply of_le_range]|].
  apply le_repr_iff. rewrite le_bytes_to_signed. symmetry. apply le_bytes_of_le.
Qed.
Lemma N_int i : Consumes (dec_int i) (fun bs z => in_ity i z /\ WireInt i z bs).
Proof.
  unfold in_ity. destruct i; cbn [dec_int isigned iwidth];
    try (eapply N_ext; [first [apply N_unsigned | apply N_signed; lia]|]; cbn beta; intros bs z [Hz Hr]; split; [exact Hz|];
         apply WI_fixed; [discriminate | discriminate | exact Hr]).
  - eapply N_ext; [apply N_unsigned|]. cbn beta. change (2 ^ (8 * Z.of_nat 2)) with 65536. change (2 ^ (8 * Z.of_nat 8)) with (2 ^ 64).
    intros bs z [Hz Hr]. split; [lia|]. apply WI_usize; [lia | exact Hr].
  - eapply N_ext; [apply N_signed; lia|]. cbn beta. change (2 ^ (8 * Z.of_nat 2 - 1)) with 32768. change (2 ^ (8 * Z.of_nat 8 - 1)) with (2 ^ 63).
    intros bs z [Hz Hr]. split; [lia|]. apply WI_isize; [lia | exact Hr].
Qed.
Lemma N_len : Consumes dec_usize (fun bs z => 0 <= z /\ WireLen (Z.to_nat z) bs).
Proof.
  eapply N_ext; [apply N_unsigned|]. cbn beta. change (2 ^ (8 * Z.of_nat 2)) with 65536.
  intros bs z [Hz Hr]. split; [lia|]. unfold WireLen. rewrite Z2Nat.id by lia. split; [lia | exact Hr].
Qed.
Lemma N_byte : Consumes dec_u8 (fun bs z => exists b, bs = [b] /\ z = b2z b).
Proof.
  eapply N_ext; [apply N_unsigned|]. cbn beta. intros bs z [Hz [Hl Hr]]. destruct bs as [|b [|]]; try discriminate.
  exists b. split; [reflexivity|]. specialize (Hr 0%nat b eq_refl). change (2 ^ (8 * Z.of_nat 0)) with 1 in Hr.
  change (2 ^ (8 * Z.of_nat 1)) with 256 in Hz. rewrite Z.div_1_r, Z.mod_small in Hr by lia. congruence.
Qed.
Lemma b2z_zero b : b2z b = 0 <-> b = x00.
Proof. split; [intros H; apply (b2z_inj b x00); exact H | intros ->; reflexivity]. Qed.
Lemma N_bool : Consumes dec_bool (fun bs c => (bs = [x00] /\ c = false) \/ (exists b, b <> x00 /\ bs = [b] /\ c = true)).
Proof.
  apply N_map. eapply N_ext; [apply N_byte|]. cbn beta. intros bs z (b & -> & ->).
  destruct (Z.eqb_spec (b2z b) 0) as [E|E]; cbn [negb].
  - left. apply b2z_zero in E. subst b. auto.
  - right. exists b. split; [rewrite <- b2z_zero; exact E | auto].
Qed.
Lemma N_ip4 : Consumes dec_ip4 (fun bs o => length o = 4%nat /\ bs = rev o).
Proof.
  apply N_map. eapply N_ext; [apply N_unsigned|]. cbn beta. intros bs z [Hz Hr]. split; [apply be_bytes_length|].
  apply le_repr_iff in Hr. unfold be_bytes. rewrite rev_involutive. exact Hr.
Qed.
Lemma N_ip6 : Consumes dec_ip6 (fun bs o => length o = 16%nat /\ bs = rev o).
Proof.
  apply N_map. eapply N_ext; [apply N_unsigned|]. cbn beta. intros bs z [Hz Hr]. split; [apply be_bytes_length|].
  apply le_repr_iff in Hr. unfold be_bytes. rewrite rev_involutive. exact Hr.
Qed.

(* sequences *)
Lemma N_items t n : Consumes (decode t) (Accepts t) -> forall i,
  Consumes (dec_items (decode t) n i) (fun bs vs => length vs = n /\ AcceptsItems t bs vs).
Proof.
  intros Ht. induction n as [|n IH]; intros i; cbn [dec_items].
  - apply N_ok. split; [reflexivity | constructor].
  - eapply N_bind; [apply N_map_err, Ht|]. intros x v Hv. apply N_map. eapply N_ext; [apply IH|]. cbn beta.
    intros y vs [Hl Hvs]. split; [cbn [length]; lia | constructor; assumption].
Qed.
Lemma N_fields conv ts : Forall (fun t => Consumes (decode t) (Accepts t)) ts ->
  Consumes (dec_fields conv (map decode ts)) (AcceptsFields ts).
Proof.
  induction 1 as [|t ts Ht Hts IH]; cbn [map dec_fields].
  - apply N_ok. constructor.
  - eapply N_bind; [apply N_map_err, Ht|]. intros x v Hv. apply N_map. eapply N_ext; [apply IH|]. cbn beta.
    intros y vs Hvs. constructor; assumption.
Qed.

Lemma put_insert k v m : Put k v m (map_insert k v m).
Proof.
  induction m as [|[k' v'] m IH]; cbn [map_insert].
  - apply (@Put_new _ _ k v []). intros [].
  - destruct (val_eqb k k') eqn:E.
    + apply val_eqb_spec in E. subst k'. apply (@Put_old _ _ k v [] v' m). intros [].
    + apply val_eqb_neq in E. destruct IH as [m Hn | a w b Hn].
      * apply (@Put_new _ _ k v ((k', v') :: m)). cbn [map fst In]. intros [?|?]; [congruence | contradiction].
      * apply (@Put_old _ _ k v ((k', v') :: a) w b). cbn [map fst In]. intros [?|?]; [congruence | contradiction].
Qed.
Lemma put_unique k v m m' : Put k v m m' -> m' = map_insert k v m.
Proof.
  intros [m0 Hn | a w b Hn].
  - induction m0 as [|[k' v'] m0 IH]; cbn [map_insert app]; [reflexivity|]. cbn [map fst In] in Hn.
    replace (val_eqb k k') with false by (symmetry; apply val_eqb_neq; intros ->; apply Hn; left; reflexivity).
    rewrite <- IH; [reflexivity|]. intros H. apply Hn. right. exact H.
  - induction a as [|[k' v'] a IH]; cbn [map_insert app]; [rewrite val_eqb_refl; reflexivity|]. cbn [map fst In] in Hn.
    replace (val_eqb k k') with false by (symmetry; apply val_eqb_neq; intros ->; apply Hn; left; reflexivity).
    rewrite <- IH; [reflexivity|]. intros H. apply Hn. right. exact H.
Qed.
Lemma set_insert_old k s : In k s -> set_insert k s = s.
Proof.
  induction s as [|k' s IH]; intros H; [contradiction|]. cbn [set_insert]. destruct (val_eqb k k') eqn:E; [reflexivity|].
  apply val_eqb_neq in E. destruct H as [H|H]; [congruence|]. rewrite IH by exact H. reflexivity.
Qed.
Lemma set_insert_new k s : ~ In k s -> set_insert k s = s ++ [k].
Proof.
  induction s as [|k' s IH]; intros H; cbn [set_insert app]; [reflexivity|]. cbn [In] in H.
  replace (val_eqb k k') with false by (symmetry; apply val_eqb_neq; intros ->; apply H; left; reflexivity).
  rewrite IH; [reflexivity|]. intros Hin. apply H. right. exact Hin.
Qed.

Lemma N_entries k v n : Consumes (decode k) (Accepts k) -> Consumes (decode v) (Accepts v) -> forall i acc,
  Consumes (dec_entries (decode k) (decode v) n i acc)
    (fun bs m => exists l, length l = n /\ AcceptsEntries k v bs l /\ PutAll acc l m).
Proof.
  intros Hk Hv. induction n as [|n IH]; intros i acc; cbn [dec_entries].
  - apply N_ok. exists []. split; [reflexivity|]. split; constructor.
  - eapply N_bind; [apply N_map_err, Hk|]. intros x a Ha. eapply N_bind; [apply N_map_err, Hv|]. intros y b Hb.
    eapply N_ext; [apply IH|]. cbn beta. intros z m (l & Hl & Hacc & Hp). exists ((a, b) :: l).
    split; [cbn [length]; lia|]. split; [constructor; assumption|]. econstructor; [apply put_insert | exact Hp].
Qed.
Lemma N_keys k n : Consumes (decode k) (Accepts k) -> forall i acc,
  Consumes (dec_keys (decode k) n i acc) (fun bs s => exists l, length l = n /\ AcceptsItems k bs l /\ AddAll acc l s).
Proof.
  intros Hk. induction n as [|n IH]; intros i acc; cbn [dec_keys].
  - apply N_ok. exists []. split; [reflexivity|]. split; constructor.
  - eapply N_bind; [apply N_map_err, Hk|]. intros x a Ha.
    eapply N_ext; [apply IH|]. cbn beta. intros y s (l & Hl & Hacc & Hp). exists (a :: l).
    split; [cbn [length]; lia|]. split; [constructor; assumption|].
    destruct (in_dec val_eq_dec a acc) as [Hin|Hin].
    + rewrite set_insert_old in Hp by exact Hin. apply AddAll_old; assumption.
    + rewrite set_insert_new in Hp by exact Hin. apply AddAll_new; assumption.
Qed.

Lemma N_vec t : Consumes (decode t) (Accepts t) -> Consumes (dec_vec (decode t)) (Accepts (TVec t)) /\ Consumes (dec_vec (decode t)) (Accepts (TLinked t)).
Proof.
  intros Ht. split; (eapply N_bind; [apply N_len|]; intros lb z [Hz Hl]; apply N_map; eapply N_ext; [apply N_items, Ht|]; cbn beta;
    intros bs vs [Hn Hvs]; constructor; [rewrite Hn; exact Hl | exact Hvs]).
Qed.
Lemma check_utf8_ok bs a : check_utf8 bs = Ok a -> a = bs /\ valid_utf8 bs.
Proof.
  unfold check_utf8. destruct (from_utf8 bs) as [i|] eqn:E; [destruct (nth_error bs i); discriminate|].
  intros H. injection H as <-. split; [reflexivity | apply from_utf8_valid; exact E].
Qed.
Lemma N_string : Consumes dec_string (Accepts TString).
Proof.
  eapply N_bind; [apply N_len|]. intros lb z [Hz Hl]. eapply N_bind; [apply (@N_read _ (fun bs a => a = bs /\ length bs = Z.to_nat z)); auto|].
  cbn beta. intros x a [-> Hx]. apply N_map, N_map_err, N_lift. intros a Ha. apply check_utf8_ok in Ha. destruct Ha as [-> Ha].
  rewrite app_nil_r. constructor; [rewrite Hx; exact Hl | exact Ha].
Qed.
Lemma N_sized_str n : Consumes (dec_sized_str n) (Accepts (TSizedStr n)).
Proof.
  eapply N_bind; [apply N_len|]. intros lb z [Hz Hl]. eapply N_bind; [apply (@N_read _ (fun bs a => a = bs /\ length bs = Z.to_nat z)); auto|].
  cbn beta. intros x a [-> Hx]. apply N_map, N_lift. intros a Ha. unfold sized_from_utf8 in Ha.
  destruct (Nat.ltb_spec n (length x)) as [|Hn]; [discriminate|]. destruct (check_utf8 x) as [b| |] eqn:E; try discriminate.
  injection Ha as <-. apply check_utf8_ok in E. destruct E as [-> E].
  rewrite app_nil_r. constructor; [exact Hn | rewrite Hx; exact Hl | exact E].
Qed.
Lemma find_null_some s : forall i, (exists k, find_null i s = Some (i + k)%nat /\ nth_error s k = Some x00 /\ ~ In x00 (firstn k s))
  \/ (find_null i s = None /\ ~ In x00 s).
Proof.
  induction s as [|b s IH]; intros i; cbn [find_null]; [right; split; [reflexivity | intros []]|].
  destruct (Z.eqb_spec (b2z b) 0) as [E|E].
  - left. apply b2z_zero in E. subst b. exists 0%nat. rewrite Nat.add_0_r. split; [reflexivity|]. split; [reflexivity | intros []].
  - rewrite b2z_zero in E. destruct (IH (S i)) as [(k & Hf & Hn & Hi) | [Hf Hi]].
    + left. exists (S k). rewrite Hf. split; [f_equal; lia|]. split; [exact Hn|]. cbn [firstn In]. intros [?|?]; [congruence | contradiction].
    + right. split; [exact Hf|]. cbn [In]. intros [?|?]; [congruence | contradiction].
Qed.
Lemma N_cstring : Consumes dec_cstring (Accepts TCString).
Proof.
  eapply N_bind; [apply N_len|]. intros lb z [Hz Hl]. eapply N_bind; [apply (@N_read _ (fun bs a => a = bs /\ length bs = Z.to_nat z)); auto|].
  cbn beta. intros x a [-> Hx]. destruct (find_null_some x 0) as [(k & -> & _) | [-> Hn]]; [apply N_error|].
  apply N_ok. rewrite app_nil_r. constructor; [rewrite Hx; exact Hl | exact Hn].
Qed.

Lemma find_disc_inv ds : forall d k i, find_disc d ds k = Some i -> exists j, i = (k + j)%nat /\ nth_error ds j = Some d.
Proof.
  induction ds as [|d' ds IH]; intros d k i H; [discriminate|]. cbn [find_disc] in H.
  destruct (Z.eqb_spec d d') as [->|Hne].
  - injection H as <-. exists 0%nat. split; [lia | reflexivity].
  - destruct (IH _ _ _ H) as (j & -> & Hj). exists (S j). split; [lia | exact Hj].
Qed.

Lemma decode_owned b : (match b with TSlice t => dec_vec (decode t) | TStr => dec_string | TCStr => dec_cstring | _ => decode b end) = decode (owned b).
Proof. destruct b; reflexivity. Qed.

Lemma fold_and_map {A} (f : A -> Prop) l : fold_right and True (map f l) <-> Forall f l.
Proof.
  induction l as [|x l IH]; cbn [map fold_right]; split; intros H; try constructor; try (inversion H; subst); try tauto.
Qed.

Lemma forall_mp {A} (P Q : A -> Prop) l : Forall (fun x => P x -> Q x) l -> Forall P l -> Forall Q l.
Proof. induction 1; intros HP; inversion HP; subst; constructor; auto. Qed.

Ltac ndone := cbn beta; rewrite ?app_nil_r.

Lemma accepts_all t : EnumsOk t -> Consumes (decode t) (Accepts t) /\ Consumes (decode (owned t)) (Accepts (owned t)).
Proof.
  induction t using ty_ind_strong; intros Hok; cbn [EnumsOk] in Hok;
    try (match goal with |- ?P /\ _ => enough P by (split; assumption) end);
    repeat match goal with H : EnumsOk ?t -> _, H' : EnumsOk ?t |- _ => specialize (H H'); destruct H end; cbn [decode].
  - apply N_map. eapply N_ext; [apply N_int|]. cbn beta. intros bs z [Hz Hr]. constructor; assumption.
  - apply N_map. eapply N_ext; [apply N_unsigned|]. cbn beta. intros bs z [Hz Hr]. constructor; assumption.
  - apply N_map. eapply N_ext; [apply N_unsigned|]. cbn beta. intros bs z [Hz Hr]. constructor; assumption.
  - apply N_map. eapply N_ext; [apply N_bool|]. cbn beta. intros bs z [(-> & ->) | (b & Hb & -> & ->)]; constructor; assumption.
  - eapply N_bind; [apply N_unsigned|]. intros x c [Hc Hr]. destruct (char_accepts c) eqn:E; [|apply N_error].
    apply N_ok. rewrite app_nil_r. unfold char_accepts in E. constructor; [lia | exact Hr].
  - apply N_ok. constructor.
  - eapply N_bind; [apply N_int|]. intros x c [Hc Hr]. destruct (Z.eqb_spec c 0); [apply N_error|].
    apply N_ok. rewrite app_nil_r. constructor; assumption.
  - eapply N_bind; [apply N_bool|]. intros x c [(-> & ->) | (b & Hb & -> & ->)]; cbn [app].
    + apply N_ok. constructor.
    + apply N_map. eapply N_ext; [eassumption|]. cbn beta. intros bs v Hv. constructor; assumption.
  - destruct Hok as [Ha Hb]. destruct (IHt1 Ha) as [H1 _]. destruct (IHt2 Hb) as [H2 _].
    eapply N_bind; [apply N_bool|]. intros x c [(-> & ->) | (b & Hb' & -> & ->)]; cbn [app]; apply N_map, N_map_err;
      (eapply N_ext; [eassumption|]); cbn beta; intros bs v Hv; constructor; assumption.
  - apply N_map. eapply N_ext; [apply N_fields|].
    + apply fold_and_map in Hok. eapply Forall_impl; [|apply (@forall_mp _ _ _ _ H Hok)]. cbn beta. tauto.
    + cbn beta. intros bs v Hv. constructor; assumption.
  - apply N_map. eapply N_ext; [apply N_items; eassumption|]. cbn beta. intros bs vs [Hn Hvs]. constructor; assumption.
  - split; [apply N_panic | cbn [owned decode]; apply N_vec; assumption].
  - apply N_vec. assumption.
  - apply N_vec. assumption.
  - eapply N_bind; [apply N_len|]. intros lb z [Hz Hl]. destruct (Nat.ltb_spec n (Z.to_nat z)) as [|Hn]; [apply N_error|].
    apply N_map. eapply N_ext; [apply N_items; eassumption|]. cbn beta. intros bs vs [Hlen Hvs]. constructor; assumption.
  - split; [apply N_panic | apply N_string].
  - apply N_string.
  - apply N_sized_str.
  - split; [apply N_panic | apply N_cstring].
  - apply N_cstring.
  - apply N_map. eapply N_ext; [eassumption|]. cbn beta. intros bs v Hv. constructor; assumption.
  - rewrite decode_owned. apply N_map. eapply N_ext; [eassumption|]. cbn beta. intros bs v Hv. constructor; assumption.
  - apply N_map. eapply N_ext; [eassumption|]. cbn beta. intros bs v Hv. constructor; assumption.
  - apply N_map. eapply N_ext; [eassumption|]. cbn beta. intros bs v Hv. constructor; assumption.
  - eapply N_bind; [apply N_unsigned|]. intros sb s [Hs Hsr]. eapply N_bind; [apply N_unsigned|]. intros nb n [Hn Hnr].
    apply N_lift. intros v Hv. rewrite app_nil_r. unfold duration_new in Hv.
    change (2 ^ (8 * Z.of_nat 8)) with (2 ^ 64) in Hs. change (2 ^ (8 * Z.of_nat 4)) with (2 ^ 32) in Hn.
    destruct (Z.ltb_spec n 1000000000) as [Hlt|Hge].
    + injection Hv as <-. pose proof (@A_duration s n sb nb) as Ha. rewrite Z.div_small, Z.mod_small, Z.add_0_r in Ha by lia.
      apply Ha; try assumption; lia.
    + destruct (Z.ltb_spec (s + n / 1000000000) (2 ^ 64)) as [Hlt|]; [|discriminate]. injection Hv as <-.
      constructor; try assumption; lia.
  - eapply N_bind; [apply N_signed; lia|]. cbn beta. change (2 ^ (8 * Z.of_nat 8 - 1)) with (2 ^ 63). intros x s [Hs Hr].
    assert (E : (if 0 <? s then epoch_plus s else epoch_plus (0 - Z.abs s)) = Some (VTime s 0)).
    { destruct (Z.ltb_spec 0 s); [apply epoch_plus_in; exact Hs|]. replace (0 - Z.abs s) with s by lia. apply epoch_plus_in; exact Hs. }
    rewrite E. apply N_ok. rewrite app_nil_r. constructor; assumption.
  - apply N_map. eapply N_ext; [apply N_ip4|]. cbn beta. intros bs o [Ho ->]. constructor; assumption.
  - apply N_map. eapply N_ext; [apply N_ip6|]. cbn beta. intros bs o [Ho ->]. constructor; assumption.
  - eapply N_bind; [apply N_byte|]. intros x z (b & -> & ->). cbn [app].
    destruct (Z.eqb_spec (b2z b) 4) as [E|E]; [|destruct (Z.eqb_spec (b2z b) 6) as [E6|E6]; [|apply N_error]].
    + apply (b2z_inj b x04) in E. subst b. apply N_map. eapply N_ext; [apply N_ip4|]. cbn beta. intros bs o [Ho ->]. constructor; assumption.
    + apply (b2z_inj b x06) in E6. subst b. apply N_map. eapply N_ext; [apply N_ip6|]. cbn beta. intros bs o [Ho ->]. constructor; assumption.
  - eapply N_bind; [apply N_ip4|]. intros x o [Ho ->]. eapply N_bind; [apply N_unsigned|]. intros pb p [Hp Hr].
    apply N_ok. rewrite app_nil_r. constructor; assumption.
  - eapply N_bind; [apply N_ip6|]. intros x o [Ho ->]. eapply N_bind; [apply N_unsigned|]. intros pb p [Hp Hr].
    eapply N_bind; [apply N_unsigned|]. intros fb f [Hf Hfr]. eapply N_bind; [apply N_unsigned|]. intros sb s [Hs Hsr].
    apply N_ok. rewrite app_nil_r. constructor; assumption.
  - eapply N_bind; [apply N_byte|]. intros x z (b & -> & ->). cbn [app].
    destruct (Z.eqb_spec (b2z b) 4) as [E|E]; [|destruct (Z.eqb_spec (b2z b) 6) as [E6|E6]; [|apply N_error]].
    + apply (b2z_inj b x04) in E. subst b.
      eapply N_bind; [apply N_ip4|]. intros x o [Ho ->]. eapply N_bind; [apply N_unsigned|]. intros pb p [Hp Hr].
      apply N_ok. rewrite app_nil_r. constructor; assumption.
    + apply (b2z_inj b x06) in E6. subst b.
      eapply N_bind; [apply N_ip6|]. intros x o [Ho ->]. eapply N_bind; [apply N_unsigned|]. intros pb p [Hp Hr].
      eapply N_bind; [apply N_unsigned|]. intros fb f [Hf Hfr]. eapply N_bind; [apply N_unsigned|]. intros sb s [Hs Hsr].
      apply N_ok. rewrite app_nil_r. constructor; assumption.
  - eapply N_bind; [eassumption|]. intros x a Ha. apply N_map. eapply N_ext; [eassumption|]. cbn beta. intros bs v Hv. constructor; assumption.
  - apply N_map. eapply N_ext; [eassumption|]. cbn beta. intros bs v Hv. constructor; assumption.
  - apply N_ok. constructor.
  - eapply N_bind; [eassumption|]. intros x a Ha. apply N_map. eapply N_ext; [eassumption|]. cbn beta. intros bs v Hv. constructor; assumption.
  - apply N_map. eapply N_ext; [eassumption|]. cbn beta. intros bs v Hv. constructor; assumption.
  - apply N_map. eapply N_ext; [eassumption|]. cbn beta. intros bs v Hv. constructor; assumption.
  - eapply N_bind; [apply N_byte|]. intros x z (b & -> & ->). cbn [app].
    destruct (Z.eqb_spec (b2z b) 0) as [E|E]; [|destruct (Z.eqb_spec (b2z b) 1) as [E1|E1]; [|destruct (Z.eqb_spec (b2z b) 2) as [E2|E2]; [|apply N_error]]].
    + apply (b2z_inj b x00) in E. subst b. apply N_map, N_map_err. eapply N_ext; [eassumption|]. cbn beta. intros bs v Hv. constructor; assumption.
    + apply (b2z_inj b x01) in E1. subst b. apply N_map, N_map_err. eapply N_ext; [eassumption|]. cbn beta. intros bs v Hv. constructor; assumption.
    + apply (b2z_inj b x02) in E2. subst b. apply N_ok. constructor.
  - apply N_ok. constructor.
  - apply N_ok. constructor.
  - apply N_panic.
  - destruct Hok as [Ha Hb]. destruct (IHt1 Ha) as [H1 _]. destruct (IHt2 Hb) as [H2 _].
    eapply N_bind; [apply N_len|]. intros lb z [Hz Hl]. apply N_map. eapply N_ext; [apply N_entries; eassumption|]. cbn beta.
    intros bs m (l & Hll & Hacc & Hp). econstructor; [rewrite Hll; exact Hl | exact Hacc | exact Hp].
  - eapply N_bind; [apply N_len|]. intros lb z [Hz Hl]. apply N_map. eapply N_ext; [apply N_keys; eassumption|]. cbn beta.
    intros bs m (l & Hll & Hacc & Hp). econstructor; [rewrite Hll; exact Hl | exact Hacc | exact Hp].
  - apply N_map. eapply N_ext; [apply N_fields|].
    + apply fold_and_map in Hok. eapply Forall_impl; [|apply (@forall_mp _ _ _ _ H Hok)]. cbn beta. tauto.
    + cbn beta. intros bs v Hv. constructor; assumption.
  - destruct Hok as [Heok Hok]. apply fold_and_map in Hok. unfold dec_enum.
    destruct (discriminants (map fst vs)) as [ds|] eqn:Hd; [|apply N_panic].
    eapply N_bind; [apply N_int|]. intros x d [Hz Hr]. destruct (find_disc d ds 0) as [i|] eqn:Ei; [|apply N_error].
    apply find_disc_inv in Ei. destruct Ei as (j & -> & Hj). cbn [Nat.add].
    destruct (nth_error (map (fun x0 => map decode (snd x0)) vs) j) as [fs|] eqn:Ej; [|apply N_panic].
    apply nth_error_map_inv in Ej. destruct Ej as ([e ts] & Ej & ->). cbn [snd].
    apply N_map. eapply N_ext; [apply N_fields|].
    + rewrite Forall_forall in Hok, H. pose proof (nth_error_In _ _ Ej) as Hin. specialize (Hok _ Hin). specialize (H _ Hin). cbn [snd] in *.
      apply fold_and_map in Hok. eapply Forall_impl; [|apply (@forall_mp _ _ _ _ H Hok)]. cbn beta. tauto.
    + cbn beta. intros bs fs Hfs. econstructor; try eassumption. apply (@discriminants_assigned _ _ j d Hd). exact Hj.
Qed.

(* ---- and the other way round *)
Scheme Accepts_ind4 := Induction for Accepts Sort Prop
with AcceptsFields_ind4 := Induction for AcceptsFields Sort Prop
with AcceptsItems_ind4 := Induction for AcceptsItems Sort Prop
with AcceptsEntries_ind4 := Induction for AcceptsEntries Sort Prop.
Combined Scheme Accepts_mutind from Accepts_ind4, AcceptsFields_ind4, AcceptsItems_ind4, AcceptsEntries_ind4.

Lemma P_put k v m m' : Put k v m m' -> map_insert k v m = m'.
Proof. intros H. symmetry. apply put_unique. exact H. Qed.

Lemma accepts_parses_all :
  (forall t bs v, Accepts t bs v -> Parses (decode t) bs v) /\
  (forall ts bs vs, AcceptsFields ts bs vs -> forall conv, Parses (dec_fields conv (map decode ts)) bs vs) /\
  (forall t bs vs, AcceptsItems t bs vs -> (forall i, Parses (dec_items (decode t) (length vs) i) bs vs) /\
     (forall i s s', AddAll s vs s' -> Parses (dec_keys (decode t) (length vs) i s) bs s')) /\
  (forall k v bs l, AcceptsEntries k v bs l -> forall i m m', PutAll m l m' -> Parses (dec_entries (decode k) (decode v) (length l) i m) bs m').
Proof.
  apply (@Accepts_mutind
    (fun t bs v _ => Parses (decode t) bs v)
    (fun ts bs vs _ => forall conv, Parses (dec_fields conv (map decode ts)) bs vs)
    (fun t bs vs _ => (forall i, Parses (dec_items (decode t) (length vs) i) bs vs) /\
     (forall i s s', AddAll s vs s' -> Parses (dec_keys (decode t) (length vs) i s) bs s'))
    (fun k v bs l _ => forall i m m', PutAll m l m' -> Parses (dec_entries (decode k) (decode v) (length l) i m) bs m'));
    intros; cbn [decode]; try (apply P_ok).
  - apply P_map. apply P_int; assumption.
  - unfold dec_nonzero. eapply P_bind_last; [apply P_int; eassumption|]. replace (z =? 0) with false by lia. apply P_ok.
  - apply (P_map VInt). eapply P_u; eassumption.
  - apply (P_map VInt). eapply P_u; eassumption.
  - apply (P_map VBool (P_bool x00)).
  - rewrite <- b2z_zero in n. pose proof (P_map VBool (P_bool b)) as Hb. replace (negb (b2z b =? 0)) with true in Hb by lia. exact Hb.
  - unfold dec_char. apply le_repr_iff in l. subst bs.
    eapply P_bind_last; [apply P_unsigned; change (2 ^ (8 * Z.of_nat 4)) with 4294967296; lia|].
    replace (char_accepts c) with true by (unfold char_accepts; lia). apply P_ok.
  - apply P_sign_false, P_ok.
  - apply P_sign_true; [rewrite b2z_zero; assumption|]. apply P_map, H; assumption.
  - apply P_sign_false, P_map, P_map_err, H; assumption.
  - apply P_sign_true; [rewrite b2z_zero; assumption|]. apply P_map, P_map_err, H; assumption.
  - apply P_octet. cbn -[dmap dmap_err]. apply P_map, P_map_err, H; assumption.
  - apply P_octet. cbn -[dmap dmap_err]. apply P_map, P_map_err, H; assumption.
  - apply P_octet, P_ok.
  - apply P_map, H.
  - apply P_map, H.
  - eapply P_bind; [apply H; assumption | apply P_map, H0; assumption].
  - eapply P_bind; [apply H; assumption|].
    apply (P_map (fun b => VRangeInclusive a b false)), H0; assumption.
  - apply P_map, H; assumption.
  - apply P_map, H; assumption.
  - apply P_map, H; assumption.
  - match goal with H : enum_ok _ _ |- _ => rename H into Hok end. unfold enum_ok in Hok.
    destruct (discriminants (map fst vs)) as [ds|] eqn:Hd; [|contradiction]. destruct Hok as [Hin Hnd].
    apply (@discriminants_assigned _ _ i d Hd) in a.
    unfold dec_enum. eapply P_bind; [apply P_int; [|eassumption]|].
    + rewrite Forall_forall in Hin. apply Hin. apply (nth_error_In _ _ a).
    + rewrite (@find_disc_spec _ _ _ 0%nat Hnd a). cbn [Nat.add].
      rewrite (nth_error_map_some (fun x => map decode (snd x)) _ _ e1). cbn [snd].
      apply P_map, H; apply all2_forall2; assumption.
  - apply P_map. rewrite <- e at 1. apply H.
  - unfold dec_vec. eapply P_bind; [apply P_len; eassumption|]. rewrite Nat2Z.id. apply P_map, H.
  - unfold dec_vec. eapply P_bind; [apply P_len; eassumption|]. rewrite Nat2Z.id. apply P_map, H.
  - unfold dec_sized_slice. eapply P_bind; [apply P_len; eassumption|]. rewrite Nat2Z.id.
    replace (n <? len)%nat with false by lia. apply (P_map (fun l => VSeq (firstn len l))). rewrite <- e at 1. apply H; assumption.
  - apply P_string; assumption.
  - apply P_sized_str; assumption.
  - apply P_cstring; assumption.
  - unfold dec_map. eapply P_bind; [apply P_len; eassumption|]. rewrite Nat2Z.id. apply P_map, H. assumption.
  - unfold dec_set. eapply P_bind; [apply P_len; eassumption|]. rewrite Nat2Z.id. apply P_map, H. assumption.
  - apply P_map, H; assumption.
  - rewrite decode_owned. apply P_map, H.
  - apply P_map, H; assumption.
  - apply P_map, H; assumption.
  - unfold dec_duration. eapply P_bind; [eapply P_u; eassumption|].
    eapply P_bind_last; [eapply P_u; eassumption|].
    unfold duration_new. destruct (Z.ltb_spec n 1000000000).
    + rewrite Z.div_small, Z.mod_small, Z.add_0_r by lia. apply P_lift.
    + replace (s + n / 1000000000 <? 2 ^ 64) with true by lia. apply P_lift.
  - apply le_repr_iff in l. subst bs. apply P_time. assumption.
  - apply P_map, P_ip4; assumption.
  - apply P_map, P_ip6; assumption.
  - apply P_octet. cbn -[dmap dec_ip4]. apply P_map, P_ip4; assumption.
  - apply P_octet. cbn -[dmap dec_ip6]. apply P_map, P_ip6; assumption.
  - apply (P_sock4 VSock4); assumption.
  - apply (P_sock6 VSock6); assumption.
  - apply P_octet. cbn -[dec_sock4]. apply (P_sock4 VSockV4); assumption.
  - apply P_octet. cbn -[dec_sock6]. apply (P_sock6 VSockV6); assumption.
  - cbn [map]. apply P_fields_cons; [apply H; assumption | apply H0; assumption].
  - split; [intros i; apply P_ok|]. intros i s s' Hs. inversion Hs; subst. apply P_ok.
  - destruct H0 as [Hi Hk]. split.
    + intros i. cbn [length]. apply P_items_cons; [apply H; assumption | apply Hi].
    + intros i s s' Hs. cbn [length dec_keys]. eapply P_bind; [apply P_map_err, H|]. inversion Hs; subst.
      * rewrite set_insert_new by assumption. apply Hk. assumption.
      * rewrite set_insert_old by assumption. apply Hk. assumption.
  - match goal with H : PutAll _ [] _ |- _ => inversion H; subst end. apply P_ok.
  - match goal with H : PutAll _ (_ :: _) _ |- _ => inversion H; subst end. cbn [length dec_entries].
    eapply P_bind; [apply P_map_err, H|]. eapply P_bind; [apply P_map_err, H0|].
    match goal with H : Put _ _ _ _ |- _ => apply P_put in H; rewrite H end. apply H1. assumption.
Qed.

Lemma accepts_parses t bs v : Accepts t bs v -> Parses (decode t) bs v.
Proof. apply (proj1 accepts_parses_all). Qed.

Lemma decode_accepts t i i' v : EnumsOk t -> wf_in i -> decode t i = (i', Ok v) ->
  exists bs post, rest i = bs ++ post /\ i' = Input (i_buf i) (i_pos i + length bs) /\ Accepts t bs v.
Proof.
  intros Hok Hw H. destruct (accepts_all t Hok) as [Hc _]. destruct (Hc i i' v Hw H) as (n & Hn & -> & Ha).
  exists (firstn n (rest i)), (skipn n (rest i)). split; [symmetry; apply firstn_skipn|]. split; [|exact Ha].
  rewrite firstn_length. f_equal. lia.
Qed.
