(* Decoding the wire format. *)
From Coq Require Import Lia ZifyBool ZifyNat ZifyN.
From Verif Require Import Base BaseFacts Streams StreamFacts Utf8 Utf8Facts Types TypesFacts Traits Decode Spec
  EncodeFacts WireFacts DecodeFacts.
Set Implicit Arguments.
Local Open Scope Z_scope.

(* wherever [bs] is found, the decoder consumes it and returns [a] *)
Definition Parses {A} (m : D A) (bs : list byte) (a : A) : Prop :=
  forall pre post, m (Input (pre ++ bs ++ post) (length pre)) = (Input (pre ++ bs ++ post) (length pre + length bs)%nat, Ok a).

Lemma P_ok {A} (a : A) : Parses (dok a) [] a.
Proof. intros pre post. unfold dok. cbn [length]. rewrite Nat.add_0_r. reflexivity. Qed.

Lemma P_bind {A B} (m : D A) (k : A -> D B) x y a b : Parses m x a -> Parses (k a) y b -> Parses (dbind m k) (x ++ y) b.
Proof.
  intros Hm Hk pre post. unfold dbind. specialize (Hm pre (y ++ post)). specialize (Hk (pre ++ x) post).
  rewrite <- !app_assoc in *. rewrite Hm. rewrite !app_length in *. rewrite Hk. rewrite Nat.add_assoc. reflexivity.
Qed.

Lemma P_bind_last {A B} (m : D A) (k : A -> D B) x a b : Parses m x a -> Parses (k a) [] b -> Parses (dbind m k) x b.
Proof. intros Hm Hk. rewrite <- (app_nil_r x). eapply P_bind; [exact Hm | exact Hk]. Qed.

Lemma P_map {A B} (f : A -> B) m x a : Parses m x a -> Parses (dmap f m) x (f a).
Proof. intros H. unfold dmap. eapply P_bind_last; [exact H|]. apply P_ok. Qed.

Lemma P_map_err {A} f (m : D A) x a : Parses m x a -> Parses (dmap_err f m) x a.
Proof. intros H pre post. unfold dmap_err. rewrite H. reflexivity. Qed.

Lemma P_lift {A} (a : A) : Parses (dlift (Ok a)) [] a.
Proof. apply P_ok. Qed.

Lemma P_read bs : Parses (dread (length bs)) bs bs.
Proof.
  intros pre post. unfold dread. rewrite read_ok; cbn [i_buf i_pos].
  - rewrite skipn_length_app, firstn_length_app. reflexivity.
  - rewrite !app_length. lia.
Qed.
Lemma P_read_n n bs : length bs = n -> Parses (dread n) bs bs.
Proof. intros <-. apply P_read. Qed.
Lemma P_read_into n bs : length bs = n -> Parses (dread_into n) bs bs.
Proof. intros H pre post. rewrite dread_into_read. apply P_read_n. exact H. Qed.

Lemma P_unsigned w z : 0 <= z < 2 ^ (8 * Z.of_nat w) -> Parses (dec_unsigned w) (le_bytes w z) z.
Proof.
  intros Hz. replace z with (of_le (le_bytes w z)) at 2 by (apply of_le_unsigned; exact Hz).
  apply P_map, P_read_into, le_bytes_length.
Qed.
Lemma P_signed w z : (0 < w)%nat -> - 2 ^ (8 * Z.of_nat w - 1) <= z < 2 ^ (8 * Z.of_nat w - 1) -> Parses (dec_signed w) (le_bytes w z) z.
Proof.
  intros Hw Hz. replace z with (to_signed w (of_le (le_bytes w z))) at 2 by (apply to_signed_le_bytes; assumption).
  apply (@P_map _ _ (fun bs => to_signed w (of_le bs)) (dread_into w) (le_bytes w z)). apply P_read_into, le_bytes_length.
Qed.

Lemma P_byte b : Parses dec_u8 [b] (b2z b).
Proof.
  replace [b] with (le_bytes 1 (b2z b)) by (cbn [le_bytes]; rewrite z2b_b2z; reflexivity).
  apply P_unsigned. pose proof (b2z_range b). change (2 ^ (8 * Z.of_nat 1)) with 256. lia.
Qed.
Lemma P_bool b : Parses dec_bool [b] (negb (b2z b =? 0)).
Proof. apply (@P_map _ _ (fun z => negb (z =? 0)) dec_u8 [b] (b2z b)). apply P_byte. Qed.

Lemma P_int i z bs : in_ity i z -> WireInt i z bs -> Parses (dec_int i) bs z.
Proof.
  intros Hz H. inversion H; subst.
  - match goal with H : le_repr _ _ _ |- _ => apply le_repr_iff in H; subst bs end.
    destruct i; try congruence; cbn [dec_int isigned iwidth] in *; unfold in_ity in Hz; cbn [isigned iwidth] in Hz;
      first [apply P_unsigned; exact Hz | apply P_signed; [lia | exact Hz]].
  - match goal with H : le_repr _ _ _ |- _ => apply le_repr_iff in H; subst bs end.
    cbn [dec_int]. apply P_unsigned. change (2 ^ (8 * Z.of_nat 2)) with 65536. lia.
  - match goal with H : le_repr _ _ _ |- _ => apply le_repr_iff in H; subst bs end.
    cbn [dec_int]. apply P_signed; [lia|]. change (2 ^ (8 * Z.of_nat 2 - 1)) with 32768. lia.
Qed.

Lemma P_len n bs : WireLen n bs -> Parses dec_usize bs (Z.of_nat n).
Proof.
  intros [Hn Hr]. apply le_repr_iff in Hr. subst bs. apply P_unsigned. change (2 ^ (8 * Z.of_nat 2)) with 65536. lia.
Qed.

Lemma P_string s lb : WireLen (length s) lb -> valid_utf8 s -> Parses dec_string (lb ++ s) (VStr s).
Proof.
  intros Hl Hv. unfold dec_string. eapply P_bind; [exact (P_len Hl)|]. rewrite Nat2Z.id.
  eapply P_bind_last; [exact (P_read s)|]. apply P_map, P_map_err.
  unfold check_utf8. apply from_utf8_valid in Hv. rewrite Hv. apply P_lift.
Qed.
Lemma P_sized_str n s lb : (length s <= n)%nat -> WireLen (length s) lb -> valid_utf8 s ->
  Parses (dec_sized_str n) (lb ++ s) (VStr s).
Proof.
  intros Hn Hl Hv. unfold dec_sized_str. eapply P_bind; [exact (P_len Hl)|]. rewrite Nat2Z.id.
  eapply P_bind_last; [exact (P_read s)|]. apply P_map.
  unfold sized_from_utf8, check_utf8. apply from_utf8_valid in Hv. rewrite Hv.
  replace (n <? length s)%nat with false by lia. apply P_lift.
Qed.

Lemma find_null_none s : forall i, ~ In x00 s -> find_null i s = None.
Proof.
  induction s as [|b s IH]; intros i H; cbn [find_null]; [reflexivity|].
  destruct (Z.eqb_spec (b2z b) 0) as [E|E].
  - exfalso. apply H. left. apply (b2z_inj b x00). exact E.
  - apply IH. intros Hin. apply H. right. exact Hin.
Qed.
Lemma P_cstring s lb : WireLen (length s) lb -> ~ In x00 s -> Parses dec_cstring (lb ++ s) (VStr s).
Proof.
  intros Hl Hv. unfold dec_cstring. eapply P_bind; [exact (P_len Hl)|]. rewrite Nat2Z.id.
  eapply P_bind_last; [exact (P_read s)|]. rewrite find_null_none by exact Hv. apply P_ok.
Qed.

Lemma P_ip4 o : length o = 4%nat -> Parses dec_ip4 (rev o) o.
Proof.
  intros H. replace (rev o) with (le_bytes 4 (of_be o)) by (rewrite <- H; apply le_bytes_of_be).
  unfold dec_ip4. replace o with (be_bytes 4 (of_be o)) at 2 by (rewrite <- H; apply be_bytes_of_be).
  apply P_map, P_unsigned. rewrite <- H. apply of_be_range.
Qed.
Lemma P_ip6 o : length o = 16%nat -> Parses dec_ip6 (rev o) o.
Proof.
  intros H. replace (rev o) with (le_bytes 16 (of_be o)) by (rewrite <- H; apply le_bytes_of_be).
  unfold dec_ip6. replace o with (be_bytes 16 (of_be o)) at 2 by (rewrite <- H; apply be_bytes_of_be).
  apply P_map, P_unsigned. rewrite <- H. apply of_be_range.
Qed.

Lemma P_u w z bs : le_repr w z bs -> 0 <= z < 2 ^ (8 * Z.of_nat w) -> Parses (dec_unsigned w) bs z.
Proof. rewrite le_repr_iff. intros ->. apply P_unsigned. Qed.

Lemma P_sock4 k o p pb : length o = 4%nat -> in_u16 p -> le_repr 2 p pb -> Parses (dec_sock4 k) (rev o ++ pb) (k o p).
Proof.
  intros Ho Hp Hr. unfold dec_sock4. eapply P_bind; [exact (P_ip4 _ Ho)|]. eapply P_bind_last; [exact (P_u Hr Hp)|]. apply P_ok.
Qed.
Lemma P_sock6 k o p f s pb fb sb : length o = 16%nat -> in_u16 p -> in_u32 f -> in_u32 s ->
  le_repr 2 p pb -> le_repr 4 f fb -> le_repr 4 s sb -> Parses (dec_sock6 k) (rev o ++ pb ++ fb ++ sb) (k o p f s).
Proof.
  intros Ho Hp Hf Hs Hrp Hrf Hrs. unfold dec_sock6. eapply P_bind; [exact (P_ip6 _ Ho)|].
  eapply P_bind; [exact (P_u Hrp Hp)|]. eapply P_bind; [exact (P_u Hrf Hf)|]. eapply P_bind_last; [exact (P_u Hrs Hs)|]. apply P_ok.
Qed.

Lemma P_sign_true {A} (k : bool -> D A) x bs a : b2z x <> 0 -> Parses (k true) bs a -> Parses (dbind dec_bool k) (x :: bs) a.
Proof.
  intros Hx H. pose proof (P_bool x) as Hb. replace (negb (b2z x =? 0)) with true in Hb by lia.
  exact (@P_bind _ _ dec_bool k [x] bs true a Hb H).
Qed.
Lemma P_sign_false {A} (k : bool -> D A) bs a : Parses (k false) bs a -> Parses (dbind dec_bool k) (x00 :: bs) a.
Proof. intros H. exact (@P_bind _ _ dec_bool k [x00] bs false a (P_bool x00) H). Qed.
Lemma P_octet {A} (k : Z -> D A) x bs a : Parses (k (b2z x)) bs a -> Parses (dbind dec_u8 k) (x :: bs) a.
Proof. intros H. exact (@P_bind _ _ dec_u8 k [x] bs _ a (P_byte x) H). Qed.

Lemma find_disc_spec ds : forall d i k, NoDup ds -> nth_error ds i = Some d -> find_disc d ds k = Some (k + i)%nat.
Proof.
  induction ds as [|d' ds IH]; intros d i k Hnd Hn; [destruct i; discriminate|].
  cbn [find_disc]. inversion Hnd; subst. destruct i as [|i]; cbn [nth_error] in Hn.
  - injection Hn as ->. rewrite Z.eqb_refl, Nat.add_0_r. reflexivity.
  - destruct (Z.eqb_spec d d') as [->|Hne].
    + exfalso. apply nth_error_In in Hn. contradiction.
    + rewrite (IH d i (S k)) by assumption. f_equal. lia.
Qed.

Lemma epoch_plus_in t : - 2 ^ 63 <= t < 2 ^ 63 -> epoch_plus t = Some (VTime t 0).
Proof. intros H. unfold epoch_plus. replace ((- 2 ^ 63 <=? t) && (t <? 2 ^ 63)) with true by lia. reflexivity. Qed.

Lemma P_time t : - 2 ^ 63 <= t < 2 ^ 63 -> Parses dec_time (le_bytes 8 t) (VTime t 0).
Proof.
  intros Ht. unfold dec_time. eapply P_bind_last; [apply P_signed; [lia | exact Ht]|].
  destruct (Z.ltb_spec 0 t) as [H|H].
  - rewrite epoch_plus_in by exact Ht. apply P_ok.
  - replace (0 - Z.abs t) with t by lia. rewrite epoch_plus_in by exact Ht. apply P_ok.
Qed.

Lemma P_items_cons {A} (f : D A) n i x y a l : Parses f x a -> Parses (dec_items f n (S i)) y l ->
  Parses (dec_items f (S n) i) (x ++ y) (a :: l).
Proof. intros Hx Hy. cbn [dec_items]. eapply P_bind; [apply P_map_err; exact Hx | apply P_map; exact Hy]. Qed.
Lemma P_fields_cons conv f fs x y a l : Parses f x a -> Parses (dec_fields conv fs) y l ->
  Parses (dec_fields conv (f :: fs)) (x ++ y) (a :: l).
Proof. intros Hx Hy. cbn [dec_fields]. eapply P_bind; [apply P_map_err; exact Hx | apply P_map; exact Hy]. Qed.

Lemma P_vec f vs lb bs : WireLen (length vs) lb -> (forall i, Parses (dec_items f (length vs) i) bs (map norm vs)) ->
  Parses (dec_vec f) (lb ++ bs) (VSeq (map norm vs)).
Proof. intros Hl H. unfold dec_vec. eapply P_bind; [apply P_len; exact Hl|]. rewrite Nat2Z.id. apply P_map, H. Qed.

(* what a type parses to when it stands behind Cow *)
Definition owned_decode (b : ty) : D val :=
  match b with TSlice t => dec_vec (decode t) | TStr => dec_string | TCStr => dec_cstring | _ => decode b end.
Definition owned_rt (b : ty) (v : val) : Prop :=
  match b, v with TSlice t, VSeq vs => Forall (RoundTrips t) vs | TStr, _ | TCStr, _ => True | _, _ => RoundTrips b v end.

Lemma round_trip_all ch :
  (forall t v bs, Wire ch t v bs -> wt t v ->
     (RoundTrips t v -> Parses (decode t) bs (norm v)) /\ (owned_rt t v -> Parses (owned_decode t) bs (norm v))) /\
  (forall ts vs bs, WireFields ch ts vs bs -> Forall2 wt ts vs -> Forall2 RoundTrips ts vs ->
     forall conv, Parses (dec_fields conv (map decode ts)) bs (map norm vs)) /\
  (forall t vs bs, WireItems ch t vs bs -> Forall (wt t) vs -> Forall (RoundTrips t) vs ->
     forall i, Parses (dec_items (decode t) (length vs) i) bs (map norm vs)) /\
  (forall k v kvs bs, WireEntries ch k v kvs bs -> True).
Proof.
  apply (@Wire_mutind ch
    (fun t v bs _ => wt t v ->
      (RoundTrips t v -> Parses (decode t) bs (norm v)) /\ (owned_rt t v -> Parses (owned_decode t) bs (norm v)))
    (fun ts vs bs _ => Forall2 wt ts vs -> Forall2 RoundTrips ts vs ->
      forall conv, Parses (dec_fields conv (map decode ts)) bs (map norm vs))
    (fun t vs bs _ => Forall (wt t) vs -> Forall (RoundTrips t) vs ->
      forall i, Parses (dec_items (decode t) (length vs) i) bs (map norm vs))
    (fun k v kvs bs _ => True)); try (intros; exact I);
    intros;
    try (match goal with |- (RoundTrips ?t ?v -> ?P) /\ _ =>
           let H := fresh "Hrt" in
           enough (H : RoundTrips t v -> P) by (split; [exact H|]; try exact H);
           intros Hrt; cbn [decode norm RoundTrips wt] in * end);
    try (apply P_ok).
  - apply P_map. apply P_int; assumption.
  - destruct H as [Hz Hnz]. unfold dec_nonzero. eapply P_bind_last; [apply P_int; eassumption|].
    replace (z =? 0) with false by lia. apply P_ok.
  - apply (P_map VInt). eapply P_u; eassumption.
  - apply (P_map VInt). eapply P_u; eassumption.
  - apply (P_map VBool (P_bool x00)).
  - apply (P_map VBool (P_bool x01)).
  - unfold dec_char. apply le_repr_iff in l. subst bs.
    eapply P_bind_last; [apply P_unsigned; unfold is_scalar in H; change (2 ^ (8 * Z.of_nat 4)) with 4294967296; lia|].
    replace (char_accepts c) with true by (unfold char_accepts; unfold is_scalar in H; lia). apply P_ok.
  - apply P_sign_false, P_ok.
  - apply P_sign_true; [discriminate|]. apply P_map, H; assumption.
  - apply P_sign_false, P_map, P_map_err, H; assumption.
  - apply P_sign_true; [discriminate|]. apply P_map, P_map_err, H; assumption.
  - apply P_octet. cbn -[dmap dmap_err]. apply P_map, P_map_err, H; assumption.
  - apply P_octet. cbn -[dmap dmap_err]. apply P_map, P_map_err, H; assumption.
  - apply P_octet, P_ok.
  - apply P_map, H; apply all2_forall2; assumption.
  - apply P_map, H; apply all2_forall2; assumption.
  - destruct H1, Hrt. eapply P_bind; [apply H; assumption | apply P_map, H0; assumption].
  - destruct H1, Hrt. eapply P_bind; [apply H; assumption|].
    apply (P_map (fun b => VRangeInclusive (norm a) b false)), H0; assumption.
  - apply P_map, H; assumption.
  - apply P_map, H; assumption.
  - apply P_map, H; assumption.
  - destruct H0 as [Hok Hf]. unfold enum_ok in Hok.
    destruct (discriminants (map fst vs)) as [ds|] eqn:Hd; [|contradiction]. destruct Hok as [Hin Hnd].
    rewrite (nth_error_map_some (fun x => map wt (snd x)) _ _ e0) in Hf. cbn [snd] in Hf.
    rewrite (nth_error_map_some (fun x => map RoundTrips (snd x)) _ _ e0) in Hrt. cbn [snd] in Hrt.
    apply (@discriminants_assigned _ _ i d Hd) in a.
    unfold dec_enum. eapply P_bind; [apply P_int; [|eassumption]|].
    + rewrite Forall_forall in Hin. apply Hin. apply (nth_error_In _ _ a).
    + rewrite (@find_disc_spec _ _ _ 0%nat Hnd a). cbn [Nat.add].
      rewrite (nth_error_map_some (fun x => map decode (snd x)) _ _ e0). cbn [snd].
      apply P_map, H; apply all2_forall2; assumption.
  - destruct H0 as [Hl Hw]. apply P_map. rewrite <- Hl at 1. apply H; assumption.
  - split; [intros [] | intros Hrt]. cbn [wt owned_rt owned_decode norm] in *. apply P_vec; [assumption | apply H; assumption].
  - apply P_vec; [assumption | apply H; assumption].
  - apply P_vec; [assumption | apply H; assumption].
  - destruct H0 as [Hl Hw]. destruct Hrt as [Hn Hrt]. unfold dec_sized_slice.
    eapply P_bind; [apply P_len; eassumption|]. rewrite Nat2Z.id.
    replace (n <? length vs)%nat with false by lia.
    replace (VSeq (map norm vs)) with (VSeq (firstn (length vs) (map norm vs))) by (rewrite <- (map_length norm), firstn_all; reflexivity).
    apply (P_map (fun l => VSeq (firstn (length vs) l))). rewrite <- Hn at 1. apply H; assumption.
  - split; [intros [] | intros _]. cbn [wt owned_rt owned_decode norm] in *. apply P_string; assumption.
  - apply P_string; assumption.
  - apply P_sized_str; tauto.
  - split; [intros [] | intros _]. cbn [wt owned_rt owned_decode norm] in *. apply P_cstring; assumption.
  - apply P_cstring; assumption.
  - contradiction.
  - contradiction.
  - apply P_map, H; assumption.
  - change (Parses (dmap (VCow true) (owned_decode t)) bs (VCow true (norm v))). apply P_map, H; assumption.
  - apply P_map, H; assumption.
  - apply P_map, H; assumption.
  - destruct H as [Hs Hn]. unfold dec_duration. eapply P_bind; [apply (P_u l); exact Hs|].
    eapply P_bind_last; [apply (P_u l0); change (2 ^ (8 * Z.of_nat 4)) with 4294967296; lia|].
    unfold duration_new. replace (n <? 1000000000) with true by lia. apply P_lift.
  - apply le_repr_iff in l. subst bs. apply P_time. apply time_bounds; tauto.
  - apply P_map, P_ip4; assumption.
  - apply P_map, P_ip6; assumption.
  - apply P_octet. cbn -[dmap dec_ip4]. apply P_map, P_ip4; assumption.
  - apply P_octet. cbn -[dmap dec_ip6]. apply P_map, P_ip6; assumption.
  - apply (P_sock4 VSock4); tauto.
  - apply (P_sock6 VSock6); tauto.
  - apply P_octet. cbn -[dec_sock4]. apply (P_sock4 VSockV4); tauto.
  - apply P_octet. cbn -[dec_sock6]. apply (P_sock6 VSockV6); tauto.
  - inversion H1; subst. inversion H2; subst. cbn [map]. apply P_fields_cons; [apply H; assumption | apply H0; assumption].
  - inversion H1; subst. inversion H2; subst. cbn [map length]. apply P_items_cons; [apply H; assumption | apply H0; assumption].
Qed.

Lemma round_trip ch t v bs : Wire ch t v bs -> wt t v -> RoundTrips t v -> Parses (decode t) bs (norm v).
Proof. intros H Hw. apply (proj1 (round_trip_all ch) t v bs H Hw). Qed.
