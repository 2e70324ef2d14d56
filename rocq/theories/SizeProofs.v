(* Proofs of C35, C36 and C40. *)
From Coq Require Import Lia ZifyBool ZifyNat ZifyN.
From Verif Require Import Base BaseFacts Streams StreamFacts Utf8 Types Traits Encode Decode Sized TypesFacts Spec SpecCalls SpecDecode SpecSize
  EncodeFacts WireFacts RoundTrip EncodeProofs DecodeFacts DecodeLocal AcceptFacts DecodeProofs.
Set Implicit Arguments.
Local Open Scope N_scope.

(* ---- encoding *)

(* the call writes at most [n] octets *)
Definition Within (n : N) (m : E) : Prop := exists cs r, Traces m cs r /\ N.of_nat (length (concat cs)) <= n.

Lemma B_intro n m cs r : Traces m cs r -> N.of_nat (length (concat cs)) <= n -> Within n m.
Proof. intros. exists cs, r. auto. Qed.
Lemma B_ok n : Within n eok.
Proof. eapply B_intro; [apply T_eok | cbn; lia]. Qed.
Lemma B_err n e : Within n (eerror e).
Proof. eapply B_intro; [apply T_eerror | cbn; lia]. Qed.
Lemma B_panic n p : Within n (epanic p).
Proof. eapply B_intro; [apply T_epanic | cbn; lia]. Qed.
Lemma B_write n d : N.of_nat (length d) <= n -> Within n (ewrite d).
Proof. intros. eapply B_intro; [apply T_ewrite | cbn; rewrite app_nil_r; lia]. Qed.
Lemma B_num n w z : N.of_nat w <= n -> Within n (enc_num w z).
Proof. intros. apply B_write. rewrite le_bytes_length. lia. Qed.
Lemma B_mono n m (a : E) : n <= m -> Within n a -> Within m a.
Proof. intros H (cs & r & Ht & Hl). exists cs, r. split; [exact Ht | lia]. Qed.
Lemma B_seq n m a b : Within n a -> Within m b -> Within (n + m) (eseq a b).
Proof.
  intros (cs & r & Ha & Hn) (ds & q & Hb & Hm). destruct r as [[]|e|p].
  - eapply B_intro; [eapply T_seq_ok; eassumption|]. rewrite concat_app, app_length. lia.
  - eapply B_intro; [eapply T_seq_stop; [eassumption|discriminate]|lia].
  - eapply B_intro; [eapply T_seq_stop; [eassumption|discriminate]|lia].
Qed.
Lemma B_map_err n f a : Within n a -> Within n (emap_err f a).
Proof. intros (cs & r & Ha & Hn). eapply B_intro; [apply T_map_err; exact Ha | exact Hn]. Qed.
Lemma B_int i z : Within (int_size i) (enc_int i z).
Proof.
  destruct i; cbn [enc_int int_size]; try (apply B_num; reflexivity).
  - unfold enc_usize. destruct (_ && _)%bool; [apply B_num; reflexivity | apply B_err].
  - unfold enc_isize. destruct (_ && _)%bool; [apply B_num; reflexivity | apply B_err].
Qed.
Lemma B_items (f : val -> E) n wrap l : Forall (fun x => Within n (f x)) l ->
  forall i, Within (n * N.of_nat (length l)) (enc_items f wrap i l).
Proof.
  induction 1 as [|x l Hx Hl IH]; intros i; cbn [enc_items length]; [apply B_ok|].
  eapply B_mono; [|apply B_seq; [apply B_map_err; exact Hx | apply IH]]. lia.
Qed.
Lemma B_bytes n s : 2 + N.of_nat (length s) <= n -> Within n (enc_bytes s).
Proof.
  intros H. eapply B_mono; [exact H|]. apply B_seq; [apply B_map_err; apply (B_int Usize)|].
  generalize 0%nat as i. clear H. induction s as [|b s IH]; intros i; cbn [enc_items length]; [apply B_ok|].
  eapply B_mono; [|apply B_seq; [apply B_map_err, (@B_num 1); reflexivity | apply IH]]. lia.
Qed.
Lemma B_fields so ch conv ts : Forall (fun t => forall n, max_size so t = Some n -> forall v, wt t v -> Within n (encode ch t v)) ts ->
  forall vs n, sum_opt (map (max_size so) ts) = Some n -> all2 (map wt ts) vs -> Within n (enc_fields (map (encode ch) ts) conv vs).
Proof.
  induction 1 as [|t ts Ht Hts IH]; intros [|v vs] n Hn Hv; cbn [map all2 enc_fields sum_opt] in *; try contradiction; [apply B_ok|].
  destruct (max_size so t) as [m|] eqn:Em; [|discriminate].
  destruct (sum_opt (map (max_size so) ts)) as [k|]; [|discriminate]. injection Hn as <-. destruct Hv.
  apply B_seq; [apply B_map_err; apply Ht; auto | apply IH; auto].
Qed.

Lemma max_opt_le l m : max_opt l = Some m -> forall i x, nth_error l i = Some x -> exists n, x = Some n /\ n <= m.
Proof.
  revert m. induction l as [|[a|] l IH]; intros m H i x Hi; cbn [max_opt] in H; [destruct i; discriminate | | discriminate].
  destruct (max_opt l) as [k|]; [|discriminate]. injection H as <-.
  destruct i as [|i]; cbn [nth_error] in Hi.
  - injection Hi as <-. exists a. split; [reflexivity | lia].
  - destruct (IH k eq_refl i x Hi) as (n & -> & Hn). exists n. split; [reflexivity | lia].
Qed.

Lemma fold_and {A} (P : A -> Prop) l : fold_right and True (map P l) -> Forall P l.
Proof. induction l; cbn [map fold_right]; intros H; constructor; [tauto | apply IHl; tauto]. Qed.

Lemma forall_use {A} (P Q : A -> Prop) l : Forall P l -> Forall (fun x => P x -> Q x) l -> Forall Q l.
Proof. intros HP HQ. rewrite Forall_forall in *. auto. Qed.

Lemma some_inj {A} (a b : A) : Some a = Some b -> a = b.
Proof. congruence. Qed.

Ltac optn := match goal with H : option_map _ (max_size ?s ?t) = Some _ |- _ =>
  let k := fresh "k" in destruct (max_size s t) as [k|] eqn:?; [|discriminate]; cbn [option_map] in H; apply some_inj in H; rewrite <- H in *; clear H end.

Lemma within so ch t : SizeOk so t -> forall n, max_size so t = Some n -> forall v, wt t v -> Within n (encode ch t v).
Proof.
  induction t using ty_ind_strong; cbn [SizeOk max_size]; intros Hok m Hm v Hv; try discriminate;
    destruct v; cbn [wt] in Hv; try contradiction; cbn [encode]; try (apply some_inj in Hm; subst m);
    try apply B_int; try (apply B_num; reflexivity); try apply B_ok; try (apply IHt; assumption);
    try optn; try (eapply B_mono; [|apply B_seq; [apply (@B_num 1); reflexivity | first [apply IHt; [assumption|reflexivity|assumption] | apply B_map_err, IHt; [assumption|reflexivity|assumption]]]]; lia);
    try (eapply B_mono; [|apply (@B_num 1); reflexivity]; lia).
  - destruct Hok as (H1 & H2 & Hs). destruct (max_size so t1) as [a|]; [|discriminate]. destruct (max_size so t2) as [b|]; [|discriminate].
    apply some_inj in Hm. subst m. specialize (Hs _ _ eq_refl eq_refl).
    eapply B_mono; [|apply B_seq; [apply (@B_num 1); reflexivity | apply IHt1; [assumption|reflexivity|assumption]]].
    destruct (N.ltb_spec (so t2) (so t1)); lia.
  - destruct Hok as (H1 & H2 & Hs). destruct (max_size so t1) as [a|]; [|discriminate]. destruct (max_size so t2) as [b|]; [|discriminate].
    apply some_inj in Hm. subst m. specialize (Hs _ _ eq_refl eq_refl).
    eapply B_mono; [|apply B_seq; [apply (@B_num 1); reflexivity | apply B_map_err, IHt2; [assumption|reflexivity|assumption]]].
    destruct (N.ltb_spec (so t2) (so t1)); lia.
  - apply fold_and in Hok. apply (@B_fields so); [exact (@forall_use _ _ _ _ Hok H) | assumption | assumption].
  - destruct Hv as [Hl Hv]. subst n. apply B_items. eapply Forall_impl; [|exact Hv]. cbn beta. intros x Hx. apply IHt; auto.
  - apply B_bytes. lia.
  - unfold enc_refcell. destruct mut_borrowed; [apply B_err | apply B_map_err, IHt; assumption].
  - apply (@B_seq 8 4); apply B_num; reflexivity.
  - unfold enc_time. destruct (0 <=? secs)%Z; [apply B_num; reflexivity|]. cbv zeta.
    destruct (_ =? _)%Z; [destruct ch; [apply B_panic | apply B_num; reflexivity] | apply B_num; reflexivity].
  - apply (@B_mono 5); [lia|]. apply (@B_seq 1 4); apply B_map_err, B_num; reflexivity.
  - apply (@B_seq 1 16); apply B_map_err, B_num; reflexivity.
  - apply (@B_seq 4 2); apply B_num; reflexivity.
  - apply (@B_seq 16 10); [apply B_num; reflexivity|]. apply (@B_seq 2 8); [apply B_num; reflexivity|].
    apply (@B_seq 4 4); apply B_num; reflexivity.
  - apply (@B_mono 7); [lia|]. apply (@B_seq 1 6); [apply B_num; reflexivity|]. apply (@B_seq 4 2); apply B_num; reflexivity.
  - apply (@B_seq 1 26); [apply B_num; reflexivity|].
    apply (@B_seq 16 10); [apply B_num; reflexivity|]. apply (@B_seq 2 8); [apply B_num; reflexivity|].
    apply (@B_seq 4 4); apply B_num; reflexivity.
  - destruct Hv. replace (k * 2) with (k + k) by lia. apply B_seq; apply IHt; auto.
  - destruct Hv. replace (k * 2) with (k + k) by lia. apply B_seq; apply IHt; auto.
  - apply fold_and in Hok. apply (@B_fields so); [exact (@forall_use _ _ _ _ Hok H) | assumption | assumption].
  - destruct Hv as [_ Hv]. unfold enc_enum. destruct (discriminants (map fst vs)) as [ds|]; [|apply B_panic].
    destruct (nth_error ds i) as [d|]; [|apply B_panic].
    destruct (nth_error (map (fun x => map wt (snd x)) vs) i) as [ps|] eqn:E; [|contradiction].
    apply nth_error_map_inv in E. destruct E as (x & Ex & ->).
    rewrite (nth_error_map_some (fun x => map (encode ch) (snd x)) _ _ Ex).
    pose proof (nth_error_map_some (fun x => option_map (N.add (int_size r)) (sum_opt (map (max_size so) (snd x)))) _ _ Ex) as Ey.
    destruct (max_opt_le _ Hm _ Ey) as (n & Hn & Hle).
    destruct (sum_opt (map (max_size so) (snd x))) as [k|] eqn:Ek; [|discriminate]. injection Hn as <-.
    eapply B_mono; [exact Hle|]. apply B_seq; [apply B_map_err, B_int|].
    apply fold_and in Hok. rewrite Forall_forall in Hok, H. pose proof (nth_error_In _ _ Ex) as Hin.
    specialize (Hok _ Hin). cbn beta in Hok. apply fold_and in Hok.
    apply (@B_fields so); [exact (@forall_use _ _ _ _ Hok (H _ Hin)) | assumption | assumption].
Qed.

Lemma C35_lemma so ch t n v o o' r : max_size so t = Some n -> SizeOk so t -> wt t v ->
  (output_position o <= output_capacity o)%nat -> encode ch t v o = (o', r) ->
  N.of_nat (output_position o' - output_position o) <= n.
Proof.
  intros Hn Hok Hv Hw He. destruct (@within so ch t Hok n Hn v Hv) as (cs & q & Ht & Hl). rewrite (Ht o) in He.
  assert (Hd : fits o (concat cs) \/ ~ fits o (concat cs)) by (unfold fits; lia). destruct Hd as [Hf|Hf].
  - rewrite replay_fits in He by assumption. injection He as <- <-. unfold output_position. rewrite append_pos. lia.
  - destruct (replay_short cs q Hw Hf) as (done & c & rest & Hcs & Hf1 & Hf2 & Hr). rewrite Hr in He. injection He as <- <-.
    unfold output_position. rewrite append_pos. rewrite Hcs, concat_app, app_length in Hl. lia.
Qed.

Lemma C35_room_lemma so ch t n v o : max_size so t = Some n -> SizeOk so t -> wt t v ->
  (output_position o <= output_capacity o)%nat -> n <= N.of_nat (output_remaining o) ->
  forall o' e, encode ch t v o <> (o', Panic (POutput e)).
Proof.
  intros Hn Hok Hv Hw Hr o' e He. destruct (@C09_lemma ch t v Hv) as (bs & r & Hr' & H).
  destruct (H o Hw) as [H1 H2].
  destruct (le_lt_dec (length bs) (output_remaining o)) as [Hle|Hlt].
  - destruct (H1 Hle) as (o1 & E1 & _). rewrite E1 in He. injection He as _ ->.
    destruct Hr' as [?|[[? ?]|(? & _)]]; discriminate.
  - destruct (@within so ch t Hok n Hn v Hv) as (cs & q & Ht & Hl). rewrite (Ht o) in He.
    unfold output_remaining, output_capacity, output_position in *.
    rewrite replay_fits in He by (unfold fits, wf_out; lia). injection He as _ ->.
    destruct (@C09_lemma ch t v Hv) as (bs2 & r2 & Hr2 & H').
    pose proof (traces_appends Ht) as Ha.
    destruct (Ha (big_out (length bs2 + length (concat cs))) (big_wf _)) as (o3 & E3 & _).
    { unfold output_remaining, output_capacity, output_position, big_out. cbn [o_buf o_pos]. rewrite repeat_length. lia. }
    destruct (H' (big_out (length bs2 + length (concat cs))) (big_wf _)) as [H3 _].
    destruct H3 as (o4 & E4 & _).
    { unfold output_remaining, output_capacity, output_position, big_out. cbn [o_buf o_pos]. rewrite repeat_length. lia. }
    rewrite E3 in E4. injection E4 as _ <-. destruct Hr2 as [?|[[? ?]|(? & _)]]; discriminate.
Qed.

(* ---- decoding, whatever the outcome *)

Definition Reads {A : Type} (n : N) (m : D A) : Prop := forall i i' r, m i = (i', r) -> N.of_nat (i_pos i') <= N.of_nat (i_pos i) + n.

Lemma D_ok {A} n (a : A) : Reads n (dok a).
Proof. intros i i' r H. injection H as <- <-. lia. Qed.
Lemma D_error {A} n e : Reads n (@derror A e).
Proof. intros i i' r H. injection H as <- <-. lia. Qed.
Lemma D_panic {A} n p : Reads n (@dpanic A p).
Proof. intros i i' r H. injection H as <- <-. lia. Qed.
Lemma D_lift {A} n (x : res derr A) : Reads n (dlift x).
Proof. intros i i' r H. injection H as <- <-. lia. Qed.
Lemma D_mono {A} n m (a : D A) : n <= m -> Reads n a -> Reads m a.
Proof. intros Hn Ha i i' r H. specialize (Ha _ _ _ H). lia. Qed.
Lemma D_bind {A B} n m (a : D A) (k : A -> D B) : Reads n a -> (forall x, Reads m (k x)) -> Reads (n + m) (dbind a k).
Proof.
  intros Ha Hk i i' r H. unfold dbind in H. destruct (a i) as [i1 [x|e|p]] eqn:E; specialize (Ha _ _ _ E).
  - specialize (Hk _ _ _ _ H). lia.
  - injection H as <- <-. lia.
  - injection H as <- <-. lia.
Qed.
Lemma D_map {A B} n (f : A -> B) m : Reads n m -> Reads n (dmap f m).
Proof. intros H. apply (@D_mono _ (n + 0)); [lia|]. apply D_bind; [exact H | intros; apply D_ok]. Qed.
Lemma D_map_err {A} n f (m : D A) : Reads n m -> Reads n (dmap_err f m).
Proof.
  intros Hm i i' r H. unfold dmap_err in H. destruct (m i) as [i1 [x|e|p]] eqn:E; specialize (Hm _ _ _ E); injection H as <- <-; exact Hm.
Qed.
Lemma D_read n : Reads (N.of_nat n) (dread n).
Proof.
  intros i i' r H. unfold dread, input_read in H. destruct (_ <? n)%nat; injection H as <- <-; cbn [i_pos]; lia.
Qed.
Lemma D_read_into n : Reads (N.of_nat n) (dread_into n).
Proof. intros i i' r H. rewrite dread_into_read in H. apply (D_read _ _ H). Qed.
Lemma D_unsigned w : Reads (N.of_nat w) (dec_unsigned w).
Proof. apply D_map, D_read_into. Qed.
Lemma D_signed w : Reads (N.of_nat w) (dec_signed w).
Proof. apply D_map, D_read_into. Qed.
Lemma D_int i : Reads (int_size i) (dec_int i).
Proof. destruct i; cbn [dec_int int_size isigned]; try apply D_unsigned; apply D_signed. Qed.
Lemma D_bool : Reads 1 dec_bool.
Proof. apply D_map, (@D_unsigned 1). Qed.
Lemma D_items {A} k (f : D A) n : Reads k f -> forall i, Reads (k * N.of_nat n) (dec_items f n i).
Proof.
  intros Hf. induction n as [|n IH]; intros i; cbn [dec_items]; [apply D_ok|].
  eapply D_mono; [|apply D_bind; [apply D_map_err, Hf | intros x; apply D_map, IH]]. lia.
Qed.
Lemma D_fields so conv ts : Forall (fun t => forall n, max_size so t = Some n -> Reads n (decode t)) ts ->
  forall n, sum_opt (map (max_size so) ts) = Some n -> Reads n (dec_fields conv (map decode ts)).
Proof.
  induction 1 as [|t ts Ht Hts IH]; intros n Hn; cbn [map dec_fields sum_opt] in *; [apply D_ok|].
  destruct (max_size so t) as [m|] eqn:Em; [|discriminate].
  destruct (sum_opt (map (max_size so) ts)) as [k|]; [|discriminate]. cbn [option_map] in Hn. apply some_inj in Hn. subst n.
  apply D_bind; [apply D_map_err; auto | intros x; apply D_map; auto].
Qed.
Lemma D_ip4 : Reads 4 dec_ip4.
Proof. apply D_map, (@D_unsigned 4). Qed.
Lemma D_ip6 : Reads 16 dec_ip6.
Proof. apply D_map, (@D_unsigned 16). Qed.
Lemma D_sock4 k : Reads 6 (dec_sock4 k).
Proof. apply (@D_bind _ _ 4 2); [apply D_ip4|]. intros o. apply (@D_bind _ _ 2 0); [apply (@D_unsigned 2)|]. intros p. apply D_ok. Qed.
Lemma D_sock6 k : Reads 26 (dec_sock6 k).
Proof.
  apply (@D_bind _ _ 16 10); [apply D_ip6|]. intros o. apply (@D_bind _ _ 2 8); [apply (@D_unsigned 2)|]. intros p.
  apply (@D_bind _ _ 4 4); [apply (@D_unsigned 4)|]. intros f. apply (@D_bind _ _ 4 0); [apply (@D_unsigned 4)|]. intros s. apply D_ok.
Qed.

Lemma existsb_forall {A} (p : A -> bool) l : existsb p l = false -> Forall (fun x => p x = false) l.
Proof. induction l; cbn [existsb]; intros H; constructor; apply orb_false_iff in H; [tauto | apply IHl; tauto]. Qed.

Lemma forall_use2 {A} (P R Q : A -> Prop) l : Forall P l -> Forall R l -> Forall (fun x => P x -> R x -> Q x) l -> Forall Q l.
Proof. intros HP HR HQ. rewrite Forall_forall in *. auto. Qed.

Lemma reads so t : SizeOk so t -> contains overreads t = false -> forall n, max_size so t = Some n -> Reads n (decode t).
Proof.
  induction t using ty_ind_strong; cbn [SizeOk max_size contains overreads orb]; intros Hok Hc m Hm; try discriminate;
    cbn [decode]; try (apply some_inj in Hm; subst m); try apply D_ok; try apply D_panic;
    try (apply D_map; first [apply D_int | apply (@D_unsigned 4) | apply (@D_unsigned 8) | apply D_bool | apply D_ip4 | apply D_ip6
      | apply IHt; assumption]);
    try apply D_sock4; try apply D_sock6;
    try (apply IHt; assumption); try optn.
  - apply (@D_bind _ _ 4 0); [apply (@D_unsigned 4)|]. intros cp. destruct (char_accepts cp); [apply D_ok | apply D_error].
  - apply (@D_mono _ (int_size i + 0)); [lia|]. apply D_bind; [apply D_int|]. intros z. destruct (_ =? _)%Z; [apply D_error | apply D_ok].
  - apply D_bind; [apply D_bool|]. intros []; [apply D_map, IHt; auto | apply D_ok].
  - destruct Hok as (H1 & H2 & Hs). apply orb_false_iff in Hc. destruct Hc as [Hc1 Hc2].
    destruct (max_size so t1) as [a|]; [|discriminate]. destruct (max_size so t2) as [b|]; [|discriminate].
    apply some_inj in Hm. subst m. specialize (Hs _ _ eq_refl eq_refl).
    apply D_bind; [apply D_bool|].
    assert (Hmax : N.max a b <= if so t2 <? so t1 then so t1 else so t2) by (destruct (N.ltb_spec (so t2) (so t1)); lia).
    intros [].
    + apply (@D_mono _ b); [lia|]. apply D_map, D_map_err, IHt2; auto.
    + apply (@D_mono _ a); [lia|]. apply D_map, D_map_err, IHt1; auto.
  - apply fold_and in Hok. apply existsb_forall in Hc. apply D_map. apply (@D_fields so); [exact (@forall_use2 _ _ _ _ _ Hok Hc H) | exact Hm].
  - apply D_map. apply D_items. apply IHt; auto.
  - contradiction.
  - specialize (IHt Hok Hc _ Hm). apply D_map. destruct t; try exact IHt; cbn [max_size] in Hm; discriminate.
  - apply (@D_bind _ _ 8 4); [apply (@D_unsigned 8)|]. intros s. apply (@D_bind _ _ 4 0); [apply (@D_unsigned 4)|]. intros n. apply D_lift.
  - apply (@D_bind _ _ 8 0); [apply (@D_signed 8)|]. intros s. destruct (if (0 <? s)%Z then _ else _); [apply D_ok | apply D_error].
  - apply (@D_bind _ _ 1 16); [apply (@D_unsigned 1)|]. intros d. destruct (_ =? _)%Z; [apply (@D_mono _ 4); [lia|]; apply D_map, D_ip4|].
    destruct (_ =? _)%Z; [apply D_map, D_ip6 | apply D_error].
  - apply (@D_bind _ _ 1 26); [apply (@D_unsigned 1)|]. intros d. destruct (_ =? _)%Z; [apply (@D_mono _ 6); [lia|]; apply D_sock4|].
    destruct (_ =? _)%Z; [apply D_sock6 | apply D_error].
  - replace (k * 2) with (k + k) by lia. apply D_bind; [apply IHt; auto|]. intros a. apply D_map, IHt; auto.
  - replace (k * 2) with (k + k) by lia. apply D_bind; [apply IHt; auto|]. intros a. apply D_map, IHt; auto.
  - apply D_bind; [apply (@D_unsigned 1)|]. intros d.
    destruct (_ =? _)%Z; [apply D_map, D_map_err, IHt; auto|]. destruct (_ =? _)%Z; [apply D_map, D_map_err, IHt; auto|].
    destruct (_ =? _)%Z; [apply D_ok | apply D_error].
  - apply fold_and in Hok. apply existsb_forall in Hc. apply D_map. apply (@D_fields so); [exact (@forall_use2 _ _ _ _ _ Hok Hc H) | exact Hm].
  - unfold dec_enum. destruct (discriminants (map fst vs)) as [ds|]; [|apply D_panic].
    apply orb_false_iff in Hc. destruct Hc as [Hne Hc]. destruct vs as [|v0 vs0]; [discriminate|]. clear Hne.
    set (l := v0 :: vs0) in *.
    assert (Hall : forall x j, nth_error l j = Some x -> exists k, sum_opt (map (max_size so) (snd x)) = Some k /\ int_size r + k <= m).
    { intros x j Ex.
      pose proof (nth_error_map_some (fun x => option_map (N.add (int_size r)) (sum_opt (map (max_size so) (snd x)))) _ _ Ex) as Ey.
      destruct (max_opt_le _ Hm _ Ey) as (n & Hn & Hle).
      destruct (sum_opt (map (max_size so) (snd x))) as [k|] eqn:Ek; [|discriminate]. cbn [option_map] in Hn. apply some_inj in Hn. subst n.
      exists k. auto. }
    assert (Hm0 : int_size r <= m) by (destruct (Hall v0 0%nat eq_refl) as (k & _ & ?); lia).
    replace m with (int_size r + (m - int_size r)) by lia. apply D_bind; [apply D_int|]. intros d.
    destruct (find_disc d ds 0) as [j|]; [|apply D_error].
    destruct (nth_error (map (fun x => map decode (snd x)) l) j) as [fs|] eqn:Ef; [|apply D_panic].
    apply nth_error_map_inv in Ef. destruct Ef as (x & Ex & ->). destruct (Hall x j Ex) as (k & Hk & Hle).
    apply (@D_mono _ k); [lia|]. apply D_map.
    apply fold_and in Hok. apply existsb_forall in Hc. rewrite Forall_forall in Hok, H, Hc. pose proof (nth_error_In _ _ Ex) as Hin.
    specialize (Hok _ Hin). specialize (Hc _ Hin). cbn beta in Hok, Hc. apply fold_and in Hok. apply existsb_forall in Hc.
    apply (@D_fields so); [exact (@forall_use2 _ _ _ _ _ Hok Hc (H _ Hin)) | exact Hk].
Qed.

Lemma C36_lemma so t n i i' r : max_size so t = Some n -> SizeOk so t -> contains overreads t = false ->
  decode t i = (i', r) -> N.of_nat (input_position i' - input_position i) <= n.
Proof. intros Hn Hok Hc Hd. pose proof (@reads so t Hok Hc n Hn i i' r Hd) as H. unfold input_position. lia. Qed.

(* ---- decoding, on success *)

Lemma le_repr_len w z bs : le_repr w z bs -> length bs = w.
Proof. intros [H _]. exact H. Qed.
Lemma wireint_len i z bs : WireInt i z bs -> N.of_nat (length bs) = int_size i.
Proof. destruct 1 as [i z bs Hu Hs Hl | z bs _ Hl | z bs _ Hl]; apply le_repr_len in Hl; rewrite Hl; try reflexivity. destruct i; try reflexivity; congruence. Qed.

Lemma accepts_size so :
  (forall t bs v, Accepts t bs v -> SizeOk so t -> forall n, max_size so t = Some n -> N.of_nat (length bs) <= n) /\
  (forall ts bs vs, AcceptsFields ts bs vs -> Forall (SizeOk so) ts -> forall n, sum_opt (map (max_size so) ts) = Some n -> N.of_nat (length bs) <= n) /\
  (forall t bs vs, AcceptsItems t bs vs -> SizeOk so t -> forall n, max_size so t = Some n -> N.of_nat (length bs) <= n * N.of_nat (length vs)) /\
  (forall k v bs l, AcceptsEntries k v bs l -> True).
Proof.
  apply (@Accepts_mutind
    (fun t bs v _ => SizeOk so t -> forall n, max_size so t = Some n -> N.of_nat (length bs) <= n)
    (fun ts bs vs _ => Forall (SizeOk so) ts -> forall n, sum_opt (map (max_size so) ts) = Some n -> N.of_nat (length bs) <= n)
    (fun t bs vs _ => SizeOk so t -> forall n, max_size so t = Some n -> N.of_nat (length bs) <= n * N.of_nat (length vs))
    (fun k v bs l _ => True)); intros; try exact I; cbn [SizeOk max_size] in *; try discriminate; try contradiction;
    repeat match goal with
      | H : le_repr _ _ _ |- _ => apply le_repr_len in H
      | H : WireInt _ _ _ |- _ => apply wireint_len in H
      | H : WireLen _ _ |- _ => destruct H as [? H]
      | H : Some _ = Some _ |- _ => apply some_inj in H; subst
      end; try optn; cbn [length] in *; rewrite ?app_length, ?rev_length; cbn [length] in *; rewrite ?app_length, ?rev_length; try lia;
    try (match goal with IH : SizeOk _ _ -> forall n, Some ?k = Some n -> _, Hs : SizeOk _ _ |- _ => specialize (IH Hs _ eq_refl); lia end);
    try (match goal with IH : SizeOk _ _ -> forall n, ?x = Some n -> _, Hs : SizeOk _ _, Hn : ?x = Some _ |- _ => specialize (IH Hs _ Hn); lia end).
  - destruct H0 as (H1' & H2' & Hs). destruct (max_size so t) as [x|]; [|discriminate]. destruct (max_size so e) as [y|]; [|discriminate].
    apply some_inj in H1. subst. specialize (Hs _ _ eq_refl eq_refl). specialize (H H1' _ eq_refl). destruct (N.ltb_spec (so e) (so t)); lia.
  - destruct H0 as (H1' & H2' & Hs). destruct (max_size so t) as [x|]; [|discriminate]. destruct (max_size so e) as [y|]; [|discriminate].
    apply some_inj in H1. subst. specialize (Hs _ _ eq_refl eq_refl). specialize (H H2' _ eq_refl). destruct (N.ltb_spec (so e) (so t)); lia.
  - apply fold_and in H0. auto.
  - apply fold_and in H0. auto.
  - specialize (H H1 _ eq_refl). specialize (H0 H1 _ eq_refl). lia.
  - specialize (H H1 _ eq_refl). specialize (H0 H1 _ eq_refl). lia.
  - pose proof (nth_error_map_some (fun x => option_map (N.add (int_size r)) (sum_opt (map (max_size so) (snd x)))) _ _ e1) as Ey.
    destruct (max_opt_le _ H1 _ Ey) as (m & Hm & Hle). cbn [snd] in Hm.
    destruct (sum_opt (map (max_size so) ts)) as [k|] eqn:Ek; [|discriminate]. cbn [option_map] in Hm. apply some_inj in Hm. subst m.
    apply fold_and in H0. rewrite Forall_forall in H0. specialize (H0 _ (nth_error_In _ _ e1)). cbn [snd] in H0. apply fold_and in H0.
    specialize (H H0 _ eq_refl). lia.
  - apply H; destruct t; cbn [owned max_size] in *; try assumption; discriminate.
  - cbn [map sum_opt] in H2. inversion H1; subst.
    destruct (max_size so t) as [x'|]; [|discriminate]. destruct (sum_opt (map (max_size so) ts)) as [k|]; [|discriminate].
    apply some_inj in H2. subst. specialize (H H5 _ eq_refl). specialize (H0 H6 _ eq_refl). lia.
  - specialize (H H1 _ H2). specialize (H0 H1 _ H2). lia.
Qed.

Lemma C36_success_lemma so t n i i' v : max_size so t = Some n -> SizeOk so t -> EnumsOk t -> in_bounds i ->
  decode t i = (i', Ok v) -> N.of_nat (input_position i' - input_position i) <= n.
Proof.
  intros Hn Hok He Hw Hd. destruct (@decode_exact t i i' v He Hw Hd) as (bs & post & Hu & Hi & Ha).
  pose proof (proj1 (accepts_size so) _ _ _ Ha Hok _ Hn) as H. subst i'. unfold input_position. cbn [i_pos]. lia.
Qed.
