(* Lemmas for the properties of decoding. *)
From Coq Require Import Lia ZifyBool ZifyNat ZifyN.
From Verif Require Import Base BaseFacts Streams StreamFacts Utf8 Utf8Facts Types TypesFacts ValEq Traits Encode Decode Spec
  SpecCalls SpecDecode EncodeFacts WireFacts DecodeFacts StreamProofs DecodeLocal RoundTrip AcceptFacts EncodeProofs.
Set Implicit Arguments.
Local Open Scope Z_scope.


(* ---- exactness *)
Lemma accepts_iff t : EnumsOk t -> forall bs v, Yields (decode t) bs v <-> Accepts t bs v.
Proof.
  intros Hok bs v. split; [|apply accepts_parses].
  intros H. specialize (H [] []). cbn [app length Nat.add] in H. rewrite app_nil_r in H.
  destruct (@decode_accepts t (Input bs 0) (Input bs (length bs)) v Hok (Nat.le_0_l _) H) as (x & post & Hx & Hi & Ha).
  unfold rest in Hx. cbn [i_buf i_pos skipn] in *. injection Hi as Hl.
  assert (post = []).
  { apply (f_equal (@length byte)) in Hx. rewrite app_length in Hx. destruct post; [reflexivity | cbn [length] in Hx; lia]. }
  subst post. rewrite app_nil_r in Hx. subst x. exact Ha.
Qed.

Lemma decode_exact t i i' v : EnumsOk t -> in_bounds i -> decode t i = (i', Ok v) ->
  exists bs post, unread i = bs ++ post /\ i' = Input (i_buf i) (i_pos i + length bs) /\ Accepts t bs v.
Proof. exact (@decode_accepts t i i' v). Qed.

(* ---- C15, C16, C22 *)
Lemma C15_lemma t i i' r : in_bounds i -> decode t i = (i', r) -> (forall p, r <> Panic p) ->
  forall j, in_bounds j ->
  firstn (input_position i' - input_position i) (unread j) = firstn (input_position i' - input_position i) (unread i) ->
  decode t j = (Input (i_buf j) (input_position j + (input_position i' - input_position i)), r).
Proof. intros Hw Hd Hp j Hj He. apply (local_transport (decode_local t) Hw Hd); [intros e; apply Hp | exact Hj | exact He]. Qed.

Lemma C16_lemma t i i' r : in_bounds i -> decode t i = (i', r) -> (forall p, r <> Panic p) ->
  forall n, (n < input_position i' - input_position i)%nat ->
  forall j, in_bounds j -> unread j = firstn n (unread i) ->
  exists j' e, decode t j = (j', Panic (PInput e)).
Proof.
  intros Hw Hd Hp n Hn j Hj He.
  destruct (local_forward (decode_local t) Hw Hd) as (Hb & Hpos & Hw').
  assert (Hl : length (rest j) = n).
  { change (rest j) with (unread j). rewrite He, firstn_length. change (unread i) with (rest i). rewrite rest_length.
    unfold wf_in in Hw'. rewrite Hb in Hw'. unfold input_position in *. lia. }
  apply (local_truncated (decode_local t) Hw Hd); [intros e; apply Hp | exact Hj | |].
  - rewrite Hl. exact Hn.
  - rewrite Hl. exact He.
Qed.

Lemma C22_lemma t i i' r : in_bounds i -> decode t i = (i', r) ->
  i_buf i' = i_buf i /\ (input_position i <= input_position i' <= input_capacity i)%nat.
Proof.
  intros Hw Hd. destruct (local_forward (decode_local t) Hw Hd) as (Hb & Hpos & Hw').
  split; [exact Hb|]. unfold wf_in in Hw'. rewrite Hb in Hw'. unfold input_position, input_capacity. lia.
Qed.

(* ---- C18 *)
Lemma nodup_snoc {A} (l : list A) x : NoDup l -> ~ In x l -> NoDup (l ++ [x]).
Proof.
  induction 1 as [|y l Hy Hl IH]; intros Hx; cbn [app]; constructor.
  - intros []. 
  - constructor.
  - rewrite in_app_iff. cbn [In]. intros [H|[H|[]]]; [contradiction|]. apply Hx. left. symmetry. exact H.
  - apply IH. intros H. apply Hx. right. exact H.
Qed.

Lemma put_nodup {K V} (k : K) (v : V) m m' : Put k v m m' -> NoDup (map fst m) -> NoDup (map fst m').
Proof.
  intros [m0 Hn | a w b Hn] Hd; rewrite map_app in *; [apply nodup_snoc; assumption | exact Hd].
Qed.
Lemma put_forall {K V} (Q : K * V -> Prop) k v m m' : Put k v m m' -> Forall Q m -> Q (k, v) -> Forall Q m'.
Proof.
  intros [m0 Hn | a w b Hn] Hm Hq; rewrite Forall_app in *; [auto|]. destruct Hm as [Ha Hb]. inversion Hb; subst. auto.
Qed.
Lemma putall_nodup {K V} (m l m' : list (K * V)) : PutAll m l m' -> NoDup (map fst m) -> NoDup (map fst m').
Proof. induction 1 as [|m k v m1 l m2 Hp H IH]; intros Hd; [exact Hd|]. apply IH, (put_nodup Hp Hd). Qed.
Lemma putall_forall {K V} (Q : K * V -> Prop) m l m' : PutAll m l m' -> Forall Q m -> Forall Q l -> Forall Q m'.
Proof.
  induction 1 as [|m k v m1 l m2 Hp H IH]; intros Hm Hl; [exact Hm|]. inversion Hl; subst.
  apply IH; [|assumption]. eapply put_forall; eassumption.
Qed.
Lemma addall_nodup {K} (s l s' : list K) : AddAll s l s' -> NoDup s -> NoDup s'.
Proof. induction 1; intros Hd; auto. apply IHAddAll, nodup_snoc; assumption. Qed.
Lemma addall_forall {K} (Q : K -> Prop) s l s' : AddAll s l s' -> Forall Q s -> Forall Q l -> Forall Q s'.
Proof.
  induction 1; intros Hs Hl; auto; inversion Hl; subst; auto. apply IHAddAll; auto. apply Forall_app; auto.
Qed.

Lemma forallb_in {A} (f : A -> bool) l x : forallb f l = true -> In x l -> f x = true.
Proof. intros H Hin. rewrite forallb_forall in H. auto. Qed.

Lemma owned_char_free t : char_free (owned t) = char_free t.
Proof. destruct t; reflexivity. Qed.
Lemma owned_wt t v : wt (owned t) v <-> wt t v.
Proof. destruct t; reflexivity. Qed.

Lemma accepts_wt_all :
  (forall t bs v, Accepts t bs v -> char_free t = true -> wt t v) /\
  (forall ts bs vs, AcceptsFields ts bs vs -> forallb char_free ts = true -> all2 (map wt ts) vs) /\
  (forall t bs vs, AcceptsItems t bs vs -> char_free t = true -> Forall (wt t) vs) /\
  (forall k v bs l, AcceptsEntries k v bs l -> char_free k = true -> char_free v = true ->
     Forall (fun p => wt k (fst p) /\ wt v (snd p)) l).
Proof.
  apply (@Accepts_mutind
    (fun t bs v _ => char_free t = true -> wt t v)
    (fun ts bs vs _ => forallb char_free ts = true -> all2 (map wt ts) vs)
    (fun t bs vs _ => char_free t = true -> Forall (wt t) vs)
    (fun k v bs l _ => char_free k = true -> char_free v = true -> Forall (fun p => wt k (fst p) /\ wt v (snd p)) l));
    intros; cbn [char_free forallb] in *; try discriminate;
    repeat match goal with H : _ && _ = true |- _ => apply andb_true_iff in H; destruct H end;
    cbn [wt map all2];
    repeat match goal with IH : ?c = true -> _, H : ?c = true |- _ => specialize (IH H) end;
    try assumption; try (repeat split; assumption); try exact I; try (constructor; auto; fail); try (repeat (split; [assumption|]); assumption).
  - split; [assumption|].
    rewrite (nth_error_map_some (fun x => map wt (snd x)) _ _ e1). cbn [snd]. apply H.
    apply (@forallb_in _ (fun x => forallb char_free (snd x)) vs (e, ts)) in H0; [exact H0 | apply (nth_error_In _ _ e1)].
  - split; [rewrite firstn_length; lia|]. apply Forall_forall. intros x Hx. rewrite Forall_forall in H. apply H.
    rewrite <- (firstn_skipn len vs), in_app_iff. left. exact Hx.
  - split; [apply (putall_nodup p); constructor|]. eapply putall_forall; [exact p | constructor|]. auto.
  - split; [apply (addall_nodup a0); constructor|]. eapply addall_forall; [exact a0 | constructor|]. auto.
  - apply owned_wt, H. rewrite owned_char_free. assumption.
  - pose proof (Z.div_pos n 1000000000). pose proof (Z.mod_pos_bound n 1000000000). lia.
  - split; [assumption | lia].
Qed.
Lemma accepts_wt t bs v : Accepts t bs v -> char_free t = true -> wt t v.
Proof. apply (proj1 accepts_wt_all). Qed.

Lemma C18_lemma t i i' v : EnumsOk t -> char_free t = true -> in_bounds i -> decode t i = (i', Ok v) -> wt t v.
Proof. intros Hok Hc Hw Hd. destruct (@decode_exact t i i' v Hok Hw Hd) as (bs & post & _ & _ & Ha). apply (accepts_wt Ha Hc). Qed.

(* ---- C20 *)
Lemma owned_strict t : strict (owned t) = strict t.
Proof. destruct t; reflexivity. Qed.
Lemma owned_wire ch t v bs : Wire ch (owned t) v bs -> Wire ch t v bs.
Proof. destruct t; cbn [owned]; intros H; try exact H; inversion H; subst; constructor; assumption. Qed.

Lemma existsb_false_cons {A} (f : A -> bool) x l : existsb f (x :: l) = false -> f x = false /\ existsb f l = false.
Proof. cbn [existsb]. apply orb_false_iff. Qed.

Lemma accepts_wire_all ch :
  (forall t bs v, Accepts t bs v -> strict t = true -> (ch = true -> has_lowest_second v = false) -> Wire ch t v bs) /\
  (forall ts bs vs, AcceptsFields ts bs vs -> forallb strict ts = true -> (ch = true -> existsb has_lowest_second vs = false) ->
     WireFields ch ts vs bs) /\
  (forall t bs vs, AcceptsItems t bs vs -> strict t = true -> (ch = true -> existsb has_lowest_second vs = false) ->
     WireItems ch t vs bs) /\
  (forall k v bs l, AcceptsEntries k v bs l -> True).
Proof.
  apply (@Accepts_mutind
    (fun t bs v _ => strict t = true -> (ch = true -> has_lowest_second v = false) -> Wire ch t v bs)
    (fun ts bs vs _ => forallb strict ts = true -> (ch = true -> existsb has_lowest_second vs = false) -> WireFields ch ts vs bs)
    (fun t bs vs _ => strict t = true -> (ch = true -> existsb has_lowest_second vs = false) -> WireItems ch t vs bs)
    (fun k v bs l _ => True));
    intros; cbn [strict forallb has_lowest_second] in *; try exact I; try discriminate;
    repeat match goal with H : _ && _ = true |- _ => apply andb_true_iff in H; destruct H end;
    try (constructor; auto; fail).
  - constructor; [apply H; [assumption|] | apply H0; [assumption|]]; intros Hc; specialize (H2 Hc); apply orb_false_iff in H2; tauto.
  - constructor; [apply H; [assumption|] | apply H0; [assumption|]]; intros Hc; specialize (H2 Hc); apply orb_false_iff in H2; tauto.
  - econstructor; try eassumption. apply H; [|assumption].
    apply (@forallb_in _ (fun x => forallb strict (snd x)) vs (e, ts)) in H0; [exact H0 | apply (nth_error_In _ _ e1)].
  - constructor. apply owned_wire, H; [rewrite owned_strict|]; assumption.
  - constructor; unfold time_ns in *.
    + intros Hc. specialize (H0 Hc). lia.
    + rewrite Z.add_0_r, Z.quot_mul by lia. assumption.
  - constructor; [apply H; [assumption|] | apply H0; [assumption|]]; intros Hc; specialize (H2 Hc); apply existsb_false_cons in H2; tauto.
  - constructor; [apply H; [assumption|] | apply H0; [assumption|]]; intros Hc; specialize (H2 Hc); apply existsb_false_cons in H2; tauto.
Qed.

Lemma C20_lemma ch t bs v : EnumsOk t -> strict t = true -> wt t v -> ch = false \/ has_lowest_second v = false ->
  Yields (decode t) bs v -> Appends (encode ch t v) bs (Ok tt).
Proof.
  intros Hok Hs Hv Hc Hy. apply accepts_iff in Hy; [|exact Hok].
  apply succeeds_appends, wire_succeeds; [|exact Hv]. apply (proj1 (accepts_wire_all ch)); [exact Hy | exact Hs|].
  intros ->. destruct Hc; [discriminate | assumption].
Qed.

(* ---- C23 *)
Lemma unread_head i b r : unread i = b :: r -> in_bounds i /\ nth_error (i_buf i) (i_pos i) = Some b /\ unread (Input (i_buf i) (i_pos i + 1)) = r.
Proof.
  unfold unread, in_bounds, input_position, input_capacity. cbn [i_buf i_pos]. destruct i as [buf pos]. cbn [i_buf i_pos].
  revert pos. induction buf as [|x buf IH]; intros pos H; [destruct pos; discriminate|].
  destruct pos as [|pos]; cbn [skipn Nat.add nth_error length] in *; [injection H as -> ->; repeat split; lia|].
  destruct (IH _ H) as (A & B & C). repeat split; [lia | exact B | exact C].
Qed.

Lemma dec_u8_run i b r : unread i = b :: r -> dec_u8 i = (Input (i_buf i) (i_pos i + 1), Ok (b2z b)).
Proof.
  intros H. destruct (unread_head _ H) as (Hw & _ & _). unfold dec_u8, dec_unsigned, dmap, dbind. rewrite dread_into_read.
  rewrite dread_ok; [|change (rest i) with (unread i); rewrite H; cbn [length]; lia | exact Hw].
  change (rest i) with (unread i). rewrite H. cbn [firstn of_le]. unfold dok. do 2 f_equal. lia.
Qed.
Lemma dec_bool_run i b r : unread i = b :: r -> dec_bool i = (Input (i_buf i) (i_pos i + 1), Ok (negb (byte_eqb b x00))).
Proof. intros H. unfold dec_bool, dmap, dbind. rewrite (dec_u8_run _ H). reflexivity. Qed.

Lemma byte_eqb_x00 b : b <> x00 -> byte_eqb b x00 = false.
Proof. intros H. destruct (byte_eqb b x00) eqn:E; [apply byte_eqb_spec in E; contradiction | reflexivity]. Qed.

Lemma C23_lemma i b r : unread i = b :: r -> let i1 := Input (i_buf i) (i_pos i + 1) in
  (b = x00 ->
     decode TBool i = (i1, Ok (VBool false)) /\
     (forall t, decode (TOption t) i = (i1, Ok VNone)) /\
     (forall t e, decode (TResult t e) i =
        match decode t i1 with (i2, Ok v) => (i2, Ok (VOk v)) | (i2, Err x) => (i2, Err (DField x)) | (i2, Panic p) => (i2, Panic p) end)) /\
  (b <> x00 ->
     decode TBool i = (i1, Ok (VBool true)) /\
     (forall t, decode (TOption t) i =
        match decode t i1 with (i2, Ok v) => (i2, Ok (VSome v)) | (i2, Err x) => (i2, Err x) | (i2, Panic p) => (i2, Panic p) end) /\
     (forall t e, decode (TResult t e) i =
        match decode e i1 with (i2, Ok v) => (i2, Ok (VErr v)) | (i2, Err x) => (i2, Err (DField x)) | (i2, Panic p) => (i2, Panic p) end)).
Proof.
  intros H i1. pose proof (dec_bool_run _ H) as Hb. fold i1 in Hb. split; intros Hz.
  - subst b. cbn in Hb. cbn [decode]. unfold dec_option, dec_result, dmap, dmap_err, dbind. rewrite Hb.
    split; [reflexivity|]. split; [reflexivity|]. intros t e. destruct (decode t i1) as [i2 [v|x|p]]; reflexivity.
  - rewrite byte_eqb_x00 in Hb by exact Hz. cbn in Hb. cbn [decode]. unfold dec_option, dec_result, dmap, dmap_err, dbind. rewrite Hb.
    split; [reflexivity|]. split; intros; [destruct (decode t i1) as [i2 [v|x|p]] | destruct (decode e i1) as [i2 [v|x|p]]]; reflexivity.
Qed.

(* ---- refusals *)
Lemma R_bind {A B} (m : D A) (k : A -> D B) x y a e : Parses m x a -> Refuses (k a) y e -> Refuses (dbind m k) (x ++ y) e.
Proof.
  intros Hm Hk pre post. unfold dbind. specialize (Hm pre (y ++ post)). specialize (Hk (pre ++ x) post).
  rewrite <- !app_assoc in *. rewrite Hm. rewrite !app_length in *. rewrite Hk. rewrite Nat.add_assoc. reflexivity.
Qed.
Lemma R_bind_last {A B} (m : D A) (k : A -> D B) x a e : Parses m x a -> Refuses (k a) [] e -> Refuses (dbind m k) x e.
Proof. intros Hm Hk. rewrite <- (app_nil_r x). eapply R_bind; [exact Hm | exact Hk]. Qed.
Lemma R_error {A} e : Refuses (@derror A e) [] e.
Proof. intros pre post. cbn [length]. rewrite Nat.add_0_r. reflexivity. Qed.
Lemma R_map {A B} (f : A -> B) m x e : Refuses m x e -> Refuses (dmap f m) x e.
Proof. intros H pre post. unfold dmap, dbind. rewrite H. reflexivity. Qed.
Lemma R_map_err {A} f (m : D A) x e : Refuses m x e -> Refuses (dmap_err f m) x (f e).
Proof. intros H pre post. unfold dmap_err. rewrite H. reflexivity. Qed.
Lemma R_lift {A} e : Refuses (@dlift A (Err e)) [] e.
Proof. apply R_error. Qed.

(* ---- C19 *)
Lemma C19_lemma cp bs : 0 <= cp < 2 ^ 32 -> le_repr 4 cp bs ->
  (is_scalar cp = true \/ 56832 <= cp <= 57343 -> Yields (decode TChar) bs (VChar cp)) /\
  (is_scalar cp = false /\ ~ 56832 <= cp <= 57343 -> Refuses (decode TChar) bs (DChar cp)).
Proof.
  intros Hc Hr. split; intros H.
  - apply accepts_parses. constructor; [unfold is_scalar in H; lia | exact Hr].
  - cbn [decode]. unfold dec_char. eapply R_bind_last; [apply (P_u Hr); exact Hc|].
    replace (char_accepts cp) with false by (unfold char_accepts; unfold is_scalar in H; lia). apply R_error.
Qed.

(* ---- C24 *)

Lemma int_yields i bs : length bs = wire_width i -> exists z, in_ity i z /\ WireInt i z bs /\ Parses (dec_int i) bs z.
Proof.
  intros Hl. pose proof (N_int i) as Hn.
  assert (Hx : exists z, dec_int i (Input bs 0) = (Input bs (length bs), Ok z)).
  { destruct i; cbn [wire_width iwidth] in Hl; cbn [dec_int isigned iwidth];
      unfold dec_usize, dec_isize, dec_unsigned, dec_signed, dmap, dbind; rewrite dread_into_read, dread_ok;
      (try apply Nat.le_0_l); (try (unfold rest; cbn [i_buf i_pos skipn]; lia)); cbn [i_buf i_pos]; rewrite Hl; eexists; reflexivity. }
  destruct Hx as [z Hz]. destruct (Hn _ _ _ (Nat.le_0_l _ : wf_in (Input bs 0)) Hz) as (n & Hle & Hi & Hin & Hw).
  cbn [i_buf i_pos] in *. injection Hi as <-. unfold rest in Hw. cbn [i_buf i_pos skipn] in Hw. rewrite firstn_all in Hw.
  exists z. split; [exact Hin|]. split; [exact Hw | apply P_int; assumption].
Qed.

Lemma le_bytes_zero w : le_bytes w 0 = repeat x00 w.
Proof. induction w as [|w IH]; cbn [le_bytes repeat]; [reflexivity|]. change (0 / 256) with 0. rewrite IH. reflexivity. Qed.

Lemma wireint_zero i bs : length bs = wire_width i -> (WireInt i 0 bs <-> bs = repeat x00 (wire_width i)).
Proof.
  intros Hl. split.
  - intros H. inversion H; subst; match goal with H : le_repr _ _ _ |- _ => apply le_repr_iff in H; subst bs end;
      rewrite le_bytes_zero; f_equal; destruct i; cbn [wire_width iwidth]; congruence.
  - intros ->. destruct i; cbn [wire_width]; try (apply WI_fixed; [discriminate | discriminate|]); try (apply WI_usize; [lia|]); try (apply WI_isize; [lia|]);
      rewrite <- le_bytes_zero; apply le_repr_le_bytes.
Qed.

Lemma C24_lemma i bs : length bs = wire_width i ->
  (bs = repeat x00 (wire_width i) -> Refuses (decode (TNonZero i)) bs DNonZero) /\
  (bs <> repeat x00 (wire_width i) -> exists z, in_ity i z /\ z <> 0 /\ WireInt i z bs /\ Yields (decode (TNonZero i)) bs (VInt z)).
Proof.
  intros Hl. destruct (int_yields i bs Hl) as (z & Hin & Hw & Hp). split; intros H.
  - apply wireint_zero in H; [|exact Hl].
    assert (Hp0 : Parses (dec_int i) bs 0).
    { apply P_int; [|exact H]. unfold in_ity. destruct i; cbn [isigned iwidth]; lia. }
    cbn [decode]. unfold dec_nonzero. eapply R_bind_last; [exact Hp0|]. apply R_error.
  - exists z. split; [exact Hin|]. assert (Hz : z <> 0). { intros ->. apply H. apply wireint_zero; assumption. }
    split; [exact Hz|]. split; [exact Hw|]. apply accepts_parses. constructor; assumption.
Qed.

(* ---- C25, C26 *)
Lemma C25_lemma s lb : WireLen (length s) lb ->
  (valid_utf8 s -> Yields (decode TString) (lb ++ s) (VStr s)) /\
  (~ valid_utf8 s -> exists k c, nth_error s k = Some c /\ valid_utf8 (firstn k s) /\
     (forall n, (k < n <= length s)%nat -> ~ valid_utf8 (firstn n s)) /\
     Refuses (decode TString) (lb ++ s) (DBad (DUtf8 c k))).
Proof.
  intros Hl. split; intros H.
  - apply accepts_parses. constructor; assumption.
  - destruct (from_utf8 s) as [k|] eqn:E; [|exfalso; apply H, from_utf8_valid, E].
    destruct (from_utf8_index _ E) as (Hk & Hpre & Hmax). destruct (from_utf8_in_bounds _ E) as (c & Hc).
    exists k, c. repeat split; try assumption. cbn [decode]. unfold dec_string.
    eapply R_bind; [exact (P_len Hl)|]. rewrite Nat2Z.id. eapply R_bind_last; [exact (P_read s)|].
    apply R_map, R_map_err. unfold check_utf8. rewrite E, Hc. apply R_lift.
Qed.

Lemma C26_lemma s lb : WireLen (length s) lb ->
  (~ In x00 s -> Yields (decode TCString) (lb ++ s) (VStr s)) /\
  (forall k, nth_error s k = Some x00 -> ~ In x00 (firstn k s) -> Refuses (decode TCString) (lb ++ s) (DCString k)).
Proof.
  intros Hl. split.
  - intros H. apply accepts_parses. constructor; assumption.
  - intros k Hk Hf. cbn [decode]. unfold dec_cstring.
    eapply R_bind; [exact (P_len Hl)|]. rewrite Nat2Z.id. eapply R_bind_last; [exact (P_read s)|].
    assert (Hin : In x00 s) by (apply (nth_error_In _ _ Hk)).
    destruct (find_null_some s 0) as [(j & -> & Hj & Hfj) | [_ Hn]]; [|contradiction]. cbn [Nat.add].
    assert (j = k).
    { assert (Hlt : forall a b, nth_error s a = Some x00 -> ~ In x00 (firstn b s) -> ~ (a < b)%nat).
      { intros a b Ha Hb Hab. apply Hb. rewrite <- (firstn_skipn b s) in Ha. apply (nth_error_In _ a).
        rewrite nth_error_app1 in Ha; [exact Ha|].
        rewrite firstn_length. apply Nat.min_glb_lt; [exact Hab|]. rewrite firstn_skipn in Ha. apply nth_error_Some. congruence. }
      pose proof (Hlt j k Hj Hf). pose proof (Hlt k j Hk Hfj). lia. }
    subst j. apply R_error.
Qed.

(* ---- C27 *)
Lemma R_octet {A} (k : Z -> D A) b e : Refuses (k (b2z b)) [] e -> Refuses (dbind dec_u8 k) [b] e.
Proof. intros H. exact (@R_bind _ _ dec_u8 k [b] [] _ e (P_byte b) H). Qed.

Lemma C27_lemma b :
  (~ In b [x00; x01; x02] -> forall t, Refuses (decode (TBound t)) [b] (DUnassigned U8 (b2z b))) /\
  (~ In b [x04; x06] -> Refuses (decode TIpAddr) [b] (DUnassigned U8 (b2z b)) /\ Refuses (decode TSockAddr) [b] (DUnassigned U8 (b2z b))).
Proof.
  assert (Hne : forall c z, b2z c = z -> b <> c -> b2z b =? z = false).
  { intros c z Hc Hn. destruct (Z.eqb_spec (b2z b) z) as [E|E]; [exfalso; apply Hn, b2z_inj; congruence | reflexivity]. }
  split; intros H; cbn [In] in H.
  - intros t. cbn [decode]. unfold dec_bound. apply R_octet.
    rewrite (Hne x00 0), (Hne x01 1), (Hne x02 2) by (reflexivity || (intros ->; tauto)). apply R_error.
  - split; cbn [decode]; unfold dec_ip_addr, dec_sock_addr; apply R_octet;
      rewrite (Hne x04 4), (Hne x06 6) by (reflexivity || (intros ->; tauto)); apply R_error.
Qed.

(* ---- C28 *)
Lemma C28_lemma s n sb nb : 0 <= s < 2 ^ 64 -> 0 <= n < 2 ^ 32 -> le_repr 8 s sb -> le_repr 4 n nb ->
  (time_ns s n < 2 ^ 64 * 1000000000 ->
     exists s' n', time_ns s' n' = time_ns s n /\ 0 <= s' < 2 ^ 64 /\ 0 <= n' < 1000000000 /\
       Yields (decode TDuration) (sb ++ nb) (VDuration s' n')) /\
  (2 ^ 64 * 1000000000 <= time_ns s n ->
     forall pre post, decode TDuration (Input (pre ++ (sb ++ nb) ++ post) (length pre)) =
       (Input (pre ++ (sb ++ nb) ++ post) (length pre + 12), Panic PDuration)).
Proof.
  intros Hs Hn Hsr Hnr. unfold time_ns.
  pose proof (Z.div_mod n 1000000000). pose proof (Z.mod_pos_bound n 1000000000). pose proof (Z.div_pos n 1000000000).
  split; intros H3.
  - exists (s + n / 1000000000), (n mod 1000000000). repeat split; try lia.
    apply accepts_parses. constructor; try assumption. lia.
  - intros pre post. cbn [decode]. unfold dec_duration.
    pose proof (P_u Hsr Hs) as P1. pose proof (P_u Hnr Hn) as P2.
    assert (Hb : Parses (dbind (dec_unsigned 8) (fun s => dbind (dec_unsigned 4) (fun n => dok (s, n)))) (sb ++ nb) (s, n)).
    { eapply P_bind; [exact P1|]. eapply P_bind_last; [exact P2|]. apply P_ok. }
    specialize (Hb pre post). unfold dbind in *. destruct (dec_unsigned 8 _) as [i1 [a|e|p]]; try discriminate.
    destruct (dec_unsigned 4 i1) as [i2 [c|e|p]]; try discriminate. unfold dok in Hb. injection Hb as -> -> ->.
    unfold dlift, duration_new. replace (n <? 1000000000) with false by lia.
    replace (s + n / 1000000000 <? 2 ^ 64) with false by lia. rewrite app_length. destruct Hsr as [-> _]. destruct Hnr as [-> _]. reflexivity.
Qed.

(* ---- C31: the last entry of a key wins *)
Lemma putall_last {K V} (eq_dec : forall a b : K, {a = b} + {a <> b}) (m l m' : list (K * V)) : PutAll m l m' -> NoDup (map fst m) ->
  forall k v, In (k, v) m' <->
    (exists a b, l = a ++ (k, v) :: b /\ ~ In k (map fst b)) \/ (In (k, v) m /\ ~ In k (map fst l)).
Proof.
  induction 1 as [m | m k0 v0 m1 l m2 Hp H IH]; intros Hd k v.
  - cbn [map In]. split; [tauto|]. intros [(a & b & E & _) | [? _]]; [destruct a; discriminate | assumption].
  - rewrite IH by (apply (put_nodup Hp Hd)). clear IH.
    assert (Hm1 : In (k, v) m1 <-> (k = k0 /\ v = v0) \/ (k <> k0 /\ In (k, v) m)).
    { destruct Hp as [m Hn | a w b Hn].
      - rewrite in_app_iff. cbn [In]. split.
        + intros [Hin|[E|[]]]; [right|left; split; congruence]. split; [|exact Hin]. intros ->. apply Hn, (in_map fst _ _ Hin).
        + intros [[-> ->]|[_ Hin]]; auto.
      - rewrite map_app in Hd. cbn [map fst] in Hd. pose proof (NoDup_remove_2 _ _ _ Hd) as Hr. rewrite in_app_iff in Hr.
        rewrite !in_app_iff. cbn [In]. split.
        + intros [Hin|[E|Hin]].
          * right. split; [intros ->; apply Hn, (in_map fst _ _ Hin) | auto].
          * left. split; congruence.
          * right. split; [intros ->; apply Hr; right; apply (in_map fst _ _ Hin) | auto].
        + intros [[-> ->]|[Hne [Hin|[E|Hin]]]]; auto. injection E as <- <-. congruence. }
    split.
    + intros [(a & b & -> & Hb) | [Hin Hn]].
      * left. exists ((k0, v0) :: a), b. auto.
      * apply Hm1 in Hin. destruct Hin as [[-> ->] | [Hne Hin]].
        -- left. exists [], l. auto.
        -- right. split; [exact Hin|]. cbn [map fst In]. intros [E|E]; [congruence | contradiction].
    + cbn [map fst In]. intros [(a & b & E & Hb) | [Hin Hn]].
      * destruct a as [|p a]; cbn [app] in E.
        -- injection E as -> -> ->. right. split; [apply Hm1; auto | exact Hb].
        -- injection E as <- ->. left. exists a, b. auto.
      * right. split; [apply Hm1; right; split; [intros ->; apply Hn; auto | exact Hin] | intros Hl; apply Hn; auto].
Qed.

Lemma addall_in {K} (s l s' : list K) : AddAll s l s' -> forall k, In k s' <-> In k s \/ In k l.
Proof.
  induction 1 as [s | s k0 l s' Hn H IH | s k0 l s' Hi H IH]; intros k; cbn [In].
  - tauto.
  - rewrite IH, in_app_iff. cbn [In]. tauto.
  - rewrite IH. intuition congruence.
Qed.

Lemma putall_exists {V} (l : list (val * V)) : forall m, exists m', PutAll m l m'.
Proof.
  induction l as [|[k v] l IH]; intros m; [exists m; constructor|].
  assert (Hp : exists m1, Put k v m m1).
  { destruct (in_dec val_eq_dec k (map fst m)) as [Hin|Hin].
    - induction m as [|[k' v'] m IHm]; [destruct Hin|]. destruct (val_eq_dec k k') as [->|Hne].
      + exists ((k', v) :: m). apply (@Put_old _ _ k' v [] v' m). intros [].
      + destruct Hin as [E|Hin]; [cbn [fst] in E; congruence|]. destruct (IHm Hin) as [m1 Hm1]. exists ((k', v') :: m1).
        destruct Hm1 as [m Hn | a w b Hn].
        * apply (@Put_new _ _ k v ((k', v') :: m)). cbn [map fst In]. intros [?|?]; [congruence | contradiction].
        * apply (@Put_old _ _ k v ((k', v') :: a) w b). cbn [map fst In]. intros [?|?]; [congruence | contradiction].
    - exists (m ++ [(k, v)]). constructor. exact Hin. }
  destruct Hp as [m1 Hp]. destruct (IH m1) as [m' H]. exists m'. econstructor; eassumption.
Qed.
Lemma addall_exists (l : list val) : forall s, exists s', AddAll s l s'.
Proof.
  induction l as [|k l IH]; intros s; [exists s; constructor|]. destruct (in_dec val_eq_dec k s) as [Hin|Hin].
  - destruct (IH s) as [s' H]. exists s'. apply AddAll_old; assumption.
  - destruct (IH (s ++ [k])) as [s' H]. exists s'. apply AddAll_new; assumption.
Qed.

(* entries, each at its own piece of the input *)
Lemma entries_pieces k v l bss : Forall2 (fun p b => exists x y, b = x ++ y /\ Yields (decode k) x (fst p) /\ Yields (decode v) y (snd p)) l bss ->
  EnumsOk k -> EnumsOk v -> AcceptsEntries k v (concat bss) l.
Proof.
  intros H Hk Hv. induction H as [|[a b] c l bss (x & y & -> & Ha & Hb) H IH]; cbn [concat]; [constructor|].
  cbn [fst snd] in *. rewrite <- app_assoc. constructor; [apply accepts_iff | apply accepts_iff | exact IH]; assumption.
Qed.
Lemma items_pieces k l bss : Forall2 (fun p b => Yields (decode k) b p) l bss -> EnumsOk k -> AcceptsItems k (concat bss) l.
Proof.
  intros H Hk. induction H as [|a c l bss Ha H IH]; cbn [concat]; [constructor|]. constructor; [apply accepts_iff|]; assumption.
Qed.

Lemma C31_map_lemma k v l lb bss : EnumsOk k -> EnumsOk v -> WireLen (length l) lb ->
  Forall2 (fun p b => exists x y, b = x ++ y /\ Yields (decode k) x (fst p) /\ Yields (decode v) y (snd p)) l bss ->
  exists m, Yields (decode (THashMap k v)) (lb ++ concat bss) (VMap m) /\ NoDup (map fst m) /\
    forall a b, In (a, b) m <-> exists l1 l2, l = l1 ++ (a, b) :: l2 /\ ~ In a (map fst l2).
Proof.
  intros Hk Hv Hl H. destruct (putall_exists l []) as [m Hm]. exists m.
  split; [apply accepts_parses; econstructor; [exact Hl | apply entries_pieces; assumption | exact Hm]|].
  split; [apply (putall_nodup Hm); constructor|].
  intros a b. rewrite (putall_last val_eq_dec Hm) by constructor. cbn [In]. tauto.
Qed.
Lemma C31_set_lemma k l lb bss : EnumsOk k -> WireLen (length l) lb -> Forall2 (fun p b => Yields (decode k) b p) l bss ->
  exists s, Yields (decode (THashSet k)) (lb ++ concat bss) (VSet s) /\ NoDup s /\ forall a, In a s <-> In a l.
Proof.
  intros Hk Hl H. destruct (addall_exists l []) as [s Hs]. exists s.
  split; [apply accepts_parses; econstructor; [exact Hl | apply items_pieces; assumption | exact Hs]|].
  split; [apply (addall_nodup Hs); constructor|]. intros a. rewrite (addall_in Hs). cbn [In]. tauto.
Qed.

(* ---- C34 *)
Lemma N_true {A} (m : D A) : Local m -> Consumes m (fun _ _ => True).
Proof.
  intros Hl i i' a Hw Hm. destruct (local_forward Hl Hw Hm) as (Hb & Hp & Hw'). exists (i_pos i' - i_pos i)%nat.
  unfold wf_in in Hw'. rewrite Hb in Hw'. rewrite rest_length. split; [lia|]. split; [|exact I].
  destruct i' as [buf pos]. cbn [i_buf i_pos] in *. subst buf. f_equal. lia.
Qed.
Lemma N_items_len {A} (f : D A) n : Local f -> forall i, Consumes (dec_items f n i) (fun _ vs => length vs = n).
Proof.
  intros Hf. induction n as [|n IH]; intros i; cbn [dec_items]; [apply N_ok; reflexivity|].
  eapply N_bind; [apply N_map_err, N_true, Hf|]. intros x v _. apply N_map. eapply N_ext; [apply IH|]. cbn beta. cbn [length]. lia.
Qed.
Lemma wirelen_declares n lb post : WireLen n lb -> declares (lb ++ post) n /\ (Z.of_nat n <= 65535).
Proof.
  intros [Hn Hr]. split; [|exact Hn]. apply le_repr_iff in Hr. cbn [le_bytes] in Hr. subst lb.
  exists (z2b (Z.of_nat n)), (z2b (Z.of_nat n / 256)), post. split; [reflexivity|]. rewrite !b2z_z2b.
  pose proof (Z.div_mod (Z.of_nat n) 256). pose proof (Z.mod_pos_bound (Z.of_nat n) 256).
  rewrite (Z.mod_small (Z.of_nat n / 256)); [lia|]. split; [apply Z.div_pos; lia|]. apply Z.div_lt_upper_bound; lia.
Qed.
Lemma consumes_len {A} (m : D A) (len : A -> nat) i i' a :
  Consumes m (fun bs a => exists lb post, bs = lb ++ post /\ WireLen (len a) lb) -> in_bounds i -> m i = (i', Ok a) ->
  declares (unread i) (len a) /\ Z.of_nat (len a) <= 65535.
Proof.
  intros Hc Hw Hm. destruct (Hc i i' a Hw Hm) as (n & Hn & _ & lb & post & He & Hl).
  change (rest i) with (unread i) in *. rewrite <- (firstn_skipn n (unread i)), He, <- app_assoc. apply wirelen_declares. exact Hl.
Qed.


Lemma C34_lemma t i i' v : in_bounds i ->
  match t with TVec _ | TLinked _ | TString | TCString => True | _ => False end ->
  decode t i = (i', Ok v) -> declares (unread i) (seq_length v) /\ Z.of_nat (seq_length v) <= 65535.
Proof.
  intros Hw Ht Hd. revert Hd. apply (@consumes_len _ (decode t) seq_length); [|exact Hw].
  destruct t; try contradiction; cbn [decode].
  - eapply N_bind; [apply N_len|]. intros lb z [Hz Hl]. apply N_map. eapply N_ext; [apply N_items_len, decode_local|]. cbn beta.
    intros bs vs Hn. exists lb, bs. split; [reflexivity|]. cbn [seq_length]. rewrite Hn. exact Hl.
  - eapply N_bind; [apply N_len|]. intros lb z [Hz Hl]. apply N_map. eapply N_ext; [apply N_items_len, decode_local|]. cbn beta.
    intros bs vs Hn. exists lb, bs. split; [reflexivity|]. cbn [seq_length]. rewrite Hn. exact Hl.
  - eapply N_ext; [apply N_string|]. cbn beta. intros bs s H. inversion H; subst. eauto.
  - eapply N_ext; [apply N_cstring|]. cbn beta. intros bs s H. inversion H; subst. eauto.
Qed.
Lemma C34_array_lemma t n i i' v : in_bounds i -> decode (TArray t n) i = (i', Ok v) -> exists vs, v = VSeq vs /\ length vs = n.
Proof.
  intros Hw Hd. assert (Hc : Consumes (decode (TArray t n)) (fun _ v => exists vs, v = VSeq vs /\ length vs = n)).
  { cbn [decode]. apply N_map. eapply N_ext; [apply N_items_len, decode_local|]. cbn beta. intros bs vs Hn. eauto. }
  destruct (Hc i i' v Hw Hd) as (_ & _ & _ & H). exact H.
Qed.
