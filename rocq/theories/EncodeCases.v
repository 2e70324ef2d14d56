(* The three outcomes of encoding a valid value into an output with room: success, error, or the arithmetic panic. *)
From Coq Require Import Lia ZifyBool ZifyNat ZifyN.
From Verif Require Import Base BaseFacts Streams StreamFacts Utf8 Types TypesFacts Traits Encode Spec EncodeFacts WireFacts.
Set Implicit Arguments.
Local Open Scope Z_scope.

(* [R]: the value is representable; [W]: its encoding; [L]: it contains a time at the lowest second. *)
Inductive Good (ch : bool) (m : E) (R : Prop) (W : list byte -> Prop) (L : bool) : Prop :=
| G_ok bs : R -> W bs -> Succeeds m bs -> Good ch m R W L
| G_err cs e : ~ R -> Traces m cs (Err e) -> Good ch m R W L
| G_panic cs : ch = true -> L = true -> Traces m cs (Panic PArith) -> Good ch m R W L.

Lemma Good_impl ch m (R R' : Prop) (W W' : list byte -> Prop) (L L' : bool) :
  Good ch m R W L -> (R <-> R') -> (forall bs, W bs -> W' bs) -> (L = true -> L' = true) -> Good ch m R' W' L'.
Proof.
  intros [bs Hr Hw Hs | cs e Hr Ht | cs Hc Hl Ht] HR HW HL.
  - apply (@G_ok ch m R' W' L' bs); [apply HR; exact Hr | apply HW; exact Hw | exact Hs].
  - apply (@G_err ch m R' W' L' cs e); [rewrite <- HR; exact Hr | exact Ht].
  - apply (@G_panic ch m R' W' L' cs); auto.
Qed.

Lemma Good_map_err ch f m R W L : Good ch m R W L -> Good ch (emap_err f m) R W L.
Proof.
  intros [bs Hr Hw Hs | cs e Hr Ht | cs Hc Hl Ht].
  - apply (@G_ok ch (emap_err f m) R W L bs); [exact Hr | exact Hw | apply S_map_err; exact Hs].
  - apply (@G_err ch (emap_err f m) R W L cs (f e)); [exact Hr | apply (T_map_err f Ht)].
  - apply (@G_panic ch (emap_err f m) R W L cs); [exact Hc | exact Hl | apply (T_map_err f Ht)].
Qed.

Lemma Good_seq ch a b (Ra Rb R : Prop) (Wa Wb W : list byte -> Prop) La Lb L :
  Good ch a Ra Wa La -> Good ch b Rb Wb Lb -> (R <-> Ra /\ Rb) ->
  (forall x y, Wa x -> Wb y -> W (x ++ y)) -> (La = true \/ Lb = true -> L = true) -> Good ch (eseq a b) R W L.
Proof.
  intros Ha Hb HR HW HL. destruct Ha as [x Hra Hwa Hsa | cs e Hra Hta | cs Hc Hl Hta].
  - destruct Hb as [y Hrb Hwb Hsb | ds e Hrb Htb | ds Hc Hl Htb].
    + apply (@G_ok ch (eseq a b) R W L (x ++ y)); [tauto | auto | apply S_seq; assumption].
    + destruct Hsa as (cs & Hta & _). apply (@G_err ch (eseq a b) R W L (cs ++ ds) e); [tauto | apply T_seq_ok; assumption].
    + destruct Hsa as (cs & Hta & _). apply (@G_panic ch (eseq a b) R W L (cs ++ ds)); [exact Hc | tauto | apply T_seq_ok; assumption].
  - apply (@G_err ch (eseq a b) R W L cs e); [tauto | apply T_seq_stop; [exact Hta | congruence]].
  - apply (@G_panic ch (eseq a b) R W L cs); [exact Hc | tauto | apply T_seq_stop; [exact Hta | congruence]].
Qed.

Lemma Good_ok ch m (R : Prop) (W : list byte -> Prop) L bs : R -> W bs -> Succeeds m bs -> Good ch m R W L.
Proof. intros Hr Hw Hs. apply (@G_ok ch m R W L bs); assumption. Qed.

(* a sign octet, then the rest *)
Lemma Good_cons ch a b x (R : Prop) (Wb W : list byte -> Prop) L :
  Succeeds a [x] -> Good ch b R Wb L -> (forall y, Wb y -> W (x :: y)) -> Good ch (eseq a b) R W L.
Proof.
  intros Ha Hb HW. eapply (@Good_seq ch a b True R R (fun z => z = [x]) Wb W false L L).
  - apply (@Good_ok ch a True (fun z => z = [x]) false [x]); [exact I | reflexivity | exact Ha].
  - exact Hb.
  - tauto.
  - intros ? y -> Hy. apply HW. exact Hy.
  - intros [|]; [discriminate | assumption].
Qed.

Lemma Good_int ch i z : in_ity i z -> Good ch (enc_int i z) (int_fits i z) (WireInt i z) false.
Proof.
  intros Hz.
  assert (Hfix : i <> Usize -> i <> Isize -> Good ch (enc_num (iwidth i) z) True (WireInt i z) false).
  { intros H1 H2. apply (@Good_ok _ _ _ _ _ (le_bytes (iwidth i) z)); [exact I | apply WI_fixed; auto using le_repr_le_bytes | apply S_write]. }
  destruct i; try (apply Hfix; congruence); cbn [enc_int int_fits]; cbn in Hz.
  - unfold enc_usize. destruct ((0 <=? z) && (z <? 65536)) eqn:Hb.
    + apply (@Good_ok _ _ _ _ _ (le_bytes 2 z)); [lia | apply WI_usize; [lia | apply le_repr_le_bytes] | apply S_write].
    + apply (@G_err _ _ _ _ _ [] (EUsize z)); [lia | apply T_eerror].
  - unfold enc_isize. destruct ((-32768 <=? z) && (z <? 32768)) eqn:Hb.
    + apply (@Good_ok _ _ _ _ _ (le_bytes 2 z)); [lia | apply WI_isize; [lia | apply le_repr_le_bytes] | apply S_write].
    + apply (@G_err _ _ _ _ _ [] (EIsize z)); [lia | apply T_eerror].
Qed.

Lemma Good_len ch n : Good ch (emap_err ELen (enc_usize (Z.of_nat n))) (Z.of_nat n <= 65535) (WireLen n) false.
Proof.
  apply Good_map_err. unfold enc_usize. destruct ((0 <=? Z.of_nat n) && (Z.of_nat n <? 65536)) eqn:Hb.
  - apply (@Good_ok _ _ _ _ _ (le_bytes 2 (Z.of_nat n))); [lia | split; [lia | apply le_repr_le_bytes] | apply S_write].
  - apply (@G_err _ _ _ _ _ [] (EUsize (Z.of_nat n))); [lia | apply T_eerror].
Qed.

(* the statement for one type *)
Definition GoodTy (ch : bool) (t : ty) : Prop :=
  forall v, wt t v -> Good ch (encode ch t v) (Representable t v) (Wire ch t v) (has_lowest_second v).

Lemma Good_items ch t wrap : GoodTy ch t -> forall vs, Forall (wt t) vs -> forall i,
  Good ch (enc_items (encode ch t) wrap i vs) (Forall (Representable t) vs) (WireItems ch t vs) (existsb has_lowest_second vs).
Proof.
  intros IH. induction 1 as [|v vs Hv Hvs IHvs]; intros i; cbn [enc_items existsb].
  - apply (@Good_ok _ _ _ _ _ []); [constructor | constructor | apply S_ok].
  - eapply Good_seq; [apply Good_map_err, IH, Hv | apply IHvs | apply Forall_cons_iff | intros x y; apply WL_cons | ].
    intros [->| ->]; [reflexivity | apply orb_true_r].
Qed.

Lemma Good_keys ch t : GoodTy ch t -> forall vs, Forall (wt t) vs ->
  Good ch (enc_keys (encode ch t) vs) (Forall (Representable t) vs) (WireItems ch t vs) (existsb has_lowest_second vs).
Proof.
  intros IH. induction 1 as [|v vs Hv Hvs IHvs]; cbn [enc_keys existsb].
  - apply (@Good_ok _ _ _ _ _ []); [constructor | constructor | apply S_ok].
  - eapply Good_seq; [apply IH, Hv | apply IHvs | apply Forall_cons_iff | intros x y; apply WL_cons | ].
    intros [->| ->]; [reflexivity | apply orb_true_r].
Qed.

Lemma Good_entries ch k v : GoodTy ch k -> GoodTy ch v -> forall kvs,
  Forall (fun p => wt k (fst p) /\ wt v (snd p)) kvs ->
  Good ch (enc_entries (encode ch k) (encode ch v) kvs)
    (Forall (fun p => Representable k (fst p) /\ Representable v (snd p)) kvs) (WireEntries ch k v kvs)
    (existsb (fun p => has_lowest_second (fst p) || has_lowest_second (snd p)) kvs).
Proof.
  intros IHk IHv. induction 1 as [|[a b] kvs [Ha Hb] Hvs IHvs]; cbn [enc_entries existsb fst snd].
  - apply (@Good_ok _ _ _ _ _ []); [constructor | constructor | apply S_ok].
  - cbn [fst snd] in *.
    eapply (@Good_seq ch _ _ (Representable k a)
              (Representable v b /\ Forall (fun p => Representable k (fst p) /\ Representable v (snd p)) kvs) _
              (Wire ch k a) (fun z => exists x y, z = x ++ y /\ Wire ch v b x /\ WireEntries ch k v kvs y) _
              (has_lowest_second a)
              (has_lowest_second b || existsb (fun p => has_lowest_second (fst p) || has_lowest_second (snd p)) kvs)).
    + apply IHk, Ha.
    + eapply Good_seq; [apply IHv, Hb | apply IHvs | reflexivity | intros x y Hx Hy; exists x, y; auto |].
      intros [->| ->]; [reflexivity | apply orb_true_r].
    + rewrite Forall_cons_iff. cbn [fst snd]. tauto.
    + intros x ? Hx (y & z & -> & Hy & Hz). apply WE_cons; assumption.
    + rewrite <- orb_assoc. intros [-> | ->]; [reflexivity | apply orb_true_r].
Qed.

Lemma Good_fields ch conv ts : Forall (GoodTy ch) ts -> forall vs, Forall2 wt ts vs ->
  Good ch (enc_fields (map (encode ch) ts) conv vs) (Forall2 Representable ts vs) (WireFields ch ts vs)
    (existsb has_lowest_second vs).
Proof.
  induction 1 as [|t ts Ht Hts IH]; intros vs Hv; inversion Hv as [|? v ? vs' H1 H2]; subst; cbn [map enc_fields existsb].
  - apply (@Good_ok _ _ _ _ _ []); [constructor | constructor | apply S_ok].
  - eapply Good_seq; [apply Good_map_err, Ht, H1 | apply IH, H2 | | intros x y; apply WF_cons | ].
    + split; [intros H; inversion H; auto | intros [? ?]; constructor; assumption].
    + intros [->| ->]; [reflexivity | apply orb_true_r].
Qed.

Lemma Good_bytes ch s : Good ch (enc_bytes s) (Z.of_nat (length s) <= 65535)
  (fun bs => exists lb, WireLen (length s) lb /\ bs = lb ++ s) false.
Proof.
  unfold enc_bytes, enc_slice. eapply Good_seq.
  - apply Good_len.
  - apply (@Good_ok ch _ True (fun bs => bs = s) false s); [exact I | reflexivity | apply S_items_u8].
  - tauto.
  - intros x y Hx ->. exists x. auto.
  - intros [|]; assumption.
Qed.

Lemma Good_slice ch t wrap vs : GoodTy ch t -> Forall (wt t) vs ->
  Good ch (enc_slice (encode ch t) wrap vs) (Z.of_nat (length vs) <= 65535 /\ Forall (Representable t) vs)
    (fun bs => exists lb ib, WireLen (length vs) lb /\ WireItems ch t vs ib /\ bs = lb ++ ib) (existsb has_lowest_second vs).
Proof.
  intros Ht Hv. unfold enc_slice. eapply Good_seq.
  - apply Good_len.
  - apply (Good_items wrap Ht Hv).
  - reflexivity.
  - intros x y Hx Hy. exists x, y. auto.
  - intros [|]; [discriminate | assumption].
Qed.

Ltac gdone bs := apply (@Good_ok _ _ _ _ _ bs); [exact I | | ].

Lemma good_all ch t : GoodTy ch t.
Proof.
  induction t using ty_ind_strong; intros v Hv; destruct v; cbn [wt] in Hv; try contradiction;
    cbn [encode Representable has_lowest_second].
  - eapply Good_impl; [apply Good_int; exact Hv | reflexivity | intros bs; apply W_int | discriminate].
  - gdone (le_bytes 4 z); [apply W_f32, le_repr_le_bytes | apply S_write].
  - gdone (le_bytes 8 z); [apply W_f64, le_repr_le_bytes | apply S_write].
  - destruct b; [gdone [x01] | gdone [x00]]; try apply S_u8; try reflexivity; [apply W_true | apply W_false].
  - gdone (le_bytes 4 c); [apply W_char, le_repr_le_bytes | apply S_write].
  - gdone (@nil byte); [apply W_unit | apply S_ok].
  - eapply Good_impl; [apply Good_int; tauto | reflexivity | intros bs; apply W_nonzero | discriminate].
  - gdone [x00]; [apply W_none | apply S_u8; reflexivity].
  - eapply Good_cons; [apply (S_bool true) | apply IHt; exact Hv | intros y; apply W_some].
  - eapply Good_cons; [apply (S_bool false) | apply IHt1; exact Hv | intros y; apply W_ok].
  - eapply Good_cons; [apply (S_bool true) | apply Good_map_err, IHt2; exact Hv | intros y; apply W_err].
  - apply all2_forall2 in Hv. eapply Good_impl; [apply Good_fields; eassumption | | intros bs; apply W_tuple | auto].
    symmetry; apply all2_forall2.
  - destruct Hv as [Hl Hv]. eapply Good_impl; [apply (Good_items EItem IHt Hv) | reflexivity | intros bs; apply W_array; exact Hl | auto].
  - eapply Good_impl; [apply (Good_slice EItem IHt Hv) | reflexivity | intros bs (lb & ib & H1 & H2 & ->); apply W_slice; assumption | auto].
  - eapply Good_impl; [apply (Good_slice EItem IHt Hv) | reflexivity | intros bs (lb & ib & H1 & H2 & ->); apply W_vec; assumption | auto].
  - eapply Good_impl; [apply (Good_slice EItemTuple IHt Hv) | reflexivity | intros bs (lb & ib & H1 & H2 & ->); apply W_linked; assumption | auto].
  - destruct Hv as [Hl Hv].
    eapply Good_impl; [apply (Good_slice EItem IHt Hv) | reflexivity | intros bs (lb & ib & H1 & H2 & ->); apply W_sized_slice; assumption | auto].
  - eapply Good_impl; [apply Good_bytes | reflexivity | intros x (lb & H1 & ->); apply W_str; assumption | auto].
  - eapply Good_impl; [apply Good_bytes | reflexivity | intros x (lb & H1 & ->); apply W_string; assumption | auto].
  - eapply Good_impl; [apply Good_bytes | reflexivity | intros x (lb & H1 & ->); apply W_sized_str; tauto | auto].
  - eapply Good_impl; [apply Good_bytes | reflexivity | intros x (lb & H1 & ->); apply W_cstr; assumption | auto].
  - eapply Good_impl; [apply Good_bytes | reflexivity | intros x (lb & H1 & ->); apply W_cstring; assumption | auto].
  - eapply Good_impl; [apply IHt; exact Hv | reflexivity | intros bs; apply W_wrap | auto].
  - eapply Good_impl; [apply IHt; exact Hv | reflexivity | intros bs; apply W_cow | auto].
  - unfold enc_refcell. destruct mut_borrowed.
    + apply (@G_err _ _ _ _ _ [] EBadBorrow); [intros [? _]; discriminate | apply T_eerror].
    + eapply Good_impl; [apply Good_map_err, IHt; exact Hv | tauto | intros bs; apply W_refcell | auto].
  - eapply Good_impl; [apply IHt; exact Hv | reflexivity | intros bs; apply W_lock | auto].
  - gdone (le_bytes 8 secs ++ le_bytes 4 nanos); [apply W_duration; apply le_repr_le_bytes | apply S_seq; apply S_write].
  - rewrite enc_time_spec by tauto.
    destruct ((time_ns secs nanos =? - 2 ^ 63 * 1000000000) && ch) eqn:Hc.
    + apply andb_true_iff in Hc. apply (@G_panic _ _ _ _ _ []); [tauto | tauto | apply T_epanic].
    + gdone (le_bytes 8 (Z.quot (time_ns secs nanos) 1000000000)); [|apply S_write].
      apply W_time; [|apply le_repr_le_bytes]. intros -> Heq. rewrite andb_true_r in Hc. apply Z.eqb_neq in Hc. auto.
  - gdone (rev octets); [apply W_ipv4; exact Hv | apply S_ip4; exact Hv].
  - gdone (rev octets); [apply W_ipv6; exact Hv | apply S_ip6; exact Hv].
  - gdone (x04 :: rev octets); [apply W_ip_v4; exact Hv|].
    apply (@S_seq _ _ [x04]); apply S_map_err; [apply S_u8; reflexivity | apply S_ip4; exact Hv].
  - gdone (x06 :: rev octets); [apply W_ip_v6; exact Hv|].
    apply (@S_seq _ _ [x06]); apply S_map_err; [apply S_u8; reflexivity | apply S_ip6; exact Hv].
  - gdone (rev octets ++ le_bytes 2 port); [apply W_sock4; [tauto | apply le_repr_le_bytes] | apply S_sock4; [tauto | apply le_repr_le_bytes]].
  - gdone (rev octets ++ le_bytes 2 port ++ le_bytes 4 flow ++ le_bytes 4 scope);
      [apply W_sock6; [tauto | apply le_repr_le_bytes ..] | apply S_sock6; [tauto | apply le_repr_le_bytes ..]].
  - gdone (x04 :: rev octets ++ le_bytes 2 port); [apply W_sock_v4; [tauto | apply le_repr_le_bytes]|].
    apply (@S_seq _ _ [x04]); [apply S_u8; reflexivity | apply S_sock4; [tauto | apply le_repr_le_bytes]].
  - gdone (x06 :: rev octets ++ le_bytes 2 port ++ le_bytes 4 flow ++ le_bytes 4 scope);
      [apply W_sock_v6; [tauto | apply le_repr_le_bytes ..]|].
    apply (@S_seq _ _ [x06]); [apply S_u8; reflexivity | apply S_sock6; [tauto | apply le_repr_le_bytes ..]].
  - eapply Good_seq; [apply IHt; apply Hv | apply IHt; apply Hv | reflexivity | intros x y; apply W_range |].
    apply orb_true_iff.
  - eapply Good_impl; [apply IHt; exact Hv | reflexivity | intros bs; apply W_range_from | auto].
  - gdone (@nil byte); [apply W_full | apply S_ok].
  - eapply Good_seq; [apply IHt; apply Hv | apply IHt; apply Hv | reflexivity | intros x y; apply W_range_incl |].
    apply orb_true_iff.
  - eapply Good_impl; [apply IHt; exact Hv | reflexivity | intros bs; apply W_range_to | auto].
  - eapply Good_impl; [apply IHt; exact Hv | reflexivity | intros bs; apply W_range_to_incl | auto].
  - eapply Good_cons; [apply (@S_u8 0 x00 eq_refl) | apply Good_map_err, IHt; exact Hv | intros y; apply W_included].
  - eapply Good_cons; [apply (@S_u8 1 x01 eq_refl) | apply Good_map_err, IHt; exact Hv | intros y; apply W_excluded].
  - gdone [x02]; [apply W_unbounded | apply S_u8; reflexivity].
  - gdone (@nil byte); [apply W_phantom | apply S_ok].
  - gdone (@nil byte); [apply W_pinned | apply S_ok].
  - eapply Good_impl; [apply (Good_entries IHt1 IHt2); apply Hv | reflexivity | intros bs; apply W_map | auto].
  - eapply Good_impl; [apply (Good_keys IHt); apply Hv | reflexivity | intros bs; apply W_set | auto].
  - apply all2_forall2 in Hv. eapply Good_impl; [apply Good_fields; eassumption | | intros bs; apply W_struct | auto].
    symmetry; apply all2_forall2.
  - destruct Hv as [Hok Hf]. pose proof Hok as Hok'. unfold enum_ok in Hok'.
    destruct (discriminants (map fst vs)) as [ds|] eqn:Hd; [|contradiction]. destruct Hok' as [Hin _].
    destruct (nth_error (map (fun x => map wt (snd x)) vs) i) as [ps|] eqn:Hn; [|contradiction].
    apply nth_error_map_inv in Hn. destruct Hn as ([e ts] & Hn & ->). cbn [snd] in Hf. apply all2_forall2 in Hf.
    unfold enc_enum. rewrite (nth_error_map_some (fun x => map (encode ch) (snd x)) _ _ Hn).
    rewrite (nth_error_map_some (fun x => map Representable (snd x)) _ _ Hn). cbn [snd].
    assert (Hds : exists d, nth_error ds i = Some d).
    { destruct (nth_error ds i) as [d|] eqn:E; [eauto|]. apply nth_error_None in E.
      rewrite (discriminants_from_spec _ _ Hd), map_length in E.
      assert (nth_error vs i <> None) by congruence. apply nth_error_Some in H0. lia. }
    destruct Hds as [d Hds]. rewrite Hds.
    assert (Ha : Assigned (map fst vs) i d) by (apply (@discriminants_assigned _ _ i d Hd); exact Hds).
    assert (Hts : Forall (GoodTy ch) ts).
    { rewrite Forall_forall in H. apply (H (e, ts)). apply (nth_error_In _ _ Hn). }
    eapply Good_seq.
    + apply Good_map_err, Good_int. rewrite Forall_forall in Hin. apply Hin. apply (nth_error_In _ _ Hds).
    + apply Good_fields; eassumption.
    + rewrite all2_forall2. split; intros [H1 H2]; split; auto.
      intros d' Hd'. rewrite (assigned_functional Hd' Ha). exact H1.
    + intros x y Hx Hy. eapply W_enum; eassumption.
    + intros [|]; [discriminate | assumption].
Qed.
