(* The exact forms of C20, C72 and C73 in builds with overflow checks. *)
From Coq Require Import Lia.
From Verif Require Import Base Streams Utf8 Types Traits Encode Decode Spec SpecCalls SpecDecode SpecPeak SpecWork SpecEq SpecSurvive SpecReach
  BaseFacts TypesFacts Utf8Facts WireFacts AcceptFacts ValueProofs DecodeProofs DeriveProofs EncodeProofs EncodeFacts EncodeCases PeakProofs SurviveProofs ProfileProofs ReachProofs WriteProofs.
Set Implicit Arguments.

(* ---- by value *)

Lemma wire_not_lowest :
  (forall t v bs, Wire true t v bs -> has_lowest_second v = false) /\
  (forall ts vs bs, WireFields true ts vs bs -> existsb has_lowest_second vs = false) /\
  (forall t vs bs, WireItems true t vs bs -> existsb has_lowest_second vs = false) /\
  (forall k v kvs bs, WireEntries true k v kvs bs -> existsb (fun p => has_lowest_second (fst p) || has_lowest_second (snd p)) kvs = false).
Proof.
  apply (@Wire_mutind true
    (fun t v bs _ => has_lowest_second v = false) (fun ts vs bs _ => existsb has_lowest_second vs = false)
    (fun t vs bs _ => existsb has_lowest_second vs = false) (fun k v kvs bs _ => existsb (fun p => has_lowest_second (fst p) || has_lowest_second (snd p)) kvs = false));
    intros; cbn [has_lowest_second existsb fst snd]; try reflexivity; try assumption; repeat match goal with H : _ = false |- _ => rewrite H; clear H end; try reflexivity.
  apply Z.eqb_neq. auto.
Qed.

Lemma C72_value_lemma t v bs : wt t v -> Appends (encode false t v) bs (Ok tt) ->
  (Appends (encode true t v) bs (Ok tt) <-> has_lowest_second v = false).
Proof.
  intros Hv Ha. split.
  - intros H. exact (proj1 wire_not_lowest _ _ _ (@appends_wire true t v bs Hv H)).
  - intros Hl o Hw Hr. destruct (@C72_encode_lemma t v o Hv Hw) as [E|[E _]]; [|congruence]. rewrite E. exact (Ha o Hw Hr).
Qed.

(* ---- types with a time in a value that can be encoded *)

Definition Timed (t : ty) (v : val) := wt t v /\ Representable t v /\ has_lowest_second v = true.

Lemma timed_fields ts : Forall (fun t => EnumsOk t -> occurs a_time t = true -> exists v, Timed t v) ts -> Forall EnumsOk ts ->
  forallb writable ts = true -> existsb (occurs a_time) ts = true -> exists vs, all2 (map wt ts) vs /\ all2 (map Representable ts) vs /\ existsb has_lowest_second vs = true.
Proof.
  induction 1 as [|t ts Ht Hts IH]; intros He Hw Ho; [discriminate Ho|]. inversion He; subst. cbn [forallb existsb] in Hw, Ho. apply andb_true_iff in Hw. destruct Hw as [Hw1 Hw2].
  destruct (occurs a_time t) eqn:E.
  - destruct Ht as (v & T1 & T2 & T3); [assumption | reflexivity|]. destruct (@ready_fields ts) as (vs & Hvs); try assumption.
    { rewrite Forall_forall. intros x _. apply ready_exists. }
    apply ready_fields_spec in Hvs. exists (v :: vs). cbn [map all2 existsb]. rewrite T3. tauto.
  - destruct IH as (vs & T1 & T2 & T3); try assumption. destruct (@ready_exists t) as (v & R1 & R2 & R3); try assumption. exists (v :: vs). cbn [map all2 existsb]. rewrite T3, orb_true_r. tauto.
Qed.

Ltac timed v := exists v; unfold Timed; cbn [wt Representable has_lowest_second existsb length fst snd map];
  repeat match goal with |- _ /\ _ => split end;
  first [assumption | reflexivity | lia | (match goal with H : has_lowest_second _ = true |- _ => rewrite ?H, ?orb_true_r; reflexivity end)
        | (repeat constructor; try assumption; intros []; fail) | idtac].

Lemma timed_exists t : EnumsOk t -> occurs a_time t = true -> exists v, Timed t v.
Proof.
  induction t using ty_ind_strong; intros Hx Ho; cbn [EnumsOk occurs a_time orb] in Hx, Ho; try discriminate Ho;
    try (destruct (IHt Hx Ho) as (x & H1 & H2 & H3)).
  - timed (VSome x).
  - destruct Hx as [Hx1 Hx2]. apply orb_true_iff in Ho. destruct Ho as [Ho|Ho];
      [destruct (IHt1 Hx1 Ho) as (x & H1 & H2 & H3); timed (VOk x) | destruct (IHt2 Hx2 Ho) as (x & H1 & H2 & H3); timed (VErr x)].
  - apply fold_and_map in Hx. apply andb_true_iff in Ho. destruct Ho as [Hw Ho]. destruct (timed_fields H Hx Hw Ho) as (vs & Hv). exists (VTuple vs). exact Hv.
  - apply andb_true_iff in Ho. destruct Ho as [Hn Ho]. destruct (IHt Hx Ho) as (x & H1 & H2 & H3). destruct n as [|n]; [discriminate Hn|].
    exists (VSeq (repeat x (S n))). split; [split; [apply repeat_length|]|split].
    + apply Forall_forall. intros y Hy. apply repeat_spec in Hy. subst. exact H1.
    + apply Forall_forall. intros y Hy. apply repeat_spec in Hy. subst. exact H2.
    + cbn [has_lowest_second repeat existsb]. rewrite H3. reflexivity.
  - timed (VSeq [x]).
  - timed (VSeq [x]).
  - timed (VSeq [x]).
  - apply andb_true_iff in Ho. destruct Ho as [Hn Ho]. apply Nat.ltb_lt in Hn. destruct (IHt Hx Ho) as (x & H1 & H2 & H3). timed (VSeq [x]).
  - timed (VWrap x).
  - timed (VCow true x).
  - timed (VRefCell false x).
  - timed (VLock false x).
  - timed (VTime (- 2 ^ 63) 0).
  - timed (VRange x x).
  - timed (VHalfRange x).
  - timed (VRangeInclusive x x false).
  - timed (VHalfRange x).
  - timed (VHalfRange x).
  - timed (VIncluded x).
  - destruct Hx as [Hx1 Hx2]. apply andb_true_iff in Ho. destruct Ho as [Hw Ho]. apply andb_true_iff in Hw. destruct Hw as [W1 W2].
    destruct (@ready_exists t1 Hx1 W1) as (k & K1 & K2 & K3). destruct (@ready_exists t2 Hx2 W2) as (u & U1 & U2 & U3).
    apply orb_true_iff in Ho. destruct Ho as [Ho|Ho];
      [destruct (IHt1 Hx1 Ho) as (x & H1 & H2 & H3); timed (VMap [(x, u)]) | destruct (IHt2 Hx2 Ho) as (x & H1 & H2 & H3); timed (VMap [(k, x)])].
  - timed (VSet [x]).
  - apply fold_and_map in Hx. apply andb_true_iff in Ho. destruct Ho as [Hw Ho]. destruct (timed_fields H Hx Hw Ho) as (vs & Hv). exists (VTuple vs). exact Hv.
  - destruct Hx as [Hok Hx]. apply fold_and_map in Hx.
    destruct (@some_variant_ready r vs _ (fun ts => forallb writable ts && existsb (occurs a_time) ts) Hok eq_refl Ho) as (i & e & ts & Hi & Ht & Hd).
    rewrite Forall_forall in H, Hx. pose proof (nth_error_In _ _ Hi) as Hin. specialize (H _ Hin). specialize (Hx _ Hin). cbn [snd] in H, Hx. apply fold_and_map in Hx.
    apply andb_true_iff in Ht. destruct Ht as [Hw Hoc]. destruct (timed_fields H Hx Hw Hoc) as (fs & F1 & F2 & F3). exists (VEnum i fs).
    pose proof (nth_error_map_some (fun x => map wt (snd x)) _ _ Hi) as N1. pose proof (nth_error_map_some (fun x => map Representable (snd x)) _ _ Hi) as N2.
    unfold Timed. cbn [wt Representable has_lowest_second]. rewrite N1, N2. cbn [snd]. tauto.
Qed.

Lemma fields_timeless ts : Forall (fun t => forall v, wt t v -> Representable t v -> occurs a_time t = false -> has_lowest_second v = false) ts -> forall vs,
  all2 (map wt ts) vs -> all2 (map Representable ts) vs -> forallb writable ts && existsb (occurs a_time) ts = false -> existsb has_lowest_second vs = false.
Proof.
  intros H vs H1 H2 Ho. rewrite (@fields_writable ts) with (vs := vs) in Ho; [| |exact H1|exact H2].
  2:{ rewrite Forall_forall. intros x _. apply writable_of. }
  cbn [andb] in Ho. revert vs H1 H2 Ho. induction H as [|t ts Ht Hts IH]; intros [|v vs] H1 H2 Ho; cbn [map all2 existsb] in *; try tauto.
  apply orb_false_iff in Ho. destruct Ho as [O1 O2]. rewrite (Ht v), (IH vs); tauto.
Qed.
Lemma items_timeless t vs : (forall v, wt t v -> Representable t v -> occurs a_time t = false -> has_lowest_second v = false) ->
  Forall (wt t) vs -> Forall (Representable t) vs -> vs = [] \/ occurs a_time t = false -> existsb has_lowest_second vs = false.
Proof.
  intros IH H1 H2 [->|Ho]; [reflexivity|]. induction vs as [|v vs IHv]; [reflexivity|]. inversion H1; subst. inversion H2; subst. cbn [existsb]. rewrite (IH v), IHv by assumption. reflexivity.
Qed.

Lemma timeless_all t : forall v, wt t v -> Representable t v -> occurs a_time t = false -> has_lowest_second v = false.
Proof.
  induction t using ty_ind_strong; intros u Hw Hr Ho; cbn [occurs a_time orb] in Ho; try discriminate Ho; destruct u; try (destruct Hw; fail); cbn [wt Representable] in Hw, Hr;
    cbn [has_lowest_second]; try reflexivity; try (apply IHt; tauto); try (apply orb_false_iff; split; apply IHt; tauto); try (apply (@items_timeless t); try assumption; try tauto; fail).
  - apply orb_false_iff in Ho. apply IHt1; tauto.
  - apply orb_false_iff in Ho. apply IHt2; tauto.
  - eapply fields_timeless; eassumption.
  - apply (@items_timeless t); try tauto. apply andb_false_iff in Ho. destruct Ho as [Ho|Ho]; [left | right; exact Ho]. apply Nat.ltb_ge in Ho. destruct vs; [reflexivity | cbn [length] in Hw; lia].
  - apply (@items_timeless t); try tauto. apply andb_false_iff in Ho. destruct Ho as [Ho|Ho]; [left | right; exact Ho]. apply Nat.ltb_ge in Ho. destruct vs; [reflexivity | cbn [length] in Hw; lia].
  - destruct Hw as [_ Hw]. induction kvs as [|[k x] kvs IH]; [reflexivity|]. inversion Hw as [|? ? [K1 V1] Hw']; subst. inversion Hr as [|? ? [K2 V2] Hr']; subst. cbn [fst snd existsb] in *.
    rewrite (@writable_of t1 k K1 K2), (@writable_of t2 x V1 V2) in Ho. cbn [andb] in Ho. apply orb_false_iff in Ho. destruct Ho as [O1 O2].
    rewrite (IHt1 k K1 K2 O1), (IHt2 x V1 V2 O2). apply IH; assumption.
  - eapply fields_timeless; eassumption.
  - destruct (@variant_of r vs i vs0 Hw Hr) as (e & ts & d & Hi & Ha & Hf & H1 & H2).
    pose proof (@some_variant_here r vs (fun ts => forallb writable ts && existsb (occurs a_time) ts) _ _ _ _ Hi Ha Hf Ho) as F. cbn beta in F.
    rewrite Forall_forall in H. specialize (H _ (nth_error_In _ _ Hi)). cbn [snd] in H. eapply fields_timeless; eassumption.
Qed.

Lemma C72_exact_lemma t : EnumsOk t ->
  ((forall v bs, wt t v -> Appends (encode false t v) bs (Ok tt) -> Appends (encode true t v) bs (Ok tt)) <-> occurs a_time t = false).
Proof.
  intros Hx. split.
  - intros H. destruct (occurs a_time t) eqn:E; [|reflexivity]. exfalso. destruct (@timed_exists t Hx E) as (v & H1 & H2 & H3).
    destruct (@C10_lemma false t v H1 (or_introl eq_refl)) as (bs & [[_ Ha]|[Hc _]]); [|exact (Hc H2)].
    pose proof (proj1 (@C72_value_lemma t v bs H1 Ha) (H v bs H1 Ha)). congruence.
  - intros E v bs Hv Ha. apply (@C72_value_lemma t v bs Hv Ha). apply (@timeless_all t v Hv (@appends_representable false t v bs Hv Ha) E).
Qed.

(* ---- types with a time in a value that can be decoded *)

Definition Late (t : ty) (bs : list byte) (v : val) := Fine t bs v /\ has_lowest_second v = true.

Lemma late_fields ts bs vs : BadFields Late ts bs vs -> AcceptsFields ts bs vs /\ all2 (map wt ts) vs /\ existsb has_lowest_second vs = true.
Proof.
  induction 1 as [t ts x y v vs [[Ha Hw] Hn] Hf | t ts x y v vs [Ha Hw] Hb [IH1 [IH2 IH3]]]; cbn [existsb].
  - destruct (fine_accepts Hf) as [F1 F2]. split; [constructor; assumption|]. split; [split; assumption|]. rewrite Hn. reflexivity.
  - split; [constructor; assumption|]. split; [split; assumption|]. rewrite IH3. apply orb_true_r.
Qed.
Lemma late_spreads : Spreads Late.
Proof.
  constructor; unfold Late, Fine in *; intros;
    try match goal with H : BadFields _ _ _ _ |- _ => apply late_fields in H end;
    repeat match goal with H : _ /\ _ |- _ => destruct H end;
    try (split; [split; [accepted | valid] | cbn [has_lowest_second existsb fst snd]; repeat match goal with H : _ = true |- _ => rewrite H; clear H end; rewrite ?orb_true_r; reflexivity]).
  - match goal with Hi : nth_error vs i = Some _ |- _ => pose proof (nth_error_map_some (fun x => map wt (snd x)) _ _ Hi) as N1 end.
    split; [split; [eapply A_enum; eassumption | cbn [wt]; rewrite N1; split; assumption]|]. cbn [has_lowest_second]. assumption.
  - apply owned_wt. assumption.
Qed.
Lemma start_late t : EnumsOk t -> a_time t = true -> exists x v, Late t x v.
Proof.
  intros _ H. destruct t; try discriminate H. exists (le_bytes 8 (- 2 ^ 63)), (VTime (- 2 ^ 63) 0). split; [split; [constructor; [lia | apply le_repr_le_bytes]|]|].
  - cbn. lia.
  - reflexivity.
Qed.
Lemma late_exists t : EnumsOk t -> reaches a_time t = true -> exists x v, Late t x v.
Proof. intros He E. exact (@reaches_bad a_time Late late_spreads start_late (fun t x v H => proj1 (proj1 H)) eq_refl eq_refl t He E). Qed.

Lemma existsb_none {A} (f : A -> bool) l : existsb f l = false <-> Forall (fun x => f x = false) l.
Proof.
  induction l as [|a l IH]; cbn [existsb]; [split; [constructor | reflexivity]|]. rewrite orb_false_iff, IH. split; [intros [H1 H2]; constructor; assumption | inversion 1; split; assumption].
Qed.

Lemma accepts_timeless_all :
  (forall t bs v, Accepts t bs v -> reaches a_time t = false -> has_lowest_second v = false) /\
  (forall ts bs vs, AcceptsFields ts bs vs -> existsb (reaches a_time) ts = false -> existsb has_lowest_second vs = false) /\
  (forall t bs vs, AcceptsItems t bs vs -> vs = [] \/ reaches a_time t = false -> existsb has_lowest_second vs = false) /\
  (forall k v bs l, AcceptsEntries k v bs l -> l = [] \/ reaches a_time k = false /\ reaches a_time v = false ->
     existsb (fun p => has_lowest_second (fst p) || has_lowest_second (snd p)) l = false).
Proof.
  apply (@Accepts_mutind
    (fun t bs v _ => reaches a_time t = false -> has_lowest_second v = false)
    (fun ts bs vs _ => existsb (reaches a_time) ts = false -> existsb has_lowest_second vs = false)
    (fun t bs vs _ => vs = [] \/ reaches a_time t = false -> existsb has_lowest_second vs = false)
    (fun k v bs l _ => l = [] \/ reaches a_time k = false /\ reaches a_time v = false -> existsb (fun p => has_lowest_second (fst p) || has_lowest_second (snd p)) l = false));
    intros;
    try match goal with H : AcceptsFields _ _ _ |- _ => pose proof (fields_decodable H) end;
    try match goal with H : reaches _ _ = false |- _ => pose proof (reaches_kind _ _ H); try (pose proof (@reaches_owned a_time (fun _ => eq_refl) eq_refl eq_refl _ H)); try (pose proof (@reaches_variant _ _ _ _ _ _ _ _ H ltac:(eassumption) ltac:(eassumption) ltac:(eassumption) ltac:(eassumption))); cbn [reaches a_time orb] in H end;
    repeat match goal with H : _ || _ = false |- _ => apply orb_false_iff in H; destruct H end;
    cbn [has_lowest_second]; try discriminate; auto.
  - rewrite H1 in H0. exact (H H0).
  - rewrite H1 in H0. exact (H H0).
  - rewrite H, H0 by assumption. reflexivity.
  - rewrite H, H0 by assumption. reflexivity.
  - subst n. destruct vs; auto.
  - subst n. assert (Hv : existsb has_lowest_second vs = false) by (destruct vs; auto). rewrite existsb_none in Hv |- *.
    rewrite <- (firstn_skipn len vs) in Hv. apply Forall_app in Hv. apply Hv.
  - apply existsb_none. eapply putall_forall; [exact p | constructor|]. apply existsb_none. apply H. eapply reaches_entries; eassumption.
  - apply existsb_none. eapply addall_forall; [exact a0 | constructor|]. apply existsb_none. auto.
  - cbn [existsb] in *. apply orb_false_iff in H1. destruct H1. rewrite H, H0 by assumption. reflexivity.
  - destruct H1 as [H1|H1]; [discriminate|]. cbn [existsb]. rewrite H, H0 by auto. reflexivity.
  - destruct H2 as [H2|[H2 H3]]; [discriminate|]. cbn [existsb fst snd]. rewrite H, H0, H1 by auto. reflexivity.
Qed.

(* ---- with checks *)

Lemma wt_yields t x v : Fine t x v -> Yields (decode t) x v.
Proof. intros [Ha _]. exact (accepts_parses Ha). Qed.
Lemma yields_accepts t bs v : EnumsOk t -> Yields (decode t) bs v -> Accepts t bs v.
Proof. intros He Hy. apply accepts_iff in Hy; assumption. Qed.

Lemma C20_checked_lemma t : EnumsOk t ->
  ((forall bs v, wt t v -> Yields (decode t) bs v -> Appends (encode true t v) bs (Ok tt)) <-> reaches a_loose t = false /\ reaches a_time t = false).
Proof.
  intros He. split.
  - intros H. assert (Ht : reaches a_time t = false).
    { destruct (reaches a_time t) eqn:E; [|reflexivity]. exfalso. destruct (@late_exists t He E) as (x & v & Hf & Hl).
      pose proof (H x v (proj2 Hf) (@wt_yields t x v Hf)) as Ha. pose proof (proj1 wire_not_lowest _ _ _ (@appends_wire true t v x (proj2 Hf) Ha)). congruence. }
    split; [|exact Ht]. apply (@C20_exact_lemma t He). intros bs v Hv Hy. pose proof (H bs v Hv Hy) as Ha.
    pose proof (@appends_representable true t v bs Hv Ha) as Hr. destruct (@C10_lemma false t v Hv (or_introl eq_refl)) as (b & [[_ Hb]|[Hc _]]); [|destruct (Hc Hr)].
    assert (Hl : has_lowest_second v = false) by (exact (proj1 accepts_timeless_all _ _ _ (@yields_accepts t bs v He Hy) Ht)).
    pose proof (proj2 (@C72_value_lemma t v b Hv Hb) Hl) as Hb'.
    destruct (@appends_unique (encode true t v) bs b (Ok tt) (Ok tt)) as [-> _]; try assumption. apply encode_has_trace.
  - intros [Hl Ht] bs v Hv Hy. pose proof (proj2 (@C20_exact_lemma t He) Hl bs v Hv Hy) as Ha. apply (@C72_value_lemma t v bs Hv Ha).
    exact (proj1 accepts_timeless_all _ _ _ (@yields_accepts t bs v He Hy) Ht).
Qed.

Lemma C73_checked_lemma t : EnumsOk t -> dec_ety t <> None ->
  ((forall i i' v, in_bounds i -> decode t i = (i', Ok v) -> wt t v ->
     exists bs v', Appends (encode true t v) bs (Ok tt) /\ Yields (decode t) bs v' /\ SameValue t v' v) <-> reaches a_lossy t = false /\ reaches a_time t = false).
Proof.
  intros He Hd. split.
  - intros H. assert (Ht : reaches a_time t = false).
    { destruct (reaches a_time t) eqn:E; [|reflexivity]. exfalso. destruct (@late_exists t He E) as (x & v & Hf & Hl).
      pose proof (@wt_yields t x v Hf [] []) as Hy. cbn [app length Nat.add] in Hy. rewrite app_nil_r in Hy.
      destruct (H (Input x 0) (Input x (length x)) v) as (bs & v' & Ha & _); [unfold in_bounds, input_position, input_capacity; cbn; lia | exact Hy | exact (proj2 Hf)|].
      pose proof (proj1 wire_not_lowest _ _ _ (@appends_wire true t v bs (proj2 Hf) Ha)). congruence. }
    split; [|exact Ht]. apply (@C73_exact_lemma t He Hd). intros i i' v Hb Hdec Hv. destruct (H i i' v Hb Hdec Hv) as (bs & v' & Ha & Hy & Hs).
    exists bs, v'. split; [|split; assumption]. pose proof (@appends_representable true t v bs Hv Ha) as Hr.
    destruct (@C10_lemma false t v Hv (or_introl eq_refl)) as (b & [[_ Hb']|[Hc _]]); [|destruct (Hc Hr)].
    pose proof (proj1 wire_not_lowest _ _ _ (@appends_wire true t v bs Hv Ha)) as Hl.
    pose proof (proj2 (@C72_value_lemma t v b Hv Hb') Hl) as Hb2. destruct (@appends_unique (encode true t v) bs b (Ok tt) (Ok tt)) as [-> _]; try assumption. apply encode_has_trace.
  - intros [Hl Ht] i i' v Hb Hdec Hv. destruct (proj2 (@C73_exact_lemma t He Hd) Hl i i' v Hb Hdec Hv) as (bs & v' & Ha & Hy & Hs). exists bs, v'.
    split; [|split; assumption]. apply (@C72_value_lemma t v bs Hv Ha). destruct (@decode_exact t i i' v He Hb Hdec) as (x & post & _ & _ & Hacc).
    exact (proj1 accepts_timeless_all _ _ _ Hacc Ht).
Qed.
