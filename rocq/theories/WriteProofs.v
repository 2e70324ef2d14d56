(* The exact form of C13. *)
From Coq Require Import Lia.
From Verif Require Import Base Streams Utf8 Types Traits Encode Decode Spec SpecCalls SpecDecode SpecPeak SpecWork SpecEq SpecSurvive SpecReach
  BaseFacts TypesFacts Utf8Facts WireFacts AcceptFacts ValueProofs DecodeProofs DeriveProofs EncodeProofs EncodeFacts EncodeCases PeakProofs SurviveProofs ReachProofs.
Set Implicit Arguments.

Definition Ready (t : ty) (v : val) := wt t v /\ Representable t v /\ has_lowest_second v = false.

Inductive ReadyFields : list ty -> list val -> Prop :=
| RF_nil : ReadyFields [] []
| RF_cons t ts v vs : Ready t v -> ReadyFields ts vs -> ReadyFields (t :: ts) (v :: vs).
Lemma ready_fields_spec ts vs : ReadyFields ts vs <-> all2 (map wt ts) vs /\ all2 (map Representable ts) vs /\ existsb has_lowest_second vs = false.
Proof.
  revert vs. induction ts as [|t ts IH]; intros [|v vs]; cbn [map all2 existsb]; split; try tauto; try (intros H; inversion H; fail).
  - intros _. constructor.
  - intros H. inversion H as [|? ? ? ? (H1 & H2 & H3) Hf]; subst. apply IH in Hf. rewrite H3. tauto.
  - intros ([H1 H2] & [H3 H4] & H5). apply orb_false_iff in H5. destruct H5 as [H5 H6]. constructor; [split; [|split]; assumption | apply IH; split; [|split]; assumption].
Qed.

Lemma some_variant_ready r vs next f : enum_ok r vs -> next = 0%Z -> some_variant r next (map (fun x => (fst x, f (snd x) : bool)) vs) = true ->
  exists i e ts, nth_error vs i = Some (e, ts) /\ f ts = true /\ forall d, Assigned (map fst vs) i d -> int_fits r d.
Proof.
  intros Hok -> Hr. destruct (some_variant_spec _ _ _ Hr) as (i & e & Hi & Hf).
  apply nth_error_map_inv in Hi. destruct Hi as ([e' ts] & Hi & E). cbn [fst snd] in E. injection E as <- Et. symmetry in Et.
  exists i, e, ts. split; [exact Hi|]. split; [exact Et|]. intros d Hd. apply (Hf None d eq_refl). rewrite map_map. apply assigned_from_none. exact Hd.
Qed.

Lemma ready_fields ts : Forall (fun t => EnumsOk t -> writable t = true -> exists v, Ready t v) ts -> Forall EnumsOk ts -> forallb writable ts = true ->
  exists vs, ReadyFields ts vs.
Proof.
  induction 1 as [|t ts Ht Hts IH]; intros He Hd; [exists []; constructor|]. inversion He; subst. cbn [forallb] in Hd. apply andb_true_iff in Hd. destruct Hd.
  destruct Ht as (v & Hv); try assumption. destruct IH as (vs & Hvs); try assumption. exists (v :: vs). constructor; assumption.
Qed.

Ltac ready v := exists v; unfold Ready; cbn [wt Representable has_lowest_second existsb length]; unfold in_ity, in_u16, in_u32, time_ns;
  repeat match goal with |- _ /\ _ => split end; first [assumption | reflexivity | exact I | lia | apply valid_nil | constructor | auto].

Lemma ready_int i : exists v, wt (TInt i) (VInt v) /\ int_fits i v /\ v = 1%Z.
Proof. exists 1%Z. destruct i; cbn; unfold in_ity; cbn; lia. Qed.
Lemma ready_repeat t v n : Ready t v -> Forall (wt t) (repeat v n) /\ Forall (Representable t) (repeat v n) /\ existsb has_lowest_second (repeat v n) = false.
Proof.
  intros (H1 & H2 & H3). induction n as [|n IH]; cbn [repeat existsb]; [repeat split; constructor|]. destruct IH as (I1 & I2 & I3).
  split; [constructor; assumption|]. split; [constructor; assumption|]. rewrite H3. exact I3.
Qed.

Lemma ready_variant r vs i e ts fs : enum_ok r vs -> nth_error vs i = Some (e, ts) -> (forall d, Assigned (map fst vs) i d -> int_fits r d) ->
  ReadyFields ts fs -> Ready (TEnum r vs) (VEnum i fs).
Proof.
  intros Hok Hi Hd Hf. apply ready_fields_spec in Hf. destruct Hf as (F1 & F2 & F3).
  pose proof (nth_error_map_some (fun x => map wt (snd x)) _ _ Hi) as N1. pose proof (nth_error_map_some (fun x => map Representable (snd x)) _ _ Hi) as N2.
  unfold Ready. cbn [wt Representable has_lowest_second]. rewrite N1, N2. cbn [snd]. tauto.
Qed.

Lemma ready_exists t : EnumsOk t -> writable t = true -> exists v, Ready t v.
Proof.
  induction t using ty_ind_strong; intros Hx Hw; cbn [EnumsOk writable] in Hx, Hw; try discriminate Hw;
    try (destruct (IHt Hx Hw) as (x & H1 & H2 & H3)).
  - destruct (ready_int i) as (z & H1 & H2 & _). ready (VInt z).
  - ready (VInt 0).
  - ready (VInt 0).
  - ready (VBool true).
  - ready (VChar 97).
  - ready VUnit.
  - destruct (ready_int i) as (z & H1 & H2 & H3). ready (VInt z).
  - ready VNone.
  - destruct Hx as [Hx1 Hx2]. apply orb_true_iff in Hw. destruct Hw as [Hw|Hw]; [destruct (IHt1 Hx1 Hw) as (x & H1 & H2 & H3); ready (VOk x) | destruct (IHt2 Hx2 Hw) as (x & H1 & H2 & H3); ready (VErr x)].
  - apply fold_and_map in Hx. destruct (ready_fields H Hx Hw) as (vs & Hv). apply ready_fields_spec in Hv. exists (VTuple vs). exact Hv.
  - destruct n as [|n]; [ready (VSeq [])|]. cbn [Nat.eqb orb] in Hw. destruct (IHt Hx Hw) as (x & Hr). destruct (@ready_repeat t x (S n) Hr) as (R1 & R2 & R3).
    exists (VSeq (repeat x (S n))). split; [split; [apply repeat_length | exact R1]|]. split; assumption.
  - ready (VSeq []).
  - ready (VSeq []).
  - ready (VSeq []).
  - ready (VSeq []).
  - ready (VStr []).
  - ready (VStr []).
  - ready (VStr []).
  - ready (VStr []).
  - ready (VStr []).
  - ready (VWrap x).
  - ready (VCow true x).
  - ready (VRefCell false x).
  - ready (VLock false x).
  - ready (VDuration 0 0).
  - ready (VTime 0 0).
  - ready (VIp4 (repeat x00 4)).
  - ready (VIp6 (repeat x00 16)).
  - ready (VIpV4 (repeat x00 4)).
  - ready (VSock4 (repeat x00 4) 0).
  - ready (VSock6 (repeat x00 16) 0 0 0).
  - ready (VSockV4 (repeat x00 4) 0).
  - ready (VRange x x). rewrite H3. reflexivity.
  - ready (VHalfRange x).
  - ready VUnit.
  - ready (VRangeInclusive x x false). rewrite H3. reflexivity.
  - ready (VHalfRange x).
  - ready (VHalfRange x).
  - ready VUnbounded.
  - ready VUnit.
  - ready VUnit.
  - ready (VMap []).
  - ready (VSet []).
  - apply fold_and_map in Hx. destruct (ready_fields H Hx Hw) as (vs & Hv). apply ready_fields_spec in Hv. exists (VTuple vs). exact Hv.
  - destruct Hx as [Hok Hx]. apply fold_and_map in Hx. destruct (@some_variant_ready r vs _ (forallb writable) Hok eq_refl Hw) as (i & e & ts & Hi & Ht & Hd).
    rewrite Forall_forall in H, Hx. pose proof (nth_error_In _ _ Hi) as Hin. specialize (H _ Hin). specialize (Hx _ Hin). cbn [snd] in H, Hx. apply fold_and_map in Hx.
    destruct (ready_fields H Hx Ht) as (fs & Hf). exists (VEnum i fs). eapply ready_variant; eassumption.
Qed.

(* and, the other way, of a type with such a value *)
Lemma fields_writable ts : Forall (fun t => forall v, wt t v -> Representable t v -> writable t = true) ts -> forall vs, all2 (map wt ts) vs -> all2 (map Representable ts) vs ->
  forallb writable ts = true.
Proof.
  induction 1 as [|t ts Ht Hts IH]; intros [|v vs] H1 H2; cbn [map all2] in *; try tauto. cbn [forallb]. rewrite (Ht v), (IH vs); tauto.
Qed.
Lemma variant_of r vs i fs : wt (TEnum r vs) (VEnum i fs) -> Representable (TEnum r vs) (VEnum i fs) ->
  exists e ts d, nth_error vs i = Some (e, ts) /\ Assigned (map fst vs) i d /\ int_fits r d /\ all2 (map wt ts) fs /\ all2 (map Representable ts) fs.
Proof.
  cbn [wt Representable]. intros [_ H1] [Hd H2]. destruct (nth_error vs i) as [[e ts]|] eqn:Hi.
  - rewrite (nth_error_map_some (fun x => map wt (snd x)) _ _ Hi) in H1. rewrite (nth_error_map_some (fun x => map Representable (snd x)) _ _ Hi) in H2. cbn [snd] in H1, H2.
    destruct (assigned_exists _ _ (nth_error_map_some fst _ _ Hi)) as (d & Ha). exists e, ts, d. auto.
  - rewrite nth_error_map, Hi in H1. destruct H1.
Qed.
Lemma some_variant_here r vs (f : list ty -> bool) i e ts d : nth_error vs i = Some (e, ts) -> Assigned (map fst vs) i d -> int_fits r d ->
  some_variant r 0 (map (fun x => (fst x, f (snd x))) vs) = false -> f ts = false.
Proof.
  intros Hi Ha Hf Hs. refine (@some_variant_false r _ None i e _ d Hs _ _ Hf).
  - apply (nth_error_map_some (fun x => (fst x, f (snd x))) _ _ Hi).
  - rewrite map_map. apply assigned_from_none. exact Ha.
Qed.

Lemma writable_of t : forall v, wt t v -> Representable t v -> writable t = true.
Proof.
  induction t using ty_ind_strong; intros u Hw Hr; cbn [writable]; try reflexivity; destruct u; try (destruct Hw; fail); cbn [wt Representable] in Hw, Hr;
    try (eapply IHt; eassumption); try (destruct Hr; eapply IHt; eassumption); try (destruct Hw, Hr; eapply IHt; eassumption).
  - rewrite (IHt1 _ Hw Hr). reflexivity.
  - rewrite (IHt2 _ Hw Hr). apply orb_true_r.
  - eapply fields_writable; eassumption.
  - destruct Hw as [Hl Hw]. destruct vs as [|x vs]; cbn [length] in Hl; [subst n; reflexivity|]. inversion Hw; subst. inversion Hr; subst. rewrite (IHt x) by assumption. apply orb_true_r.
  - eapply fields_writable; eassumption.
  - destruct (@variant_of r vs i vs0 Hw Hr) as (e & ts & d & Hi & Ha & Hf & H1 & H2).
    destruct (some_variant _ _ _) eqn:E; [reflexivity|]. pose proof (@some_variant_here r vs (forallb writable) _ _ _ _ Hi Ha Hf E) as F.
    rewrite Forall_forall in H. specialize (H _ (nth_error_In _ _ Hi)). cbn [snd] in H. rewrite (fields_writable H _ H1 H2) in F. discriminate F.
Qed.

(* A type in which a fleeting one occurs has a value that does not come back; *)
Definition Lost (t : ty) (v : val) := Ready t v /\ ~ Survives t v.

Lemma lost_fields ts : Forall (fun t => EnumsOk t -> occurs a_fleeting t = true -> exists v, Lost t v) ts -> Forall EnumsOk ts ->
  forallb writable ts = true -> existsb (occurs a_fleeting) ts = true -> exists vs, ReadyFields ts vs /\ ~ all2 (map Survives ts) vs.
Proof.
  induction 1 as [|t ts Ht Hts IH]; intros He Hw Ho; [discriminate Ho|]. inversion He; subst. cbn [forallb existsb] in Hw, Ho. apply andb_true_iff in Hw. destruct Hw as [Hw1 Hw2].
  destruct (occurs a_fleeting t) eqn:E.
  - destruct Ht as (v & Hv & Hn); [assumption | reflexivity|]. destruct (@ready_fields ts) as (vs & Hvs); try assumption.
    { rewrite Forall_forall. intros x _. apply ready_exists. }
    exists (v :: vs). split; [constructor; assumption|]. cbn [map all2]. tauto.
  - destruct IH as (vs & Hvs & Hn); try assumption. destruct (@ready_exists t) as (v & Hv); try assumption. exists (v :: vs). split; [constructor; assumption|]. cbn [map all2]. tauto.
Qed.

Ltac lost v := exists v; unfold Lost, Ready; cbn [wt Representable has_lowest_second existsb length Survives]; unfold time_ns;
  repeat match goal with |- _ /\ _ => split end;
  first [assumption | reflexivity | exact I | lia | tauto | (match goal with H : has_lowest_second _ = false |- _ => rewrite ?H; reflexivity end)
        | (repeat constructor; assumption) | (constructor; fail) | (intros HF; inversion HF; tauto) | idtac].

Lemma lost_exists t : EnumsOk t -> occurs a_fleeting t = true -> exists v, Lost t v.
Proof.
  induction t using ty_ind_strong; intros Hx Ho; cbn [EnumsOk occurs a_fleeting orb] in Hx, Ho; try discriminate Ho;
    try (destruct (IHt Hx Ho) as (x & (H1 & H2 & H3) & H4)).
  - lost (VSome x).
  - destruct Hx as [Hx1 Hx2]. apply orb_true_iff in Ho. destruct Ho as [Ho|Ho];
      [destruct (IHt1 Hx1 Ho) as (x & (H1 & H2 & H3) & H4); lost (VOk x) | destruct (IHt2 Hx2 Ho) as (x & (H1 & H2 & H3) & H4); lost (VErr x)].
  - apply fold_and_map in Hx. apply andb_true_iff in Ho. destruct Ho as [Hw Ho]. destruct (lost_fields H Hx Hw Ho) as (vs & Hv & Hn). apply ready_fields_spec in Hv.
    exists (VTuple vs). split; assumption.
  - apply andb_true_iff in Ho. destruct Ho as [Hn Ho]. destruct (IHt Hx Ho) as (x & Hr & H4). destruct n as [|n]; [discriminate Hn|]. destruct (@ready_repeat t x (S n) Hr) as (R1 & R2 & R3).
    exists (VSeq (repeat x (S n))). split; [split; [split; [apply repeat_length | exact R1]|]; split; assumption|]. cbn [Survives repeat]. intros HF. inversion HF; tauto.
  - lost (VSeq [x]).
  - lost (VSeq [x]).
  - lost (VSeq [x]).
  - apply orb_true_iff in Ho. destruct Ho as [Ho|Ho]; apply andb_true_iff in Ho; destruct Ho as [Hn Ho]; apply Nat.ltb_lt in Hn.
    + lost (VSeq []). rewrite Ho. intros [[E|E] _]; [lia | discriminate E].
    + destruct (IHt Hx Ho) as (x & (H1 & H2 & H3) & H4). lost (VSeq [x]). intros [_ HF]. inversion HF; tauto.
  - lost (VWrap x).
  - lost (VCow true x).
  - lost (VRefCell false x).
  - lost (VLock false x).
  - lost (VTime 0 1).
  - lost (VRange x x).
  - lost (VHalfRange x).
  - apply orb_true_iff in Ho. destruct Ho as [Ho|Ho].
    + destruct (@ready_exists t Hx Ho) as (x & H1 & H2 & H3). lost (VRangeInclusive x x true).
    + destruct (IHt Hx Ho) as (x & (H1 & H2 & H3) & H4). lost (VRangeInclusive x x false).
  - lost (VHalfRange x).
  - lost (VHalfRange x).
  - lost (VIncluded x).
  - lost (VMap []).
  - lost (VSet []).
  - apply fold_and_map in Hx. apply andb_true_iff in Ho. destruct Ho as [Hw Ho]. destruct (lost_fields H Hx Hw Ho) as (vs & Hv & Hn). apply ready_fields_spec in Hv.
    exists (VTuple vs). split; assumption.
  - destruct Hx as [Hok Hx]. apply fold_and_map in Hx.
    destruct (@some_variant_ready r vs _ (fun ts => forallb writable ts && existsb (occurs a_fleeting) ts) Hok eq_refl Ho) as (i & e & ts & Hi & Ht & Hd).
    rewrite Forall_forall in H, Hx. pose proof (nth_error_In _ _ Hi) as Hin. specialize (H _ Hin). specialize (Hx _ Hin). cbn [snd] in H, Hx. apply fold_and_map in Hx.
    apply andb_true_iff in Ht. destruct Ht as [Hw Hoc]. destruct (lost_fields H Hx Hw Hoc) as (fs & Hf & Hn). exists (VEnum i fs). split; [eapply ready_variant; eassumption|].
    cbn [Survives]. rewrite (nth_error_map_some (fun x => map Survives (snd x)) _ _ Hi). exact Hn.
Qed.

(* in the others every value that can be encoded comes back. *)
Lemma fields_survive ts : Forall (fun t => forall v, wt t v -> Representable t v -> occurs a_fleeting t = false -> Survives t v) ts -> forall vs,
  all2 (map wt ts) vs -> all2 (map Representable ts) vs -> forallb writable ts && existsb (occurs a_fleeting) ts = false -> all2 (map Survives ts) vs.
Proof.
  intros H vs H1 H2 Ho. rewrite (@fields_writable ts) with (vs := vs) in Ho; [| |exact H1|exact H2].
  2:{ rewrite Forall_forall. intros x _. apply writable_of. }
  cbn [andb] in Ho. revert vs H1 H2 Ho. induction H as [|t ts Ht Hts IH]; intros [|v vs] H1 H2 Ho; cbn [map all2 existsb] in *; try tauto.
  apply orb_false_iff in Ho. destruct Ho as [O1 O2]. split; [apply Ht; tauto | apply IH; tauto].
Qed.
Lemma items_survive t vs : (forall v, wt t v -> Representable t v -> occurs a_fleeting t = false -> Survives t v) ->
  Forall (wt t) vs -> Forall (Representable t) vs -> vs = [] \/ occurs a_fleeting t = false -> Forall (Survives t) vs.
Proof.
  intros IH H1 H2 Ho. rewrite Forall_forall in *. intros x Hx. apply IH; [apply H1; exact Hx | apply H2; exact Hx|]. destruct Ho as [->|Ho]; [destruct Hx | exact Ho].
Qed.

Lemma survives_all t : forall v, wt t v -> Representable t v -> occurs a_fleeting t = false -> Survives t v.
Proof.
  induction t using ty_ind_strong; intros u Hw Hr Ho; cbn [occurs a_fleeting orb] in Ho; try discriminate Ho; destruct u; try (destruct Hw; fail); cbn [wt Representable] in Hw, Hr;
    cbn [Survives]; try exact I; try (apply IHt; tauto); try (split; apply IHt; tauto); try (apply items_survive; try assumption; try tauto; fail).
  - apply orb_false_iff in Ho. apply IHt1; tauto.
  - apply orb_false_iff in Ho. apply IHt2; tauto.
  - eapply fields_survive; eassumption.
  - apply items_survive; try tauto. apply andb_false_iff in Ho. destruct Ho as [Ho|Ho]; [left | right; exact Ho]. apply Nat.ltb_ge in Ho. destruct vs; [reflexivity | cbn [length] in Hw; lia].
  - apply orb_false_iff in Ho. destruct Ho as [O1 O2]. destruct n as [|n].
    + destruct vs; [|cbn [length] in Hw; lia]. split; [left; reflexivity | constructor].
    + cbn [Nat.ltb Nat.leb andb] in O1, O2. split; [right; exact O1 | apply items_survive; tauto].
  - apply orb_false_iff in Ho. destruct Ho as [O1 O2]. destruct Hw, Hr. rewrite (@writable_of t u1) in O1 by assumption. discriminate O1.
  - eapply fields_survive; eassumption.
  - destruct (@variant_of r vs i vs0 Hw Hr) as (e & ts & d & Hi & Ha & Hf & H1 & H2).
    pose proof (@some_variant_here r vs (fun ts => forallb writable ts && existsb (occurs a_fleeting) ts) _ _ _ _ Hi Ha Hf Ho) as F. cbn beta in F.
    rewrite Forall_forall in H. specialize (H _ (nth_error_In _ _ Hi)). cbn [snd] in H. rewrite (nth_error_map_some (fun x => map Survives (snd x)) _ _ Hi). cbn [snd].
    eapply fields_survive; eassumption.
Qed.

Lemma appends_once m b1 b2 r1 r2 : Appends m b1 r1 -> Appends m b2 r2 -> r1 = r2.
Proof.
  intros H1 H2. set (n := length b1 + length b2).
  assert (Hr : output_remaining (big_out n) = n) by (unfold output_remaining, output_capacity, output_position; cbn [big_out o_buf o_pos]; rewrite repeat_length; lia).
  destruct (H1 (big_out n) (big_wf n)) as (o1 & E1 & _); [lia|]. destruct (H2 (big_out n) (big_wf n)) as (o2 & E2 & _); [lia|]. congruence.
Qed.
Lemma appends_representable ch t v bs : wt t v -> Appends (encode ch t v) bs (Ok tt) -> Representable t v.
Proof.
  intros Hv Ha. destruct (good_all ch t v Hv) as [x Hr _ _ | cs e _ Ht | cs _ _ Ht]; [exact Hr | |];
    pose proof (appends_once Ha (traces_appends Ht)) as E; discriminate E.
Qed.

Lemma C13_exact_lemma checks t : EnumsOk t -> dec_ety t <> None ->
  ((forall v bs, wt t v -> Appends (encode checks t v) bs (Ok tt) -> exists i' v', decode t (input_new bs) = (i', Ok v') /\ SameValue t v' v) <->
   occurs a_fleeting t = false).
Proof.
  intros Hx Hd. split.
  - intros H. destruct (occurs a_fleeting t) eqn:E; [|reflexivity]. exfalso. destruct (@lost_exists t Hx E) as (v & (H1 & H2 & H3) & Hn).
    destruct (@C10_lemma checks t v H1 (or_intror H3)) as (bs & [[_ Ha]|[Hc _]]); [|exact (Hc H2)]. apply Hn. rewrite <- (@C104_lemma checks t v bs Hx Hd H1 Ha). exact (H v bs H1 Ha).
  - intros E v bs Hv Ha. rewrite (@C104_lemma checks t v bs Hx Hd Hv Ha). apply survives_all; [exact Hv | | exact E].
    exact (@appends_representable checks t v bs Hv Ha).
Qed.

Lemma C13_writable_lemma checks t : EnumsOk t -> ((exists v bs, wt t v /\ Appends (encode checks t v) bs (Ok tt)) <-> writable t = true).
Proof.
  intros Hx. split.
  - intros (v & bs & Hv & Ha). exact (@writable_of t v Hv (@appends_representable checks t v bs Hv Ha)).
  - intros Hw. destruct (@ready_exists t Hx Hw) as (v & H1 & H2 & H3). destruct (@C10_lemma checks t v H1 (or_intror H3)) as (bs & [[_ Ha]|[Hc _]]); [|destruct (Hc H2)].
    exists v, bs. split; assumption.
Qed.

(* one value after another *)
Lemma wire_representable ch t v bs : wt t v -> Wire ch t v bs -> Representable t v.
Proof. intros Hv Hb. exact (@appends_representable ch t v bs Hv (succeeds_appends (wire_succeeds Hb Hv))). Qed.
Lemma list_representable ch ts vs bs : WireFields ch ts vs bs -> all2 (map wt ts) vs -> all2 (map Representable ts) vs.
Proof. induction 1; cbn [map all2]; [trivial|]. intros [H1 H2]. split; [eapply wire_representable; eassumption | tauto]. Qed.
Lemma map_fst_combine {A B} (l : list A) : forall (l' : list B), length l = length l' -> map fst (combine l l') = l.
Proof. induction l as [|a l IH]; intros [|b l']; cbn; intros H; try discriminate; [reflexivity|]. rewrite IH by lia. reflexivity. Qed.
Lemma map_snd_combine {A B} (l : list A) : forall (l' : list B), length l = length l' -> map snd (combine l l') = l'.
Proof. induction l as [|a l IH]; intros [|b l']; cbn; intros H; try discriminate; [reflexivity|]. rewrite IH by lia. reflexivity. Qed.
Lemma list_written ch ts vs : ReadyFields ts vs -> exists bs, Succeeds (encode_list ch (combine ts vs)) bs.
Proof.
  induction 1 as [|t ts v vs (H1 & H2 & H3) _ (bs & IH)]; cbn [combine encode_list]; [exists []; apply S_ok|].
  destruct (@good_all ch t v H1) as [x Hr _ Hs | cs e Hr _ | cs _ Hl _]; [|destruct (Hr H2)|congruence]. exists (x ++ bs). apply S_seq; assumption.
Qed.

Lemma C14_exact_lemma checks ts : Forall (fun t => EnumsOk t /\ dec_ety t <> None) ts ->
  ((forall l o o' tail, map fst l = ts -> Forall (fun p => wt (fst p) (snd p)) l -> output_position o <= output_capacity o -> encode_list checks l o = (o', Ok tt) ->
      exists vs, decode_list ts (Input (output_as_slice o' ++ tail) (output_position o)) = (Input (output_as_slice o' ++ tail) (output_position o'), Ok vs) /\
                 all3 (map SameValue ts) vs (map snd l)) <->
   forallb writable ts && existsb (occurs a_fleeting) ts = false).
Proof.
  intros Hts. split.
  - intros H. destruct (forallb writable ts && existsb (occurs a_fleeting) ts) eqn:E; [|reflexivity]. exfalso. apply andb_true_iff in E. destruct E as [Hw Ho].
    destruct (@lost_fields ts) as (vs & Hv & Hn); try assumption.
    { rewrite Forall_forall. intros t _. apply lost_exists. }
    { eapply Forall_impl; [|exact Hts]. intros t Ht. apply Ht. }
    destruct (list_written checks Hv) as (bs & Hs). apply succeeds_appends in Hs. unfold Appends in Hs. apply ready_fields_spec in Hv. destruct Hv as (H1 & _ & _).
    pose proof (all2_forall2 wt ts vs) as A1. pose proof (all2_forall2 Survives ts vs) as A2. apply A1 in H1. rewrite A2 in Hn.
    assert (Hl : length ts = length vs) by (clear -H1; induction H1; cbn [length]; congruence).
    assert (F1 : map fst (combine ts vs) = ts) by (apply map_fst_combine; exact Hl). assert (F2 : map snd (combine ts vs) = vs) by (apply map_snd_combine; exact Hl).
    assert (Hv : Forall (fun p => wt (fst p) (snd p)) (combine ts vs)) by (apply forall_pairs; rewrite F1, F2; exact H1).
    assert (Hr : output_remaining (big_out (length bs)) = length bs) by (unfold output_remaining, output_capacity, output_position; cbn [big_out o_buf o_pos]; rewrite repeat_length; lia).
    destruct (Hs (big_out (length bs)) (big_wf _)) as (o' & He & _); [lia|].
    destruct (H _ _ _ [] F1 Hv (big_wf _) He) as (ws & Hd & Hw3).
    pose proof (forall_pairs Survives (combine ts vs)) as A3. rewrite F1, F2 in A3. apply Hn, A3. rewrite <- F1 in Hts. apply Forall_map in Hts.
    apply (@C104_chain_lemma checks (combine ts vs) (big_out (length bs)) o' []); [|apply big_wf|exact He|].
    { rewrite Forall_forall in *. intros p Hp. specialize (Hts p Hp). specialize (Hv p Hp). tauto. }
    rewrite F1. exists ws. split; assumption.
  - intros Ho l o o' tail <- Hv Hw He. apply (@C104_chain_lemma checks l o o' tail); try assumption.
    { apply Forall_map in Hts. rewrite Forall_forall in *. intros p Hp. specialize (Hts p Hp). specialize (Hv p Hp). tauto. }
    destruct (encode_list_wire _ Hv Hw He) as (bs & _ & _ & Hwf). apply forall_pairs, all2_forall2.
    assert (H1 : all2 (map wt (map fst l)) (map snd l)) by (apply all2_forall2, forall_pairs; exact Hv).
    apply fields_survive; [rewrite Forall_forall; intros t _; apply survives_all | exact H1 | exact (list_representable Hwf H1) | exact Ho].
Qed.
