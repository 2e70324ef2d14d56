(* Proofs of C120. *)
From Coq Require Import Lia.
From Verif Require Import Base Streams Utf8 Types Traits Encode Decode Spec SpecCalls SpecDecode SpecDerive SpecErrors SpecPeak SpecWork SpecReach SpecFallible
  BaseFacts TypesFacts Utf8Facts WireFacts AcceptFacts ValueProofs DecodeProofs DeriveProofs ErrorProofs EncodeProofs EncodeFacts EncodeCases PeakProofs ReachProofs WriteProofs
  FailureProofs RejectProofs.
Set Implicit Arguments.

(* ---- the variants and their discriminants *)

Lemma numbered_nth {A} (l : list (option Z * A)) : forall prev i d a,
  nth_error (numbered (starting prev) l) i = Some (d, a) <-> (exists e, nth_error l i = Some (e, a)) /\ AssignedFrom prev (map fst l) i d.
Proof.
  induction l as [|[e0 a0] l IH]; intros prev i d a; cbn [numbered map fst].
  - split; [destruct i; discriminate|]. intros [(e & He) _]. destruct i; discriminate He.
  - set (d0 := match e0 with Some d => d | None => starting prev end).
    assert (H0 : AssignedFrom prev (e0 :: map fst l) 0 d0).
    { unfold d0. destruct e0 as [x|]; [apply AF_explicit; reflexivity|]. destruct prev; cbn [starting]; [eapply AF_prev | apply AF_zero]; reflexivity. }
    destruct i as [|i]; cbn [nth_error].
    + split.
      * intros H. injection H as <- <-. split; [eauto | exact H0].
      * intros [(e & He) Ha]. injection He as <- <-. rewrite (assigned_from_functional Ha H0). reflexivity.
    + change (d0 + 1)%Z with (starting (Some d0)). rewrite IH. split; intros [He Ha]; (split; [exact He|]).
      * eapply assigned_from_shift; eassumption.
      * apply assigned_from_inv in Ha. exact Ha.
Qed.
Lemma numbered_in {A} (l : list (option Z * A)) d a :
  In (d, a) (numbered 0 l) <-> exists i e, nth_error l i = Some (e, a) /\ Assigned (map fst l) i d.
Proof.
  split.
  - intros H. apply In_nth_error in H. destruct H as (i & H). change 0%Z with (starting None) in H. apply numbered_nth in H.
    destruct H as [(e & He) Ha]. exists i, e. split; [exact He | apply assigned_from_none; exact Ha].
  - intros (i & e & He & Ha). apply (nth_error_In _ i). change 0%Z with (starting None). apply numbered_nth. split; [eauto | apply assigned_from_none; exact Ha].
Qed.
Lemma numbered_map {A B} (f : A -> B) (l : list (option Z * A)) d b :
  In (d, b) (numbered 0 (map (fun x => (fst x, f (snd x))) l)) <-> exists i e a, nth_error l i = Some (e, a) /\ b = f a /\ Assigned (map fst l) i d.
Proof.
  rewrite numbered_in, map_map. cbn [fst]. split.
  - intros (i & e & Hi & Ha). apply nth_error_map_inv in Hi. destruct Hi as ([e' a] & Hi & E). cbn [fst snd] in E. injection E as -> ->. exists i, e', a. auto.
  - intros (i & e & a & Hi & -> & Ha). exists i, e. split; [|exact Ha]. apply (nth_error_map_some (fun x => (fst x, f (snd x))) _ _ Hi).
Qed.

(* ---- types with values *)

Definition Plain (t : ty) (v : val) := wt t v /\ has_lowest_second v = false.
Inductive PlainFields : list ty -> list val -> Prop :=
| PF_nil : PlainFields [] []
| PF_cons t ts v vs : Plain t v -> PlainFields ts vs -> PlainFields (t :: ts) (v :: vs).
Lemma plain_fields_spec ts vs : PlainFields ts vs -> all2 (map wt ts) vs /\ existsb has_lowest_second vs = false.
Proof. induction 1 as [|t ts v vs [H1 H2] _ [I1 I2]]; cbn [map all2 existsb]; [auto|]. rewrite H2. auto. Qed.
Lemma plain_fields ts : Forall (fun t => EnumsOk t -> inhabited t = true -> exists v, Plain t v) ts -> Forall EnumsOk ts -> forallb inhabited ts = true ->
  exists vs, PlainFields ts vs.
Proof.
  induction 1 as [|t ts Ht Hts IH]; intros He Hd; [exists []; constructor|]. inversion He; subst. cbn [forallb] in Hd. apply andb_true_iff in Hd. destruct Hd.
  destruct Ht as (v & Hv); try assumption. destruct IH as (vs & Hvs); try assumption. exists (v :: vs). constructor; assumption.
Qed.
Lemma plain_repeat t v n : Plain t v -> Forall (wt t) (repeat v n) /\ existsb has_lowest_second (repeat v n) = false.
Proof.
  intros (H1 & H2). induction n as [|n IH]; cbn [repeat existsb]; [split; [constructor | reflexivity]|]. destruct IH as (I1 & I2).
  split; [constructor; assumption|]. rewrite H2. exact I2.
Qed.
Lemma plain_variant r vs i e ts fs : enum_ok r vs -> nth_error vs i = Some (e, ts) -> PlainFields ts fs -> Plain (TEnum r vs) (VEnum i fs).
Proof.
  intros Hok Hi Hf. apply plain_fields_spec in Hf. destruct Hf as (F1 & F2).
  pose proof (nth_error_map_some (fun x => map wt (snd x)) _ _ Hi) as N1.
  unfold Plain. cbn [wt has_lowest_second]. rewrite N1. cbn [snd]. auto.
Qed.

Ltac plain v := exists v; unfold Plain; cbn [wt has_lowest_second existsb length]; unfold in_ity, in_u16, in_u32, time_ns;
  repeat match goal with |- _ /\ _ => split end; first [assumption | reflexivity | exact I | lia | apply valid_nil | constructor | auto].

Lemma plain_exists t : EnumsOk t -> inhabited t = true -> exists v, Plain t v.
Proof.
  induction t using ty_ind_strong; intros Hx Hw; cbn [EnumsOk inhabited] in Hx, Hw; try discriminate Hw;
    try (destruct (IHt Hx Hw) as (x & H1 & H2)).
  - destruct (ready_int i) as (z & H1 & _). plain (VInt z).
  - plain (VInt 0).
  - plain (VInt 0).
  - plain (VBool true).
  - plain (VChar 97).
  - plain VUnit.
  - destruct (ready_int i) as (z & H1 & _ & H3). plain (VInt z).
  - plain VNone.
  - destruct Hx as [Hx1 Hx2]. apply orb_true_iff in Hw. destruct Hw as [Hw|Hw]; [destruct (IHt1 Hx1 Hw) as (x & H1 & H2); plain (VOk x) | destruct (IHt2 Hx2 Hw) as (x & H1 & H2); plain (VErr x)].
  - apply fold_and_map in Hx. destruct (plain_fields H Hx Hw) as (vs & Hv). apply plain_fields_spec in Hv. exists (VTuple vs). exact Hv.
  - destruct n as [|n]; [plain (VSeq [])|]. cbn [Nat.eqb orb] in Hw. destruct (IHt Hx Hw) as (x & Hr). destruct (@plain_repeat t x (S n) Hr) as (R1 & R2).
    exists (VSeq (repeat x (S n))). split; [split; [apply repeat_length | exact R1]|]. exact R2.
  - plain (VSeq []).
  - plain (VSeq []).
  - plain (VSeq []).
  - plain (VSeq []).
  - plain (VStr []).
  - plain (VStr []).
  - plain (VStr []).
  - plain (VStr []).
  - plain (VStr []).
  - plain (VWrap x).
  - plain (VCow true x).
  - plain (VRefCell false x).
  - plain (VLock false x).
  - plain (VDuration 0 0).
  - plain (VTime 0 0).
  - plain (VIp4 (repeat x00 4)).
  - plain (VIp6 (repeat x00 16)).
  - plain (VIpV4 (repeat x00 4)).
  - plain (VSock4 (repeat x00 4) 0).
  - plain (VSock6 (repeat x00 16) 0 0 0).
  - plain (VSockV4 (repeat x00 4) 0).
  - plain (VRange x x). rewrite H2. reflexivity.
  - plain (VHalfRange x).
  - plain VUnit.
  - plain (VRangeInclusive x x false). rewrite H2. reflexivity.
  - plain (VHalfRange x).
  - plain (VHalfRange x).
  - plain VUnbounded.
  - plain VUnit.
  - plain VUnit.
  - plain (VMap []).
  - plain (VSet []).
  - apply fold_and_map in Hx. destruct (plain_fields H Hx Hw) as (vs & Hv). apply plain_fields_spec in Hv. exists (VTuple vs). exact Hv.
  - destruct Hx as [Hok Hx]. apply fold_and_map in Hx. apply existsb_exists in Hw. destruct Hw as ([e ts] & Hin & Ht). cbn [snd] in Ht.
    destruct (In_nth_error _ _ Hin) as (i & Hi).
    rewrite Forall_forall in H, Hx. specialize (H _ Hin). specialize (Hx _ Hin). cbn [snd] in H, Hx. apply fold_and_map in Hx.
    destruct (plain_fields H Hx Ht) as (fs & Hf). exists (VEnum i fs). eapply plain_variant; eassumption.
Qed.

Lemma fields_inhabited ts : Forall (fun t => forall v, wt t v -> inhabited t = true) ts -> forall vs, all2 (map wt ts) vs -> forallb inhabited ts = true.
Proof.
  induction 1 as [|t ts Ht Hts IH]; intros [|v vs] H1; cbn [map all2] in *; try tauto. cbn [forallb]. rewrite (Ht v), (IH vs); tauto.
Qed.
Lemma variant_wt r vs i fs : wt (TEnum r vs) (VEnum i fs) -> exists e ts d, nth_error vs i = Some (e, ts) /\ Assigned (map fst vs) i d /\ all2 (map wt ts) fs.
Proof.
  cbn [wt]. intros [_ H1]. destruct (nth_error vs i) as [[e ts]|] eqn:Hi.
  - rewrite (nth_error_map_some (fun x => map wt (snd x)) _ _ Hi) in H1. cbn [snd] in H1.
    destruct (assigned_exists _ _ (nth_error_map_some fst _ _ Hi)) as (d & Ha). exists e, ts, d. auto.
  - rewrite nth_error_map, Hi in H1. destruct H1.
Qed.
Lemma inhabited_of t : forall v, wt t v -> inhabited t = true.
Proof.
  induction t using ty_ind_strong; intros u Hw; cbn [inhabited]; try reflexivity; destruct u; try (destruct Hw; fail); cbn [wt] in Hw;
    try (eapply IHt; eassumption); try (destruct Hw; eapply IHt; eassumption).
  - rewrite (IHt1 _ Hw). reflexivity.
  - rewrite (IHt2 _ Hw). apply orb_true_r.
  - eapply fields_inhabited; eassumption.
  - destruct Hw as [Hl Hw]. destruct vs as [|x vs]; cbn [length] in Hl; [subst n; reflexivity|]. inversion Hw; subst. rewrite (IHt x) by assumption. apply orb_true_r.
  - eapply fields_inhabited; eassumption.
  - destruct (@variant_wt r vs i vs0 Hw) as (e & ts & d & Hi & Ha & H1). apply existsb_exists. exists (e, ts). split; [eapply nth_error_In; eassumption|]. cbn [snd].
    rewrite Forall_forall in H. specialize (H _ (nth_error_In _ _ Hi)). eapply fields_inhabited; eassumption.
Qed.

(* ---- a value that cannot be encoded *)

Definition Unfit (t : ty) (v : val) := Plain t v /\ ~ Representable t v.

Lemma many : exists n, (Z.of_nat n = 65536)%Z.
Proof. exists (Z.to_nat 65536). apply Z2Nat.id. lia. Qed.
Lemma ascii_text n : valid_utf8 (repeat x61 n) /\ ~ In x00 (repeat x61 n).
Proof.
  split.
  - exists (repeat 97%Z n). split; [apply Forall_forall; intros c Hc; apply repeat_spec in Hc; subst c; reflexivity|].
    induction n as [|n IH]; cbn [repeat flat_map]; [reflexivity|]. rewrite <- IH. reflexivity.
  - intros H. apply repeat_spec in H. discriminate H.
Qed.
Lemma unfit_seq t (v : val) : Plain t v -> exists vs, Forall (wt t) vs /\ existsb has_lowest_second vs = false /\ (Z.of_nat (length vs) = 65536)%Z.
Proof.
  intros Hv. destruct many as (n & Hn). exists (repeat v n). destruct (plain_repeat n Hv). rewrite repeat_length. auto.
Qed.

Lemma unfit_fields ts : Forall (fun t => EnumsOk t -> fallible t = true -> exists v, Unfit t v) ts -> Forall EnumsOk ts ->
  forallb inhabited ts = true -> existsb fallible ts = true -> exists vs, PlainFields ts vs /\ ~ all2 (map Representable ts) vs.
Proof.
  induction 1 as [|t ts Ht Hts IH]; intros He Hw Ho; [discriminate Ho|]. inversion He; subst. cbn [forallb existsb] in Hw, Ho. apply andb_true_iff in Hw. destruct Hw as [Hw1 Hw2].
  destruct (fallible t) eqn:Ef.
  - destruct Ht as (v & Hp & Hn); try assumption; try reflexivity. destruct (@plain_fields ts) as (vs & Hvs); try assumption.
    { apply Forall_forall. intros x _. apply plain_exists. }
    exists (v :: vs). split; [constructor; assumption|]. cbn [map all2]. tauto.
  - destruct IH as (vs & Hvs & Hn); try assumption. destruct (@plain_exists t) as (v & Hv); try assumption.
    exists (v :: vs). split; [constructor; assumption|]. cbn [map all2]. tauto.
Qed.

Lemma unfit_int i : match i with Usize | Isize => True | _ => False end -> exists z, in_ity i z /\ ~ int_fits i z /\ z <> 0%Z.
Proof. intros H. exists 65536%Z. destruct i; try destruct H; unfold in_ity; cbn; lia. Qed.

Ltac unfit v := exists v; unfold Unfit, Plain; cbn [wt Representable has_lowest_second existsb length];
  repeat match goal with |- _ /\ _ => split end; try assumption; try reflexivity; try tauto; try lia.

Lemma unfit_exists t : EnumsOk t -> fallible t = true -> exists v, Unfit t v.
Proof.
  induction t using ty_ind_strong; intros Hx Hw; cbn [EnumsOk fallible] in Hx, Hw; try discriminate Hw;
    try (destruct (IHt Hx Hw) as (x & (H1 & H2) & H3)).
  - destruct (@unfit_int i) as (z & H1 & H2 & _); [destruct i; solve [exact I | discriminate Hw]|]. unfit (VInt z).
  - destruct (@unfit_int i) as (z & H1 & H2 & H3); [destruct i; solve [exact I | discriminate Hw]|]. unfit (VInt z).
  - unfit (VSome x).
  - destruct Hx as [Hx1 Hx2]. apply orb_true_iff in Hw. destruct Hw as [Hw|Hw];
      [destruct (IHt1 Hx1 Hw) as (x & (H1 & H2) & H3); unfit (VOk x) | destruct (IHt2 Hx2 Hw) as (x & (H1 & H2) & H3); unfit (VErr x)].
  - apply fold_and_map in Hx. apply andb_true_iff in Hw. destruct Hw as [Hw1 Hw2]. destruct (unfit_fields H Hx Hw1 Hw2) as (vs & Hv & Hn).
    apply plain_fields_spec in Hv. exists (VTuple vs). split; [exact Hv | exact Hn].
  - apply andb_true_iff in Hw. destruct Hw as [Hn Hw]. apply Nat.ltb_lt in Hn. destruct n as [|n]; [lia|]. destruct (IHt Hx Hw) as (x & Hp & H3).
    destruct (plain_repeat (S n) Hp) as (R1 & R2). exists (VSeq (repeat x (S n))). split; [split; [split; [apply repeat_length | exact R1] | exact R2]|].
    cbn [Representable repeat]. intros Hr. inversion Hr. contradiction.
  - destruct (plain_exists _ Hx Hw) as (x & Hp). destruct (unfit_seq Hp) as (vs & R1 & R2 & R3). unfit (VSeq vs).
  - destruct (plain_exists _ Hx Hw) as (x & Hp). destruct (unfit_seq Hp) as (vs & R1 & R2 & R3). unfit (VSeq vs).
  - destruct (plain_exists _ Hx Hw) as (x & Hp). destruct (unfit_seq Hp) as (vs & R1 & R2 & R3). unfit (VSeq vs).
  - apply orb_true_iff in Hw. destruct Hw as [Hw|Hw]; apply andb_true_iff in Hw; destruct Hw as [Hn Hw].
    + apply Nat.ltb_lt in Hn. destruct (IHt Hx Hw) as (x & (H1 & H2) & H3). unfit (VSeq [x]).
      * constructor; [exact H1 | constructor].
      * rewrite H2. reflexivity.
      * intros [_ Hr]. inversion Hr. contradiction.
    + apply Z.ltb_lt in Hn. destruct (plain_exists _ Hx Hw) as (x & Hp). destruct (unfit_seq Hp) as (vs & R1 & R2 & R3). unfit (VSeq vs).
  - destruct many as (n & Hn). destruct (ascii_text n) as (A1 & A2). unfit (VStr (repeat x61 n)). rewrite repeat_length. lia.
  - destruct many as (n & Hn). destruct (ascii_text n) as (A1 & A2). unfit (VStr (repeat x61 n)). rewrite repeat_length. lia.
  - apply Z.ltb_lt in Hw. destruct (ascii_text n) as (A1 & A2). unfit (VStr (repeat x61 n)); rewrite repeat_length; lia.
  - destruct many as (n & Hn). destruct (ascii_text n) as (A1 & A2). unfit (VStr (repeat x61 n)). rewrite repeat_length. lia.
  - destruct many as (n & Hn). destruct (ascii_text n) as (A1 & A2). unfit (VStr (repeat x61 n)). rewrite repeat_length. lia.
  - unfit (VWrap x).
  - unfit (VCow true x).
  - destruct (plain_exists _ Hx Hw) as (x & H1 & H2). unfit (VRefCell true x).
  - unfit (VLock false x).
  - unfit (VRange x x). rewrite H2. reflexivity.
  - unfit (VHalfRange x).
  - unfit (VRangeInclusive x x false). rewrite H2. reflexivity.
  - unfit (VHalfRange x).
  - unfit (VHalfRange x).
  - unfit (VIncluded x).
  - destruct Hx as [Hx1 Hx2]. apply andb_true_iff in Hw. destruct Hw as [Hw Hf]. apply andb_true_iff in Hw. destruct Hw as [Hw1 Hw2].
    assert (Hc : exists a b, Plain t1 a /\ Plain t2 b /\ ~ (Representable t1 a /\ Representable t2 b)).
    { apply orb_true_iff in Hf. destruct Hf as [Hf|Hf].
      - destruct (IHt1 Hx1 Hf) as (a & Ha & Hn). destruct (plain_exists _ Hx2 Hw2) as (b & Hb). exists a, b. tauto.
      - destruct (IHt2 Hx2 Hf) as (b & Hb & Hn). destruct (plain_exists _ Hx1 Hw1) as (a & Ha). exists a, b. tauto. }
    destruct Hc as (a & b & (A1 & A2) & (B1 & B2) & Hn). exists (VMap [(a, b)]). split; [split|].
    + cbn [wt map fst snd]. split; [repeat constructor; intros []|]. constructor; [split; assumption | constructor].
    + cbn [has_lowest_second existsb fst snd]. rewrite A2, B2. reflexivity.
    + cbn [Representable]. intros Hr. inversion Hr as [|? ? Hh _]. apply Hn. exact Hh.
  - exists (VSet [x]). split; [split|].
    + cbn [wt]. split; [repeat constructor; intros []|]. constructor; [assumption | constructor].
    + cbn [has_lowest_second existsb]. rewrite H2. reflexivity.
    + cbn [Representable]. intros Hr. inversion Hr. contradiction.
  - apply fold_and_map in Hx. apply andb_true_iff in Hw. destruct Hw as [Hw1 Hw2]. destruct (unfit_fields H Hx Hw1 Hw2) as (vs & Hv & Hn).
    apply plain_fields_spec in Hv. exists (VTuple vs). split; [exact Hv | exact Hn].
  - destruct Hx as [Hok Hx]. apply fold_and_map in Hx. apply existsb_exists in Hw. destruct Hw as ([d [inh bad]] & Hin & Hw). cbn [fst snd] in Hw.
    apply (numbered_map (fun ts => (forallb inhabited ts, existsb fallible ts))) in Hin. destruct Hin as (i & e & ts & Hi & E & Ha). injection E as -> ->.
    apply andb_true_iff in Hw. destruct Hw as [Hw1 Hw2].
    rewrite Forall_forall in H, Hx. pose proof (nth_error_In _ _ Hi) as Hin. specialize (H _ Hin). specialize (Hx _ Hin). cbn [snd] in H, Hx. apply fold_and_map in Hx.
    pose proof (nth_error_map_some (fun x => map Representable (snd x)) _ _ Hi) as N2. cbn [snd] in N2.
    destruct (can_encode r d) eqn:Ec.
    + cbn [negb orb] in Hw2. destruct (unfit_fields H Hx Hw1 Hw2) as (fs & Hv & Hn). exists (VEnum i fs). split; [eapply plain_variant; eassumption|].
      cbn [Representable]. rewrite N2. tauto.
    + destruct (@plain_fields ts) as (fs & Hf); try assumption; [apply Forall_forall; intros x _; apply plain_exists|].
      exists (VEnum i fs). split; [eapply plain_variant; eassumption|]. cbn [Representable]. intros [Hd _]. apply Hd in Ha. apply can_encode_fits in Ha. congruence.
Qed.

(* ---- and a type without one *)

Lemma sound_fields ts : Forall (fun t => forall v, fallible t = false -> wt t v -> Representable t v) ts -> forall vs, all2 (map wt ts) vs ->
  forallb inhabited ts && existsb fallible ts = false -> all2 (map Representable ts) vs.
Proof.
  intros H vs Hv Hf. assert (Hi : forallb inhabited ts = true).
  { eapply fields_inhabited; [|exact Hv]. apply Forall_forall. intros t _ v. apply inhabited_of. }
  rewrite Hi in Hf. cbn [andb] in Hf. clear Hi. revert vs Hv Hf.
  induction H as [|t ts Ht Hts IH]; intros [|v vs] Hv Hf; cbn [map all2 existsb] in *; try tauto. apply orb_false_iff in Hf. split; [apply Ht | apply IH]; tauto.
Qed.
Lemma sound_items t vs : (forall v, fallible t = false -> wt t v -> Representable t v) -> fallible t = false -> Forall (wt t) vs -> Forall (Representable t) vs.
Proof. intros H Hf. apply Forall_impl. intros v. apply H. exact Hf. Qed.
Lemma no_items t (vs : list val) : inhabited t = false -> Forall (wt t) vs -> vs = [].
Proof. intros Hn H. destruct H as [|v vs Hv _]; [reflexivity|]. rewrite (inhabited_of _ _ Hv) in Hn. discriminate. Qed.

Lemma fallible_sound t : forall v, fallible t = false -> wt t v -> Representable t v.
Proof.
  induction t using ty_ind_strong; intros u Hf Hw; destruct u; try (destruct Hw; fail); try exact I; cbn [wt] in Hw; cbn [fallible] in Hf; cbn [Representable];
    try (apply IHt; assumption); try discriminate Hf.
  - destruct i; first [exact I | discriminate Hf].
  - destruct i; first [exact I | discriminate Hf].
  - apply orb_false_iff in Hf. apply IHt1; tauto.
  - apply orb_false_iff in Hf. apply IHt2; tauto.
  - eapply sound_fields; eassumption.
  - destruct Hw as [Hl Hw]. destruct vs as [|x vs]; [constructor|]. subst n. cbn [length] in Hf. change (0 <? S (length vs)) with true in Hf. eapply sound_items; eassumption.
  - rewrite (no_items _ Hf Hw). split; [cbn [length]; lia | constructor].
  - rewrite (no_items _ Hf Hw). split; [cbn [length]; lia | constructor].
  - rewrite (no_items _ Hf Hw). split; [cbn [length]; lia | constructor].
  - destruct Hw as [Hl Hw]. apply orb_false_iff in Hf. destruct Hf as [Hf1 Hf2]. destruct vs as [|x vs]; [split; [cbn [length]; lia | constructor]|].
    assert (Hi : inhabited t = true) by (inversion Hw; subst; eapply inhabited_of; eassumption). rewrite Hi, andb_true_r in Hf2. apply Z.ltb_ge in Hf2. split; [lia|].
    destruct n as [|n]; [cbn [length] in Hl; lia|]. change (0 <? S n) with true in Hf1. eapply sound_items; eassumption.
  - destruct Hw as [Hl _]. apply Z.ltb_ge in Hf. lia.
  - rewrite (inhabited_of _ _ Hw) in Hf. discriminate Hf.
  - destruct Hw. split; apply IHt; assumption.
  - destruct Hw. split; apply IHt; assumption.
  - destruct Hw as [_ Hw]. induction Hw as [|[a b] l [Ha Hb] _ IH]; constructor; [|exact IH]. cbn [fst snd] in *.
    rewrite (inhabited_of _ _ Ha), (inhabited_of _ _ Hb) in Hf. cbn [andb] in Hf. apply orb_false_iff in Hf. split; [apply IHt1 | apply IHt2]; tauto.
  - destruct Hw as [_ Hw]. eapply sound_items; eassumption.
  - eapply sound_fields; eassumption.
  - destruct (@variant_wt r vs i vs0 Hw) as (e & ts & d & Hi & Ha & H1).
    pose proof (nth_error_map_some (fun x => map Representable (snd x)) _ _ Hi) as N2. cbn [snd] in N2. rewrite N2.
    assert (Hv : forallb inhabited ts && (negb (can_encode r d) || existsb fallible ts) = false).
    { destruct (forallb inhabited ts && (negb (can_encode r d) || existsb fallible ts)) eqn:E; [|reflexivity]. rewrite <- Hf. symmetry. apply existsb_exists.
      exists (d, (forallb inhabited ts, existsb fallible ts)). split; [|exact E]. apply (numbered_map (fun ts => (forallb inhabited ts, existsb fallible ts))). exists i, e, ts. auto. }
    assert (Hi' : forallb inhabited ts = true).
    { eapply fields_inhabited; [|exact H1]. apply Forall_forall. intros t _ v. apply inhabited_of. }
    rewrite Hi' in Hv. cbn [andb] in Hv. apply orb_false_iff in Hv. destruct Hv as [Hc Hv]. apply negb_false_iff in Hc. split.
    + intros d' Ha'. rewrite (assigned_functional Ha' Ha). apply can_encode_fits. exact Hc.
    + rewrite Forall_forall in H. specialize (H _ (nth_error_In _ _ Hi)). eapply sound_fields; try eassumption. rewrite Hi', Hv. reflexivity.
Qed.

Lemma C120_encode_lemma checks t : EnumsOk t ->
  ((exists v o o' e, wt t v /\ output_position o <= output_capacity o /\ encode checks t v o = (o', Err e)) <-> fallible t = true).
Proof.
  intros Hok. split.
  - intros (v & o & o' & e & Hv & Ho & He). destruct (fallible t) eqn:Ef; [reflexivity|]. exfalso. pose proof (fallible_sound _ _ Ef Hv) as Hr.
    destruct (encode_has_trace checks t v) as (cs & r & Ht). destruct (trace_run Ht Ho) as [[_ Hm]|(_ & y & e' & Hm & _)]; rewrite Hm in He; [|discriminate He].
    injection He as _ ->. exact (@breaks_rep checks t v (fun _ _ => False) Hv Hr _ _ Ht).
  - intros Hf. destruct (unfit_exists _ Hok Hf) as (v & (Hv & Hl) & Hn). destruct (@C10_lemma checks t v Hv (or_intror Hl)) as (bs & [[Hr _]|(_ & e & Ha)]); [contradiction|].
    destruct (Ha (output_new (repeat x00 (length bs)))) as (o' & Hm & _); [apply Nat.le_0_l | unfold output_remaining, output_new, output_capacity, output_position; cbn; rewrite repeat_length; lia|].
    exists v, (output_new (repeat x00 (length bs))), o', e. split; [exact Hv|]. split; [apply Nat.le_0_l | exact Hm].
Qed.

(* ---- decoding: numbers that are not taken *)

Lemma range_list (lo m : Z) : exists l, NoDup l /\ length l = Z.to_nat m /\ forall x, In x l <-> (lo <= x < lo + m)%Z.
Proof.
  exists (map (fun k => lo + Z.of_nat k)%Z (seq 0 (Z.to_nat m))). split; [|split].
  - apply FinFun.Injective_map_NoDup; [intros a b H; lia | apply seq_NoDup].
  - rewrite List.map_length. apply List.seq_length.
  - intros x. rewrite in_map_iff. split.
    + intros (k & <- & Hk). apply in_seq in Hk. lia.
    + intros Hx. exists (Z.to_nat (x - lo)). split; [lia | apply in_seq; lia].
Qed.
Lemma one_left lo m (w : list Z) : (0 <= m)%Z -> NoDup w -> (forall x, In x w -> lo <= x < lo + m)%Z ->
  ((exists x, (lo <= x < lo + m)%Z /\ ~ In x w) <-> (Z.of_nat (length w) < m)%Z).
Proof.
  intros Hm Hw Hr. destruct (range_list lo m) as (l & Hl & Hn & Hi). split.
  - intros (x & Hx & Hnx). destruct (Z.ltb_spec (Z.of_nat (length w)) m) as [|Hge]; [assumption|]. exfalso. apply Hnx.
    refine (@NoDup_length_incl _ w l Hw _ _ x _); [lia | intros y Hy; apply Hi, Hr, Hy | apply Hi; exact Hx].
  - intros Hlt. destruct (forallb (fun x => existsb (Z.eqb x) w) l) eqn:E.
    + exfalso. assert (Hinc : incl l w).
      { intros x Hx. rewrite forallb_forall in E. apply E in Hx. apply existsb_exists in Hx. destruct Hx as (y & Hy & He). apply Z.eqb_eq in He. subst y. exact Hy. }
      apply (NoDup_incl_length Hl) in Hinc. lia.
    + assert (Hex : existsb (fun x => negb (existsb (Z.eqb x) w)) l = true).
      { clear - E. induction l as [|x l IH]; [discriminate E|]. cbn [forallb existsb] in *. destruct (existsb (Z.eqb x) w); [cbn [negb orb andb] in *; auto | reflexivity]. }
      apply existsb_exists in Hex. destruct Hex as (x & Hx & He). exists x. split; [apply Hi; exact Hx|]. intros Hin. apply negb_true_iff in He.
      assert (existsb (Z.eqb x) w = true) by (apply existsb_exists; exists x; split; [exact Hin | apply Z.eqb_refl]). congruence.
Qed.

Definition lowest (r : ity) : Z := if isigned r then (- (patterns r / 2))%Z else 0%Z.
Lemma wire_range r d : in_ity r d -> ((lowest r <= d < lowest r + patterns r)%Z <-> exists bs, WireInt r d bs).
Proof.
  intros Hin. split.
  - intros Hd. destruct r; unfold lowest, patterns in Hd; cbn in Hd;
      lazymatch goal with
      | |- exists bs, WireInt Usize _ _ => exists (le_bytes 2 d); apply WI_usize; [lia | apply le_repr_iff; reflexivity]
      | |- exists bs, WireInt Isize _ _ => exists (le_bytes 2 d); apply WI_isize; [lia | apply le_repr_iff; reflexivity]
      | |- exists bs, WireInt ?i _ _ => exists (le_bytes (iwidth i) d); apply WI_fixed; [discriminate | discriminate | apply le_repr_iff; reflexivity]
      end.
  - intros (bs & H). inversion H; subst; unfold lowest, patterns, in_ity in *; [destruct r; try congruence| |]; cbn in *; lia.
Qed.
Lemma wire_in r d bs : WireInt r d bs -> in_ity r d -> can_encode r d = true.
Proof. intros H _. apply can_encode_fits. eapply PeakProofs.wireint_fits; eassumption. Qed.
Lemma can_wire r d : in_ity r d -> can_encode r d = true -> exists bs, WireInt r d bs.
Proof.
  intros Hin Hc. apply can_encode_fits in Hc. destruct r;
      lazymatch goal with
      | |- exists bs, WireInt Usize _ _ => exists (le_bytes 2 d); apply WI_usize; [exact Hc | apply le_repr_iff; reflexivity]
      | |- exists bs, WireInt Isize _ _ => exists (le_bytes 2 d); apply WI_isize; [exact Hc | apply le_repr_iff; reflexivity]
      | |- exists bs, WireInt ?i _ _ => exists (le_bytes (iwidth i) d); apply WI_fixed; [discriminate | discriminate | apply le_repr_iff; reflexivity]
      end.
Qed.
Lemma in_range_in r d : (lowest r <= d < lowest r + patterns r)%Z -> in_ity r d.
Proof. destruct r; unfold lowest, patterns, in_ity; cbn; lia. Qed.

Lemma nth_error_ext' {A} (l : list A) : forall m, (forall i, nth_error l i = nth_error m i) -> l = m.
Proof.
  induction l as [|x l IH]; intros [|y m] H; [reflexivity | discriminate (H 0) | discriminate (H 0) |]. pose proof (H 0) as H0. injection H0 as <-. f_equal. apply IH. intros i. apply (H (S i)).
Qed.
Lemma numbered_discriminants {A} (vs : list (option Z * A)) ds : discriminants (map fst vs) = Some ds -> map fst (numbered 0 vs) = ds.
Proof.
  intros H. apply nth_error_ext'. intros i. rewrite nth_error_map. change 0%Z with (starting None).
  destruct (nth_error (numbered (starting None) vs) i) as [[d a]|] eqn:E; cbn [option_map fst].
  - apply numbered_nth in E. destruct E as [_ Ha]. symmetry. apply (discriminants_assigned _ i d H). apply assigned_from_none. exact Ha.
  - destruct (nth_error ds i) as [d|] eqn:Ed; [|reflexivity]. apply (discriminants_assigned _ i d H) in Ed. apply assigned_from_none in Ed.
    assert (Hn : exists e a, nth_error vs i = Some (e, a)).
    { destruct (nth_error vs i) as [[e a]|] eqn:Ev; [eauto|]. exfalso. assert (Hm : nth_error (map fst vs) i = None) by (rewrite nth_error_map, Ev; reflexivity).
      clear - Ed Hm. inversion Ed; subst; congruence. }
    destruct Hn as (e & a & Hn). assert (nth_error (numbered (starting None) vs) i = Some (d, a)) by (apply numbered_nth; split; [eauto | exact Ed]). congruence.
Qed.

Lemma unassigned r vs : enum_ok r vs ->
  ((Z.of_nat (length (filter (can_encode r) (map fst (numbered 0 vs)))) <? patterns r)%Z = true <->
   exists d bs, in_ity r d /\ WireInt r d bs /\ forall i, ~ Assigned (map fst vs) i d).
Proof.
  unfold enum_ok. destruct (discriminants (map fst vs)) as [ds|] eqn:E; [|tauto]. intros [Hin Hnd]. rewrite (numbered_discriminants _ E), Z.ltb_lt.
  rewrite <- (@one_left (lowest r) (patterns r)).
  - assert (Hf : forall d, in_ity r d -> (lowest r <= d < lowest r + patterns r)%Z -> (~ In d (filter (can_encode r) ds) <-> forall i, ~ Assigned (map fst vs) i d)).
    { intros d Hd Hr. rewrite filter_In. apply (proj1 (@wire_range r d Hd)) in Hr. destruct Hr as (bs & Hb). rewrite (wire_in Hb Hd). split.
      - intros Hn i Ha. apply Hn. split; [|reflexivity]. apply (discriminants_assigned _ i d E) in Ha. eapply nth_error_In; eassumption.
      - intros Hn [Hi _]. apply In_nth_error in Hi. destruct Hi as (i & Hi). apply (Hn i). apply (discriminants_assigned _ i d E). exact Hi. }
    split.
    + intros (d & Hr & Hn). pose proof (@in_range_in r d Hr) as Hd. destruct (proj1 (@wire_range r d Hd) Hr) as (bs & Hb). exists d, bs. split; [exact Hd|]. split; [exact Hb|]. apply Hf; assumption.
    + intros (d & bs & Hd & Hb & Hn). assert (Hr : (lowest r <= d < lowest r + patterns r)%Z) by (apply (@wire_range r d Hd); eauto). exists d. split; [exact Hr | apply Hf; assumption].
  - unfold patterns. lia.
  - apply NoDup_filter. exact Hnd.
  - intros d Hd. apply filter_In in Hd. destruct Hd as [Hd Hc]. rewrite Forall_forall in Hin. apply Hin in Hd. apply (@wire_range r d Hd). apply can_wire; assumption.
Qed.

(* ---- octets that are refused *)

Lemma some_accepts t : EnumsOk t -> decodable t = true -> exists x v, Accepts t x v.
Proof. intros Ho Hd. destruct (decodable_fine _ Ho Hd) as (x & v & [Ha _]). eauto. Qed.

Definition RefTy (t : ty) : Prop := EnumsOk t -> dec_ety t <> None -> refusable t = true -> exists bs e, Rejects t bs e.

Lemma ref_fields ts : Forall RefTy ts -> Forall EnumsOk ts -> Forall (fun t => dec_ety t <> None) ts ->
  some_refused (map (fun t => (refusable t, decodable t)) ts) = true -> exists t bs cs e, In t ts /\ Rejects t cs e /\ RejectsFields ts bs e.
Proof.
  induction 1 as [|t ts Ht Hts IH]; intros He Hs Hr; [discriminate Hr|]. inversion He; subst. inversion Hs; subst. cbn [map some_refused] in Hr.
  destruct (refusable t) eqn:Er.
  - destruct Ht as (bs & e & Hb); try assumption. exists t, bs, bs, e. split; [left; reflexivity|]. split; [exact Hb | apply RF_here; exact Hb].
  - cbn [orb] in Hr. apply andb_true_iff in Hr. destruct Hr as [Hd Hr]. destruct IH as (t' & bs & cs & e & Hin & Hb & Hf); try assumption.
    destruct (@some_accepts t) as (x & v & Hx); try assumption. exists t', (x ++ bs), cs, e. split; [right; exact Hin|]. split; [exact Hb | eapply RF_later; eassumption].
Qed.
Lemma rejects_generic ts t cs e : all_generic_d (map dec_ety ts) = true -> Forall EnumsOk ts -> In t ts -> Rejects t cs e -> DGeneric e (into_generic_dec e).
Proof.
  intros Hg Hok Hin Hr. pose proof (generic_some_d _ Hg) as Hs. rewrite Forall_forall in Hs, Hok. specialize (Hs _ Hin). specialize (Hok _ Hin).
  destruct (dec_ety t) as [z|] eqn:Ez; [|congruence]. apply (@generic_in_d ts t z); try assumption; [|eapply rejects_sane; eassumption].
  apply (@C89_lemma t z cs e Hok Ez) in Hr. specialize (Hr [] []). eapply C68_decode_lemma; eassumption.
Qed.
Lemma len1 : WireLen 1 [x01; x00].
Proof. apply (@wire_len_small 1). lia. Qed.
Lemma bad_octet : BadText [xff] 0 xff.
Proof. apply bad_text. reflexivity. Qed.

Lemma refusable_all t : RefTy t /\ RefTy (owned t).
Proof.
  induction t using ty_ind_strong; cbn [owned];
  lazymatch goal with
  | |- ?P /\ ?P => cut P; [intros Hcut; split; exact Hcut|]
  | |- _ => split; [intros _ Hs; destruct Hs; reflexivity|]
  end; intros Hok Hs Hr; cbn [EnumsOk] in Hok; cbn [refusable] in Hr; try discriminate Hr.
  - (* char *) exists (le_bytes 4 56320), (DChar 56320). constructor; [left; lia | apply le_repr_iff; reflexivity].
  - (* NonZero *) exists (repeat x00 (wire_width i)), DNonZero. constructor. apply wireint_zero; [apply repeat_length | reflexivity].
  - (* Option *) cbn [dec_ety] in Hs. destruct (proj1 IHt Hok Hs Hr) as (bs & e & Hb). exists (x01 :: bs), e. constructor; [discriminate | exact Hb].
  - (* Result *) cbn [dec_ety] in Hs. destruct (dec_ety t1) eqn:E1; [|congruence]. destruct (dec_ety t2) eqn:E2; [|congruence]. destruct Hok as [Ho1 Ho2].
    apply orb_true_iff in Hr. destruct Hr as [Hr|Hr].
    + destruct (proj1 IHt1 Ho1) as (bs & e & Hb); [congruence | exact Hr|]. exists (x00 :: bs), (DField e). constructor. exact Hb.
    + destruct (proj1 IHt2 Ho2) as (bs & e & Hb); [congruence | exact Hr|]. exists (x01 :: bs), (DField e). apply Rj_err; [discriminate | exact Hb].
  - (* tuple *) apply fold_and_map in Hok. apply same_static_d in Hs. destruct (@ref_fields ts) as (t & bs & cs & e & _ & _ & Hb); try assumption.
    { eapply Forall_impl; [|exact H]. intros t [Ht _]. exact Ht. }
    exists bs, e. constructor. exact Hb.
  - (* array *) cbn [dec_ety] in Hs. apply option_map_some_d in Hs. apply andb_true_iff in Hr. destruct Hr as [Hn Hr]. apply Nat.ltb_lt in Hn.
    destruct (proj1 IHt Hok Hs Hr) as (bs & e & Hb). exists bs, (DItem 0 e). constructor; [exact Hn | constructor; exact Hb].
  - (* slice, owned *) cbn [dec_ety] in Hs. apply option_map_some_d in Hs. destruct (proj1 IHt Hok Hs Hr) as (bs & e & Hb).
    exists ([x01; x00] ++ bs), (DItem 0 e). eapply Rj_vec; [apply len1 | lia | constructor; exact Hb].
  - (* Vec *) cbn [dec_ety] in Hs. apply option_map_some_d in Hs. destruct (proj1 IHt Hok Hs Hr) as (bs & e & Hb).
    exists ([x01; x00] ++ bs), (DItem 0 e). eapply Rj_vec; [apply len1 | lia | constructor; exact Hb].
  - (* LinkedList *) cbn [dec_ety] in Hs. apply option_map_some_d in Hs. destruct (proj1 IHt Hok Hs Hr) as (bs & e & Hb).
    exists ([x01; x00] ++ bs), (DItem 0 e). eapply Rj_linked; [apply len1 | lia | constructor; exact Hb].
  - (* SizedSlice *) cbn [dec_ety] in Hs. apply option_map_some_d in Hs. destruct (Z.ltb_spec (Z.of_nat n) 65535) as [Hn|Hn].
    + exists (le_bytes 2 (Z.of_nat (S n))), (DLen (DLength n (S n))). constructor; [|lia]. split; [lia | apply le_repr_iff; reflexivity].
    + cbn [orb] in Hr. destruct (proj1 IHt Hok Hs Hr) as (bs & e & Hb). exists ([x01; x00] ++ bs), (DItem 0 e).
      eapply Rj_sized_slice; [apply len1 | lia | lia | constructor; exact Hb].
  - (* str, owned *) exists ([x01; x00] ++ [xff]), (DBad (DUtf8 xff 0)). constructor; [apply len1 | apply bad_octet].
  - (* String *) exists ([x01; x00] ++ [xff]), (DBad (DUtf8 xff 0)). constructor; [apply len1 | apply bad_octet].
  - (* SizedStr *) destruct n as [|n].
    + eexists ([x01; x00] ++ [xff]), _. apply Rj_sized_str_long; [apply len1 | cbn [length]; lia].
    + exists ([x01; x00] ++ [xff]), (DBad (DUtf8 xff 0)). apply Rj_sized_str; [apply len1 | cbn [length]; lia | apply bad_octet].
  - (* CStr, owned *) exists ([x01; x00] ++ [x00]), (DCString 0). constructor; [apply len1 | reflexivity | intros []].
  - (* CString *) exists ([x01; x00] ++ [x00]), (DCString 0). constructor; [apply len1 | reflexivity | intros []].
  - (* wrapper *) cbn [dec_ety] in Hs. destruct (proj1 IHt Hok) as (bs & e & Hb); [destruct w; congruence | exact Hr|]. exists bs, e. constructor. exact Hb.
  - (* Cow *) rewrite cow_static in Hs. destruct (proj2 IHt) as (bs & e & Hb); [apply owned_enums; assumption | assumption | destruct t; exact Hr|]. exists bs, e. constructor. exact Hb.
  - (* RefCell *) cbn [dec_ety] in Hs. destruct (proj1 IHt Hok Hs Hr) as (bs & e & Hb). exists bs, e. constructor. exact Hb.
  - (* locks *) cbn [dec_ety] in Hs. destruct (proj1 IHt Hok Hs Hr) as (bs & e & Hb). exists bs, e. constructor. exact Hb.
  - (* IpAddr *) eexists [x00], _. constructor. cbn [In]. intros [E|[E|[]]]; discriminate E.
  - (* SocketAddr *) eexists [x00], _. constructor. cbn [In]. intros [E|[E|[]]]; discriminate E.
  - (* Range *) cbn [dec_ety] in Hs. destruct (proj1 IHt Hok Hs Hr) as (bs & e & Hb). exists bs, e. apply Rj_range_start. exact Hb.
  - cbn [dec_ety] in Hs. destruct (proj1 IHt Hok Hs Hr) as (bs & e & Hb). exists bs, e. constructor. exact Hb.
  - (* RangeInclusive *) cbn [dec_ety] in Hs. destruct (proj1 IHt Hok Hs Hr) as (bs & e & Hb). exists bs, e. apply Rj_range_incl_start. exact Hb.
  - cbn [dec_ety] in Hs. destruct (proj1 IHt Hok Hs Hr) as (bs & e & Hb). exists bs, e. constructor. exact Hb.
  - cbn [dec_ety] in Hs. destruct (proj1 IHt Hok Hs Hr) as (bs & e & Hb). exists bs, e. constructor. exact Hb.
  - (* Bound *) eexists [x03], _. apply Rj_bound. cbn [In]. intros [E|[E|[E|[]]]]; discriminate E.
  - (* HashMap *) cbn [dec_ety] in Hs. destruct (dec_ety t1) eqn:E1; [|congruence]. destruct (dec_ety t2) eqn:E2; [|congruence]. destruct Hok as [Ho1 Ho2].
    destruct (refusable t1) eqn:Er.
    + destruct (proj1 IHt1 Ho1) as (bs & e & Hb); [congruence | exact Er|]. exists ([x01; x00] ++ bs), (DItem 0 e).
      eapply Rj_map; [apply len1 | lia | apply RE_key; exact Hb].
    + cbn [orb] in Hr. apply andb_true_iff in Hr. destruct Hr as [Hd Hr]. destruct (some_accepts _ Ho1 Hd) as (x & a & Ha).
      destruct (proj1 IHt2 Ho2) as (bs & e & Hb); [congruence | exact Hr|]. exists ([x01; x00] ++ x ++ bs), (DItem 0 e).
      eapply Rj_map; [apply len1 | lia | eapply RE_value; eassumption].
  - (* HashSet *) cbn [dec_ety] in Hs. apply option_map_some_d in Hs. destruct (proj1 IHt Hok Hs Hr) as (bs & e & Hb).
    exists ([x01; x00] ++ bs), (DItem 0 e). eapply Rj_set; [apply len1 | lia | constructor; exact Hb].
  - (* struct *) cbn [dec_ety] in Hs. destruct (all_generic_d (map dec_ety ts)) eqn:Eg; [|congruence]. apply fold_and_map in Hok.
    destruct (@ref_fields ts) as (t & bs & cs & e & Hin & Hc & Hb); try assumption.
    { eapply Forall_impl; [|exact H]. intros t [Ht _]. exact Ht. } { apply generic_some_d. exact Eg. }
    eexists bs, _. econstructor; [exact Hb | eapply rejects_generic; eassumption].
  - (* enum *) cbn [dec_ety] in Hs. destruct (forallb _ vs) eqn:Eg; [|congruence]. rewrite forallb_forall in Eg. destruct Hok as [Hok Hx]. apply orb_true_iff in Hr. destruct Hr as [Hr|Hr].
    + apply unassigned in Hr; [|exact Hok]. destruct Hr as (d & bs & Hd & Hb & Hn). exists bs, (DUnassigned r d). constructor; assumption.
    + apply existsb_exists in Hr. destruct Hr as ([d b] & Hin & Hr). cbn [fst snd] in Hr. apply andb_true_iff in Hr. destruct Hr as [Hc ->].
      apply (numbered_map (fun ts => some_refused (map (fun t => (refusable t, decodable t)) ts))) in Hin. destruct Hin as (i & x & ts & Hi & Hr & Ha). symmetry in Hr.
      apply fold_and_map in Hx. pose proof (nth_error_In _ _ Hi) as Hin. rewrite Forall_forall in H, Hx. specialize (H _ Hin). specialize (Hx _ Hin). cbn [snd] in H, Hx.
      apply fold_and_map in Hx.
      specialize (Eg _ Hin). cbn [snd] in Eg. destruct (@ref_fields ts) as (t & bs & cs & e & Hint & Hcs & Hb); try assumption.
      { eapply Forall_impl; [|exact H]. intros t [Ht _]. exact Ht. } { apply generic_some_d. exact Eg. }
      assert (Hd : in_ity r d).
      { unfold enum_ok in Hok. destruct (discriminants (map fst vs)) as [ds|] eqn:E; [|destruct Hok]. destruct Hok as [Hall _]. rewrite Forall_forall in Hall. apply Hall.
        apply (discriminants_assigned _ i d E) in Ha. eapply nth_error_In; eassumption. }
      destruct (@can_wire r d Hd Hc) as (db & Hdb). eexists (db ++ bs), _. eapply Rj_field; try eassumption. eapply rejects_generic; eassumption.
Qed.

(* ---- and the other way *)

Lemma rejects_refusable_all :
  (forall t bs e, Rejects t bs e -> refusable t = true) /\
  (forall ts bs e, RejectsFields ts bs e -> some_refused (map (fun t => (refusable t, decodable t)) ts) = true) /\
  (forall t k bs e, RejectsItems t k bs e -> refusable t = true) /\
  (forall kt vt k bs e, RejectsEntries kt vt k bs e -> refusable kt || decodable kt && refusable vt = true).
Proof.
  apply (@Rejects_mutind (fun t _ _ _ => refusable t = true) (fun ts _ _ _ => some_refused (map (fun t => (refusable t, decodable t)) ts) = true)
    (fun t _ _ _ _ => refusable t = true) (fun kt vt _ _ _ _ => refusable kt || decodable kt && refusable vt = true)); intros; cbn [refusable map some_refused];
    try assumption; try reflexivity.
  - rewrite H. reflexivity.
  - rewrite H. apply orb_true_r.
  - apply orb_true_iff. left. apply unassigned; [assumption|]. exists d, bs. auto.
  - apply orb_true_iff. right. apply existsb_exists. exists (d, some_refused (map (fun t => (refusable t, decodable t)) ts)). split.
    + apply (numbered_map (fun ts => some_refused (map (fun t => (refusable t, decodable t)) ts))). exists i, x, ts. auto.
    + cbn [fst snd]. rewrite H, andb_true_r. apply can_encode_fits. eapply PeakProofs.wireint_fits; eassumption.
  - rewrite H, andb_true_r. apply Nat.ltb_lt. lia.
  - match goal with H : WireLen _ _ |- _ => destruct H as [Hl _] end. apply orb_true_iff. left. apply Z.ltb_lt. lia.
  - rewrite H. apply orb_true_r.
  - destruct t; assumption.
  - rewrite H. reflexivity.
  - rewrite H. erewrite accepts_decodable by eassumption. apply orb_true_r.
  - rewrite H. reflexivity.
  - rewrite H. erewrite accepts_decodable by eassumption. apply orb_true_r.
Qed.

Lemma C120_decode_lemma t : EnumsOk t -> dec_ety t <> None ->
  ((exists i i' e, in_bounds i /\ decode t i = (i', Err e)) <-> refusable t = true).
Proof.
  intros Hok Hs. destruct (dec_ety t) as [z|] eqn:Ez; [|congruence]. split.
  - intros (i & i' & e & Hb & Hd). destruct (@C89_run_lemma t z i i' e Hok Ez Hb Hd) as (bs & post & _ & _ & Hr). eapply (proj1 rejects_refusable_all); eassumption.
  - intros Hr. destruct (proj1 (refusable_all t)) as (bs & e & Hb); [assumption | congruence | assumption|].
    apply (@C89_lemma t z bs e Hok Ez) in Hb. specialize (Hb [] []). eexists _, _, e. split; [|exact Hb]. apply Nat.le_0_l.
Qed.

Lemma C120_inhabited_lemma t : EnumsOk t -> ((exists v, wt t v) <-> inhabited t = true).
Proof.
  intros Hok. split; [intros (v & Hv); eapply inhabited_of; eassumption|]. intros Hi. destruct (plain_exists _ Hok Hi) as (v & Hv & _). eauto.
Qed.
