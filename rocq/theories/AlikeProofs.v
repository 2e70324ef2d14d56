(* C20: how far two encodings of a value that are accepted can differ. *)
From Coq Require Import Lia ZifyBool ZifyNat ZifyN.
From Verif Require Import Base BaseFacts Streams Utf8 Types TypesFacts Traits Encode Decode Spec SpecCalls SpecDecode SpecValues SpecAlike
  WireFacts RoundTrip EncodeProofs AcceptFacts DecodeProofs ValueProofs PortableProofs.
Set Implicit Arguments.
Local Open Scope Z_scope.

Lemma alike_refl x : Alike x x.
Proof. induction x; constructor; assumption. Qed.
Lemma alike_app a b x y : Alike a b -> Alike x y -> Alike (a ++ x) (b ++ y).
Proof.
  intros H Hx. induction H; cbn [app]; [exact Hx | constructor 2; assumption | constructor 3; assumption|].
  rewrite <- !app_assoc. eapply Al_time; eassumption.
Qed.
Lemma alike_length x y : Alike x y -> length x = length y.
Proof.
  induction 1 as [|? ? ? ? IH|? ? ? ? ? ? ? IH|s n s' n' sb nb sb' nb' x y H1 H2 H3 H4 ? ? ? ? ? ? IH]; cbn [length]; [reflexivity | lia | lia|].
  rewrite !app_length. apply proj1 in H1, H2, H3, H4. lia.
Qed.
Lemma wireint_unique i z a b : WireInt i z a -> WireInt i z b -> a = b.
Proof. intros Ha Hb. inversion Ha; subst; inversion Hb; subst; try congruence; eauto using le_repr_unique. Qed.
Lemma wirelen_unique n a b : WireLen n a -> WireLen n b -> a = b.
Proof. intros [_ Ha] [_ Hb]. eauto using le_repr_unique. Qed.
Lemma contains_owned p t : (forall u, p (TVec u) = p (TSlice u)) -> p TString = p TStr -> p TCString = p TCStr -> contains p (owned t) = contains p t.
Proof. intros H1 H2 H3. destruct t; cbn [owned contains]; rewrite ?H1, ?H2, ?H3; reflexivity. Qed.

Ltac same := repeat match goal with
  | H : le_repr ?w ?z ?a, K : le_repr ?w ?z ?b |- _ => tryif constr_eq a b then fail else (pose proof (le_repr_unique H K); subst b)
  | H : WireInt ?i ?z ?a, K : WireInt ?i ?z ?b |- _ => tryif constr_eq a b then fail else (pose proof (wireint_unique H K); subst b)
  | H : WireLen ?z ?a, K : WireLen ?z ?b |- _ => tryif constr_eq a b then fail else (pose proof (wirelen_unique H K); subst b)
  end.

Lemma accepts_alike :
  (forall t bs v, Accepts t bs v -> contains drops_items t = false -> forall bs', Accepts t bs' v -> Alike bs bs') /\
  (forall ts bs vs, AcceptsFields ts bs vs -> existsb (contains drops_items) ts = false -> forall bs', AcceptsFields ts bs' vs -> Alike bs bs') /\
  (forall t bs vs, AcceptsItems t bs vs -> contains drops_items t = false -> forall bs', AcceptsItems t bs' vs -> Alike bs bs') /\
  (forall k v bs l, AcceptsEntries k v bs l -> True).
Proof.
  apply (@Accepts_mutind
    (fun t bs v _ => contains drops_items t = false -> forall bs', Accepts t bs' v -> Alike bs bs')
    (fun ts bs vs _ => existsb (contains drops_items) ts = false -> forall bs', AcceptsFields ts bs' vs -> Alike bs bs')
    (fun t bs vs _ => contains drops_items t = false -> forall bs', AcceptsItems t bs' vs -> Alike bs bs')
    (fun k v bs l _ => True));
    intros; try exact I;
    try match goal with H : contains drops_items _ = false |- _ => cbn [contains drops_items orb] in H end; try discriminate;
    try match goal with H : existsb (contains drops_items) (_ :: _) = false |- _ => cbn [existsb] in H end;
    repeat match goal with H : _ || _ = false |- _ => apply orb_false_iff in H; destruct H end;
    match goal with H : Accepts _ ?b _ |- Alike _ ?b => inversion H; subst; clear H | H : AcceptsFields _ ?b _ |- Alike _ ?b => inversion H; subst; clear H
      | H : AcceptsItems _ ?b _ |- Alike _ ?b => inversion H; subst; clear H end;
    same; try apply alike_refl; try (auto; fail).
  all: try (constructor; auto; fail).
  all: try (apply alike_app; auto using alike_refl; fail).
  - constructor 3; [assumption..|constructor].
  - match goal with H : nth_error vs i = Some (?e', ?ts') |- _ => assert (ts' = ts) by congruence; subst ts' end.
    match goal with H : Assigned _ i ?d' |- _ => pose proof (assigned_unique a H); subst d' end. same.
    apply alike_app; [apply alike_refl|]. apply H; [|assumption].
    apply nth_error_In in e1. destruct (existsb (contains drops_items) ts) eqn:E; [|reflexivity].
    enough (existsb (fun x : option Z * list ty => existsb (contains drops_items) (snd x)) vs = true) by congruence.
    apply existsb_exists. exists (e, ts). split; assumption.
  - apply H; [|assumption]. rewrite contains_owned; [assumption|reflexivity..].
  - rewrite <- (app_nil_r nb). match goal with |- Alike _ (_ ++ ?y) => rewrite <- (app_nil_r y) end.
    eapply Al_time; try eassumption; [|constructor].
    pose proof (Z.div_mod n 1000000000). match goal with H : ?m mod 1000000000 = n mod 1000000000 |- _ => pose proof (Z.div_mod m 1000000000) end. lia.
Qed.

Lemma accepts_roundtrips :
  (forall t bs v, Accepts t bs v -> contains drops_items t = false -> RoundTrips t v) /\
  (forall ts bs vs, AcceptsFields ts bs vs -> existsb (contains drops_items) ts = false -> all2 (map RoundTrips ts) vs) /\
  (forall t bs vs, AcceptsItems t bs vs -> contains drops_items t = false -> Forall (RoundTrips t) vs) /\
  (forall k v bs l, AcceptsEntries k v bs l -> True).
Proof.
  apply (@Accepts_mutind
    (fun t bs v _ => contains drops_items t = false -> RoundTrips t v)
    (fun ts bs vs _ => existsb (contains drops_items) ts = false -> all2 (map RoundTrips ts) vs)
    (fun t bs vs _ => contains drops_items t = false -> Forall (RoundTrips t) vs)
    (fun k v bs l _ => True));
    intros; try exact I;
    try match goal with H : contains drops_items _ = false |- _ => cbn [contains drops_items orb] in H end; try discriminate;
    try match goal with H : existsb (contains drops_items) (_ :: _) = false |- _ => cbn [existsb] in H end;
    repeat match goal with H : _ || _ = false |- _ => apply orb_false_iff in H; destruct H end; cbn [RoundTrips map all2]; auto.
  - rewrite nth_error_map, e1. cbn [option_map snd]. apply H.
    apply nth_error_In in e1. destruct (existsb (contains drops_items) ts) eqn:E; [|reflexivity].
    enough (existsb (fun x : option Z * list ty => existsb (contains drops_items) (snd x)) vs = true) by congruence.
    apply existsb_exists. exists (e, ts). split; assumption.
  - assert (R : RoundTrips (owned t) v) by (apply H; rewrite contains_owned; [assumption|reflexivity..]).
    destruct t; cbn [owned] in *; auto. inversion a; subst. exact R.
Qed.

Lemma C20_alike_lemma t bs bs' v : EnumsOk t -> contains drops_items t = false -> Yields (decode t) bs v -> Yields (decode t) bs' v ->
  Alike bs bs' /\ length bs = length bs'.
Proof.
  intros Hok Hd H H'. apply accepts_iff in H; [|exact Hok]. apply accepts_iff in H'; [|exact Hok].
  pose proof (proj1 accepts_alike _ _ _ H Hd _ H') as Ha. split; [exact Ha | apply alike_length, Ha].
Qed.
Lemma C20_normal_lemma ch t bs v : EnumsOk t -> contains drops_items t = false -> wt t v -> ch = false \/ has_lowest_second v = false ->
  Yields (decode t) bs v -> exists bs', Appends (encode ch t v) bs' (Ok tt) /\ Yields (decode t) bs' v /\ Alike bs bs'.
Proof.
  intros Hok Hd Hv Hl H. pose proof H as Ha. apply accepts_iff in Ha; [|exact Hok].
  destruct (@C10_lemma ch t v Hv Hl) as (bs' & [(Hr & He) | (Hr & _)]); [|destruct (Hr (accepts_representable Ha))].
  exists bs'. split; [exact He|].
  pose proof (@appends_wire ch t v bs' Hv He) as Hw.
  pose proof (round_trip Hw Hv (proj1 accepts_roundtrips _ _ _ Ha Hd)) as Hp. rewrite (proj1 accepts_norm_all _ _ _ Ha) in Hp.
  assert (Hy : Yields (decode t) bs' v) by exact Hp. split; [exact Hy|]. exact (proj1 (@C20_alike_lemma t bs bs' v Hok Hd H Hy)).
Qed.
