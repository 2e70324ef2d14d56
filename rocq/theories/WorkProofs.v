(* C75: how much a decoder builds. *)
From Coq Require Import Lia.
From Verif Require Import Base Streams Utf8 Types TypesFacts Traits Encode Decode BaseFacts StreamFacts Spec SpecCalls SpecDecode SpecWork WireFacts
  EncodeFacts AcceptFacts DecodeProofs RoundTrip ValueProofs.
Set Implicit Arguments.

Definition bit (b : bool) : nat := if b then 1 else 0.

Lemma le_repr_length w z bs : le_repr w z bs -> length bs = w.
Proof. intros [H _]. exact H. Qed.
Lemma wirelen_length n bs : WireLen n bs -> length bs = 2.
Proof. intros [_ [H _]]. exact H. Qed.
Lemma wireint_length i z bs : WireInt i z bs -> 1 <= length bs.
Proof. destruct 1 as [i z bs _ _ [-> _] | z bs _ [-> _] | z bs _ [-> _]]; [destruct i; cbn | | ]; lia. Qed.

(* items of a map or set after insertions weigh no more than the entries read *)
Lemma put_weight {K V} (w : K * V -> nat) k v m m' : Put k v m m' ->
  list_sum (map w m') <= list_sum (map w m) + w (k, v).
Proof.
  intros H. destruct H; rewrite !map_app, !list_sum_app; cbn; lia.
Qed.
Lemma putall_weight {K V} (w : K * V -> nat) m l m' : PutAll m l m' ->
  list_sum (map w m') <= list_sum (map w m) + list_sum (map w l).
Proof.
  induction 1 as [|m k v m1 l m2 Hp _ IH]; cbn [map list_sum fold_right]; [lia|].
  pose proof (put_weight w Hp). unfold list_sum in *. cbn [fold_right]. lia.
Qed.
Lemma addall_weight {K} (w : K -> nat) s l s' : AddAll s l s' -> list_sum (map w s') <= list_sum (map w s) + list_sum (map w l).
Proof.
  induction 1 as [|s k l s' _ _ IH|s k l s' _ _ IH]; [cbn; lia| |]; cbn [map];
    change (list_sum (w k :: map w l)) with (w k + list_sum (map w l)); [|lia].
  rewrite map_app, list_sum_app in IH. cbn in IH. lia.
Qed.
Lemma firstn_weight {A} (w : A -> nat) n l : list_sum (map w (firstn n l)) <= list_sum (map w l).
Proof. revert l. induction n as [|n IH]; intros [|x l]; cbn; try lia. specialize (IH l). unfold list_sum in *. lia. Qed.
Lemma weight_split {A} (w : A -> nat) l : list_sum (map (fun x => 1 + w x) l) = length l + list_sum (map w l).
Proof. unfold list_sum. induction l as [|x l IH]; cbn in *; [reflexivity|]. lia. Qed.

Lemma owned_empty t : contains empty_items (owned t) = contains empty_items t.
Proof. destruct t; reflexivity. Qed.
Lemma owned_nonempty t : nonempty (owned t) = nonempty t.
Proof. destruct t; reflexivity. Qed.
Lemma owned_items t v : items_in (owned t) v = items_in t v.
Proof. destruct t; reflexivity. Qed.

Lemma contains_in p ts t : existsb (contains p) ts = false -> In t ts -> contains p t = false.
Proof. intros H Hi. destruct (contains p t) eqn:E; [|reflexivity]. assert (existsb (contains p) ts = true) by (apply existsb_exists; eauto). congruence. Qed.

Lemma accepts_items_all :
  (forall t bs v, Accepts t bs v -> contains empty_items t = false -> items_in t v + bit (nonempty t) <= length bs) /\
  (forall ts bs vs, AcceptsFields ts bs vs -> existsb (contains empty_items) ts = false ->
     list_sum (map (fun p => fst p (snd p)) (combine (map items_in ts) vs)) + bit (existsb nonempty ts) <= length bs) /\
  (forall t bs vs, AcceptsItems t bs vs -> contains empty_items t = false ->
     list_sum (map (fun v => bit (nonempty t) + items_in t v) vs) <= length bs) /\
  (forall k v bs l, AcceptsEntries k v bs l -> contains empty_items k = false -> contains empty_items v = false ->
     list_sum (map (fun p => bit (nonempty k || nonempty v) + (items_in k (fst p) + items_in v (snd p))) l) <= length bs).
Proof.
  apply (@Accepts_mutind
    (fun t bs v _ => contains empty_items t = false -> items_in t v + bit (nonempty t) <= length bs)
    (fun ts bs vs _ => existsb (contains empty_items) ts = false ->
      list_sum (map (fun p => fst p (snd p)) (combine (map items_in ts) vs)) + bit (existsb nonempty ts) <= length bs)
    (fun t bs vs _ => contains empty_items t = false -> list_sum (map (fun v => bit (nonempty t) + items_in t v) vs) <= length bs)
    (fun k v bs l _ => contains empty_items k = false -> contains empty_items v = false ->
      list_sum (map (fun p => bit (nonempty k || nonempty v) + (items_in k (fst p) + items_in v (snd p))) l) <= length bs));
    intros; cbn [contains empty_items existsb orb] in *;
    repeat match goal with H : _ || _ = false |- _ => apply orb_false_iff in H; destruct H end;
    repeat match goal with H : negb _ = false |- _ => apply negb_false_iff in H end;
    repeat match goal with IH : ?c = false -> _, H : ?c = false |- _ => specialize (IH H) end;
    repeat match goal with H : le_repr _ _ _ |- _ => apply le_repr_length in H | H : WireInt _ _ _ |- _ => apply wireint_length in H
      | H : WireLen _ _ |- _ => apply wirelen_length in H end;
    cbn [items_in nonempty existsb map combine list_sum fold_right length] in *; rewrite ?app_length, ?rev_length in *; cbn [bit length] in *;
    try lia.
  - rewrite (nth_error_map_some (fun x => map items_in (snd x)) _ _ e1). cbn [snd].
    assert (Hts : existsb (contains empty_items) ts = false).
    { destruct (existsb (contains empty_items) ts) eqn:E; [|reflexivity].
      assert (existsb (fun x => existsb (contains empty_items) (snd x)) vs = true).
      { apply existsb_exists. exists (e, ts). split; [apply (nth_error_In _ _ e1) | exact E]. } congruence. }
    specialize (H Hts). lia.
  - destruct (Nat.eqb_spec n 0) as [->|Hn]; cbn [negb andb bit].
    + destruct vs; [cbn; lia | discriminate].
    + destruct (nonempty t); cbn [bit] in *.
      * rewrite weight_split in H. lia.
      * cbn [Nat.add] in H. change (map (fun v => items_in t v) vs) with (map (items_in t) vs) in H. lia.
  - rewrite H0 in *. cbn [bit] in H. rewrite weight_split in H. lia.
  - rewrite H0 in *. cbn [bit] in H. rewrite weight_split in H. lia.
  - rewrite H0 in *. cbn [bit] in H. rewrite weight_split in H. pose proof (firstn_weight (items_in t) len vs).
    rewrite firstn_length. lia.
  - pose proof (putall_weight (fun p => bit (nonempty k || nonempty v) + (items_in k (fst p) + items_in v (snd p))) p) as Hp.
    cbn [map list_sum fold_right] in Hp.
    assert (Hb : nonempty k || nonempty v = true) by (destruct (nonempty k), (nonempty v); cbn in *; congruence).
    rewrite Hb in *. cbn [bit] in *. rewrite !weight_split in *. lia.
  - pose proof (addall_weight (fun x => 1 + items_in k x) a0) as Hp. cbn [map list_sum fold_right] in Hp.
    rewrite H0 in *. cbn [bit] in *. rewrite !weight_split in *. lia.
  - rewrite owned_items, owned_nonempty, owned_empty in H. auto.
  - unfold list_sum in *. destruct (nonempty t), (existsb nonempty ts); cbn [bit orb fst snd] in *; lia.
  - unfold list_sum in *. lia.
  - unfold list_sum in *. cbn [fst snd]. destruct (nonempty k), (nonempty v); cbn [bit orb] in *; lia.
Qed.

Lemma C75_lemma t i i' v : EnumsOk t -> contains empty_items t = false -> in_bounds i -> decode t i = (i', Ok v) ->
  items_in t v <= i_pos i' - i_pos i.
Proof.
  intros Hok Hc Hb Hd. destruct (@decode_exact t i i' v Hok Hb Hd) as (bs & post & H1 & H2 & Ha).
  pose proof (proj1 accepts_items_all _ _ _ Ha Hc) as H. subst i'. cbn [i_pos]. lia.
Qed.
