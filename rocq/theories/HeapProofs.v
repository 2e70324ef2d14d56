(* C76, C77: what decoders do to memory. *)
From Coq Require Import Lia Permutation.
From Verif Require Import Base Streams Utf8 Types TypesFacts Traits Decode StreamFacts ValEq Spec SpecDecode SpecCalls DecodeFacts AcceptFacts DecodeProofs SpecHeap Heap.
Set Implicit Arguments.
Local Open Scope nat_scope.

(* ---- the log changes nothing *)
Definition Same {A} (h : H A) (m : D A) : Prop := forall i, fst (h i) = m i.

Lemma S_plain {A} (m : D A) : Same (hplain m) m.
Proof. intros i. reflexivity. Qed.
Lemma S_bind {A B} rel (h : H A) m (k : A -> H B) l : Same h m -> (forall a, Same (k a) (l a)) -> Same (hbind rel h k) (dbind m l).
Proof.
  intros Hh Hk i. unfold hbind, dbind. rewrite <- (Hh i). destruct (h i) as [[i1 [a|e|p]] es]; cbn [fst]; try reflexivity.
  rewrite <- (Hk a i1). destruct (k a i1) as [[i2 [b|e|p]] es']; reflexivity.
Qed.
Lemma S_map {A B} (f : A -> B) mk h m : Same h m -> Same (hmap f mk h) (dmap f m).
Proof. intros Hh i. unfold hmap, dmap, dbind. rewrite <- (Hh i). destruct (h i) as [[i1 [a|e|p]] es]; reflexivity. Qed.
Lemma S_id (h : H val) mk m : Same h m -> Same (hmap (fun v => v) mk h) m.
Proof. intros Hh i. unfold hmap. rewrite <- (Hh i). destruct (h i) as [[i1 [a|e|p]] es]; reflexivity. Qed.
Lemma S_map_err {A} f (h : H A) m : Same h m -> Same (hmap_err f h) (dmap_err f m).
Proof. intros Hh i. unfold hmap_err, dmap_err. rewrite <- (Hh i). destruct (h i) as [[i1 [a|e|p]] es]; reflexivity. Qed.
Lemma S_reserve {A} t n (h : H A) m : Same h m -> Same (hreserve t n h) m.
Proof. intros Hh i. unfold hreserve. rewrite <- (Hh i). destruct (h i) as [[i1 r] es]; reflexivity. Qed.
Lemma S_items rel h m n : Same h m -> forall i, Same (h_items rel h n i) (dec_items m n i).
Proof.
  intros Hh. induction n as [|n IH]; intros i; cbn [h_items dec_items]; [apply S_plain|].
  apply S_bind; [apply S_map_err, Hh|]. intros x. apply S_map, IH.
Qed.
Lemma S_fields conv fs ms : Forall2 (fun f m => Same (snd f) m) fs ms -> Same (h_fields conv fs) (dec_fields conv ms).
Proof.
  induction 1 as [|[rel f] m fs ms Hf _ IH]; cbn [h_fields dec_fields]; [apply S_plain|].
  apply S_bind; [apply S_map_err, Hf|]. intros x. apply S_map, IH.
Qed.
Lemma S_entries tk tv fk fv gk gv n : Same fk gk -> Same fv gv -> forall i acc, Same (h_entries tk tv fk fv n i acc) (dec_entries gk gv n i acc).
Proof.
  intros Hk Hv. induction n as [|n IH]; intros i acc; cbn [h_entries dec_entries]; [apply S_plain|].
  intros x. unfold dbind. rewrite <- (S_map_err (DItem i) Hk x). destruct (hmap_err (DItem i) fk x) as [[x1 [k|e|p]] es]; try reflexivity.
  cbn [fst]. rewrite <- (S_map_err (DItem i) Hv x1). destruct (hmap_err (DItem i) fv x1) as [[x2 [v|e|p]] es']; try reflexivity.
  cbn [fst]. rewrite <- (IH (S i) (map_insert k v acc) x2).
  destruct (h_entries tk tv fk fv n (S i) (map_insert k v acc) x2) as [[x3 r] es'']. reflexivity.
Qed.
Lemma S_keys tk fk gk n : Same fk gk -> forall i acc, Same (h_keys tk fk n i acc) (dec_keys gk n i acc).
Proof.
  intros Hk. induction n as [|n IH]; intros i acc; cbn [h_keys dec_keys]; [apply S_plain|].
  intros x. unfold dbind. rewrite <- (S_map_err (DItem i) Hk x). destruct (hmap_err (DItem i) fk x) as [[x1 [k|e|p]] es]; try reflexivity.
  cbn [fst]. rewrite <- (IH (S i) (set_insert k acc) x1).
  destruct (h_keys tk fk n (S i) (set_insert k acc) x1) as [[x3 r] es'']. reflexivity.
Qed.

Lemma S_vec t h m : Same h m -> Same (h_vec t h) (dec_vec m).
Proof. intros Hh. apply S_bind; [apply S_plain|]. intros len. apply S_reserve, S_map, S_items, Hh. Qed.
Lemma S_linked t h m : Same h m -> Same (h_linked t h) (dec_vec m).
Proof. intros Hh. apply S_bind; [apply S_plain|]. intros len. apply S_map, S_items, Hh. Qed.
Lemma S_text m : Same (h_text m) m.
Proof. apply S_id, S_plain. Qed.

Lemma map_forall2 {A B C} (R : B -> C -> Prop) (f : A -> B) (g : A -> C) l : Forall (fun x => R (f x) (g x)) l -> Forall2 R (map f l) (map g l).
Proof. induction 1; cbn; constructor; auto. Qed.

Lemma hdecode_owned b : (match b with TSlice t => h_vec t (hdecode t) | TStr => h_text dec_string | TCStr => h_text dec_cstring | _ => hdecode b end) = hdecode (owned b).
Proof. destruct b; reflexivity. Qed.

(* induction with a hypothesis for the owned form of a type; [split_owned] leaves one goal for each type but the unsized ones *)
Ltac split_owned := try (match goal with |- ?P /\ _ => enough P by (split; assumption) end);
  repeat match goal with H : _ /\ _ |- _ => destruct H end.
Lemma forall_left {A} (P Q : A -> Prop) l : Forall (fun x => P x /\ Q x) l -> Forall P l.
Proof. apply Forall_impl. tauto. Qed.

Lemma hdecode_same_all t : Same (hdecode t) (decode t) /\ Same (hdecode (owned t)) (decode (owned t)).
Proof.
  induction t using ty_ind_strong; split_owned; cbn [hdecode decode]; try apply S_plain; try (apply S_map; assumption).
  - apply S_bind; [apply S_plain|]. intros []; [apply S_map; assumption | apply S_plain].
  - apply S_bind; [apply S_plain|]. intros []; apply S_map, S_map_err; assumption.
  - apply S_map, S_fields, map_forall2. eapply forall_left, H.
  - apply S_map, S_items. assumption.
  - split; [apply S_plain | apply S_vec; assumption].
  - apply S_vec. assumption.
  - apply S_linked. assumption.
  - apply S_bind; [apply S_plain|]. intros len. destruct (n <? Z.to_nat len); [apply S_plain|]. apply S_map, S_items. assumption.
  - split; [apply S_plain | apply S_text].
  - apply S_text.
  - split; [apply S_plain | apply S_text].
  - apply S_text.
  - rewrite hdecode_owned, decode_owned. apply S_map. assumption.
  - apply S_bind; [assumption|]. intros a. apply S_map; assumption.
  - apply S_bind; [assumption|]. intros a. apply S_map; assumption.
  - apply S_bind; [apply S_plain|]. intros d. repeat (destruct (_ =? _)%Z; [first [apply S_map, S_map_err; assumption | apply S_plain]|]). apply S_plain.
  - apply S_bind; [apply S_plain|]. intros len. apply S_reserve, S_map, S_entries; assumption.
  - apply S_bind; [apply S_plain|]. intros len. apply S_reserve, S_map, S_keys; assumption.
  - apply S_map, S_fields, map_forall2. eapply forall_left, H.
  - unfold h_enum, dec_enum. destruct (discriminants _) as [ds|]; [|apply S_plain].
    apply S_bind; [apply S_plain|]. intros d. destruct (find_disc d ds 0) as [i|]; [|apply S_plain].
    rewrite !nth_error_map. destruct (nth_error vs i) as [x|] eqn:Hx; cbn [option_map]; [|apply S_plain].
    apply S_map, S_fields, map_forall2. rewrite Forall_forall in H. eapply forall_left, (H x (nth_error_In _ _ Hx)).
Qed.
Lemma hdecode_same t i : fst (hdecode t i) = decode t i.
Proof. apply (proj1 (hdecode_same_all t)). Qed.

(* ---- conservation, by any weight of values *)
Definition owners0 (t : ty) (v : val) : list val := map snd (parts false t v).
Section Balance.
  Variable f : val -> nat.
  Definition W (l : list val) : nat := list_sum (map f l).
  Definition mk (es : list event) : nat := W (made es).
  Definition gone (es : list event) : nat := W (dropped es) + W (leaked es).
  Definition own (t : ty) (v : val) : nat := W (owners0 t v).

  Lemma W_app a b : W (a ++ b) = W a + W b.
  Proof. unfold W. rewrite map_app. apply list_sum_app. Qed.
  Lemma mk_app a b : mk (a ++ b) = mk a + mk b.
  Proof. unfold mk, made. rewrite flat_map_app. apply W_app. Qed.
  Lemma gone_app a b : gone (a ++ b) = gone a + gone b.
  Proof. unfold gone, dropped, leaked. rewrite !flat_map_app, !W_app. lia. Qed.

End Balance.

Lemma flat_map_snd {A} (f g : A -> list (bool * val)) l : (forall x, map snd (f x) = map snd (g x)) ->
  map snd (flat_map f l) = map snd (flat_map g l).
Proof. intros H. induction l as [|x l IH]; cbn [flat_map]; [reflexivity|]. rewrite !map_app, H, IH. reflexivity. Qed.
Lemma fields_snd (f g : ty -> val -> list (bool * val)) ts : Forall (fun t => forall v, map snd (f t v) = map snd (g t v)) ts -> forall vs,
  map snd (flat_map (fun p => fst p (snd p)) (combine (map f ts) vs)) = map snd (flat_map (fun p => fst p (snd p)) (combine (map g ts) vs)).
Proof.
  induction 1 as [|t ts Ht _ IH]; intros [|v vs]; cbn [map combine flat_map fst snd]; try reflexivity.
  rewrite !map_app, Ht, IH. reflexivity.
Qed.
Lemma parts_snd t : forall b v, map snd (parts b t v) = owners0 t v.
Proof.
  unfold owners0. intros b0. generalize false at 1. revert b0. 
  enough (Hb : forall b b' v, map snd (parts b t v) = map snd (parts b' t v)) by (intros; apply Hb).
  induction t using ty_ind_strong; intros b0 b1 v; destruct v; cbn [parts map]; try reflexivity; auto;
    try (f_equal; apply flat_map_snd; auto; fail); try (apply flat_map_snd; auto; fail).
  - apply fields_snd. eapply Forall_impl; [|exact H]. auto.
  - destruct w; cbn [map]; first [apply IHt | f_equal; apply IHt].
  - rewrite !map_app. f_equal; auto.
  - rewrite !map_app. f_equal; auto.
  - f_equal. apply flat_map_snd. intros x. rewrite !map_app. f_equal; auto.
  - apply fields_snd. eapply Forall_impl; [|exact H]. auto.
  - rewrite !nth_error_map. destruct (nth_error vs i) as [x|] eqn:Hx; cbn [option_map]; [|reflexivity].
    apply fields_snd. rewrite Forall_forall in H. eapply Forall_impl; [|exact (H x (nth_error_In _ _ Hx))]. auto.
Qed.

Section Conservation.
  Variable f : val -> nat.
  Notation W := (W f).
  Notation mk := (mk f).
  Notation gone := (gone f).
  Notation own := (own f).

  Lemma drop_gone t v : gone (drop_value t v) = own t v /\ mk (drop_value t v) = 0.
  Proof.
    unfold drop_value, HeapProofs.own, owners0, HeapProofs.gone, HeapProofs.mk. induction (parts false t v) as [|[b x] l [IH1 IH2]]; [split; reflexivity|].
    cbn [map fst snd made dropped leaked flat_map]. unfold HeapProofs.W in *. destruct b; cbn [app map list_sum fold_right] in *; unfold dropped, leaked, made in *;
      cbn [app map list_sum fold_right] in *; unfold list_sum in *; lia.
  Qed.
  Lemma leak_gone t v : gone (leak_value t v) = own t v /\ mk (leak_value t v) = 0.
  Proof.
    unfold leak_value, HeapProofs.own, owners0, HeapProofs.gone, HeapProofs.mk. induction (parts false t v) as [|[b x] l [IH1 IH2]]; [split; reflexivity|].
    cbn [map fst snd made dropped leaked flat_map]. unfold HeapProofs.W in *. cbn [app map list_sum fold_right] in *; unfold dropped, leaked, made in *;
      cbn [app map list_sum fold_right] in *; unfold list_sum in *; lia.
  Qed.

  (* from a start with values of weight [s] at hand: on success these and the new ones are gone or in the result; on a failure the new ones are gone *)
  Definition Bal {A} (s : nat) (ow : A -> nat) (h : H A) : Prop := forall i i' r es, h i = (i', r, es) ->
    match r with Ok a => s + mk es = gone es + ow a | _ => mk es = gone es end.
  Definition Rel {A} (ow : A -> nat) (rel : A -> list event) : Prop := forall a, gone (rel a) = ow a /\ mk (rel a) = 0.

  Lemma B_plain {A} s ow (m : D A) : (forall i i' a, m i = (i', Ok a) -> ow a = s) -> Bal s ow (hplain m).
  Proof.
    intros H i i' r es. unfold hplain. intros E. injection E as E <-. cbn. destruct r as [a|e|p]; try reflexivity.
    rewrite (H _ _ _ E). lia.
  Qed.
  Lemma B_bind {A B} ow ow' rel (h : H A) (k : A -> H B) : Rel ow rel -> Bal 0 ow h -> (forall a, Bal (ow a) ow' (k a)) -> Bal 0 ow' (hbind rel h k).
  Proof.
    intros Hr Hh Hk i i' r es. unfold hbind. destruct (h i) as [[i1 r1] es1] eqn:E1. specialize (Hh _ _ _ _ E1).
    destruct r1 as [a|e|p]; [|intros E; injection E as <- <- <-; exact Hh..].
    destruct (k a i1) as [[i2 r2] es2] eqn:E2. specialize (Hk a _ _ _ _ E2). destruct (Hr a) as [Hr1 Hr2].
    destruct r2 as [b|e|p]; intros E; injection E as <- <- <-; rewrite !mk_app, !gone_app; lia.
  Qed.
  Lemma B_map {A B} s ow ow' (g : A -> B) made (h : H A) : Bal 0 ow h -> (forall a, s + ow a + mk (made a) = gone (made a) + ow' (g a)) ->
    Bal s ow' (hmap g made h).
  Proof.
    intros Hh Hg i i' r es. unfold hmap. destruct (h i) as [[i1 r1] es1] eqn:E1. specialize (Hh _ _ _ _ E1).
    destruct r1 as [a|e|p]; intros E; injection E as <- <- <-; [|exact Hh..]. rewrite mk_app, gone_app. specialize (Hg a). lia.
  Qed.
  Lemma B_map_err {A} s ow g (h : H A) : Bal s ow h -> Bal s ow (hmap_err g h).
  Proof.
    intros Hh i i' r es. unfold hmap_err. destruct (h i) as [[i1 r1] es1] eqn:E1. specialize (Hh _ _ _ _ E1).
    destruct r1 as [a|e|p]; intros E; injection E as <- <- <-; exact Hh.
  Qed.
  Lemma B_reserve {A} s ow t n (h : H A) : Bal s ow h -> Bal s ow (hreserve t n h).
  Proof.
    intros Hh i i' r es. unfold hreserve. destruct (h i) as [[i1 r1] es1] eqn:E1. specialize (Hh _ _ _ _ E1).
    intros E; injection E as <- <- <-; exact Hh.
  Qed.
  Definition zero {A} (a : A) : nat := 0.
  Lemma B_zero {A} (m : D A) : Bal 0 zero (hplain m).
  Proof. apply B_plain. reflexivity. Qed.
  Lemma R_zero {A} : Rel (@zero A) no_release.
  Proof. intros a. split; reflexivity. Qed.
  (* a header that owns nothing *)
  Lemma B_head {A B} ow' (m : D A) (k : A -> H B) : (forall a, Bal 0 ow' (k a)) -> Bal 0 ow' (hbind no_release (hplain m) k).
  Proof. intros Hk. eapply B_bind; [apply R_zero | apply B_zero | exact Hk]. Qed.
  Lemma B_same {A} ow ow' (g : A -> val) (h : H A) : Bal 0 ow h -> (forall a, ow' (g a) = ow a) -> Bal 0 ow' (same g h).
  Proof. intros Hh Hg. eapply B_map; [exact Hh|]. intros a. rewrite Hg. cbn. lia. Qed.

  Definition sum_own (t : ty) (vs : list val) : nat := list_sum (map (own t) vs).
  Lemma sum_own_flat b t vs : W (map snd (flat_map (parts b t) vs)) = sum_own t vs.
  Proof.
    induction vs as [|v vs IH]; [reflexivity|]. cbn [flat_map]. rewrite map_app, W_app, IH, parts_snd. reflexivity.
  Qed.

  Lemma B_items t rel h n : Rel (own t) rel -> Bal 0 (own t) h -> forall i, Bal 0 (sum_own t) (h_items rel h n i).
  Proof.
    intros Hr Hh. induction n as [|n IH]; intros i; cbn [h_items]; [apply B_plain; intros ? ? ? E; injection E as _ <-; reflexivity|].
    eapply B_bind; [exact Hr | apply B_map_err, Hh|]. intros x. eapply B_map; [apply IH|]. intros vs. unfold sum_own. cbn. unfold list_sum. lia.
  Qed.

  Lemma R_drop t : Rel (own t) (drop_value t).
  Proof. intros v. apply drop_gone. Qed.
  Lemma R_leak t : Rel (own t) (leak_value t).
  Proof. intros v. apply leak_gone. Qed.

  (* the weight of a vector, and of its items *)
  Lemma own_vec t vs : own (TVec t) (VSeq vs) = f (VSeq vs) + sum_own t vs.
  Proof. unfold HeapProofs.own at 1, owners0. cbn [parts map snd]. rewrite <- (sum_own_flat false). reflexivity. Qed.
  Lemma B_made {A} (ow : A -> nat) (ow' : val -> nat) (g : A -> val) h : Bal 0 ow h -> (forall a, ow' (g a) = f (g a) + ow a) ->
    Bal 0 ow' (hmap g (fun a => [Made (g a)]) h).
  Proof. intros Hh Hg. eapply B_map; [exact Hh|]. intros a. rewrite Hg. cbn. lia. Qed.
  Lemma B_vec t h : Bal 0 (own t) h -> Bal 0 (own (TVec t)) (h_vec t h).
  Proof.
    intros Hh. apply B_head. intros len. apply B_reserve. eapply B_made; [apply B_items; [apply R_leak | exact Hh]|].
    intros vs. apply own_vec.
  Qed.
  Lemma B_linked t h : Bal 0 (own t) h -> Bal 0 (own (TLinked t)) (h_linked t h).
  Proof.
    intros Hh. apply B_head. intros len. eapply B_made; [apply B_items; [apply R_drop | exact Hh]|].
    intros vs. apply own_vec.
  Qed.
  Lemma B_array t h n : Bal 0 (own t) h -> Bal 0 (own (TArray t n)) (h_array t h n).
  Proof.
    intros Hh. eapply B_map; [apply B_items; [apply R_leak | exact Hh]|].
    intros vs. unfold HeapProofs.own, owners0. cbn [parts]. rewrite sum_own_flat. cbn. lia.
  Qed.
  Lemma leaks_gone t vs : gone (flat_map (leak_value t) vs) = sum_own t vs /\ mk (flat_map (leak_value t) vs) = 0.
  Proof.
    induction vs as [|v vs [IH1 IH2]]; [split; reflexivity|]. cbn [flat_map]. rewrite gone_app, mk_app, IH1, IH2.
    destruct (leak_gone t v) as [-> ->]. split; reflexivity.
  Qed.
  Lemma drops_gone t vs : gone (flat_map (drop_value t) vs) = sum_own t vs /\ mk (flat_map (drop_value t) vs) = 0.
  Proof.
    induction vs as [|v vs [IH1 IH2]]; [split; reflexivity|]. cbn [flat_map]. rewrite gone_app, mk_app, IH1, IH2.
    destruct (drop_gone t v) as [-> ->]. split; reflexivity.
  Qed.
  Lemma sum_own_app t a b : sum_own t (a ++ b) = sum_own t a + sum_own t b.
  Proof. unfold sum_own. rewrite map_app. apply list_sum_app. Qed.
  Lemma B_sized_slice t h n : Bal 0 (own t) h -> Bal 0 (own (TSizedSlice t n)) (h_sized_slice t h n).
  Proof.
    intros Hh. apply B_head. intros len. destruct (n <? Z.to_nat len); [apply B_plain; discriminate|].
    eapply B_map; [apply B_items; [apply R_leak | exact Hh]|].
    intros vs. unfold HeapProofs.own, owners0. cbn [parts]. rewrite sum_own_flat.
    destruct (leaks_gone t (skipn (Z.to_nat len) vs)) as [-> ->].
    rewrite <- (firstn_skipn (Z.to_nat len) vs) at 1. rewrite sum_own_app. lia.
  Qed.

  (* fields *)
  Definition own_fields (ts : list ty) (vs : list val) : nat := list_sum (map (fun p => fst p (snd p)) (combine (map own ts) vs)).
  Lemma own_fields_parts b ts : forall vs, W (map snd (flat_map (fun p => fst p (snd p)) (combine (map (parts b) ts) vs))) = own_fields ts vs.
  Proof.
    induction ts as [|t ts IH]; intros [|v vs]; try reflexivity. cbn [map combine flat_map fst snd]. rewrite map_app, W_app, IH, parts_snd. reflexivity.
  Qed.
  Lemma B_fields conv ts : Forall (fun t => Bal 0 (own t) (hdecode t)) ts ->
    Bal 0 (own_fields ts) (h_fields conv (map (fun t => (drop_value t, hdecode t)) ts)).
  Proof.
    induction 1 as [|t ts Ht _ IH]; cbn [map h_fields]; [apply B_plain; intros ? ? ? E; injection E as _ <-; reflexivity|].
    eapply B_bind; [apply R_drop | apply B_map_err, Ht|]. intros x. eapply B_map; [apply IH|].
    intros vs. unfold own_fields. cbn. unfold list_sum. lia.
  Qed.

  (* maps and sets *)
  Definition own_entries (tk tv : ty) (l : list (val * val)) : nat := list_sum (map (fun p => own tk (fst p) + own tv (snd p)) l).
  Lemma own_entries_parts b tk tv l :
    W (map snd (flat_map (fun p => parts b tk (fst p) ++ parts b tv (snd p)) l)) = own_entries tk tv l.
  Proof.
    induction l as [|[x y] l IH]; [reflexivity|]. cbn [flat_map fst snd]. rewrite !map_app, !W_app, IH, !parts_snd. reflexivity.
  Qed.
  Lemma entries_gone tk tv l : gone (drop_entries tk tv l) = own_entries tk tv l /\ mk (drop_entries tk tv l) = 0.
  Proof.
    unfold drop_entries. induction l as [|[x y] l [IH1 IH2]]; [split; reflexivity|]. cbn [flat_map fst snd].
    rewrite !gone_app, !mk_app, IH1, IH2. destruct (drop_gone tk x) as [-> ->], (drop_gone tv y) as [-> ->]. split; reflexivity.
  Qed.
  Lemma insert_gone tk tv k v l : gone (insert_drops tk tv k l) + own_entries tk tv (map_insert k v l) = own_entries tk tv l + own tk k + own tv v /\
    mk (insert_drops tk tv k l) = 0.
  Proof.
    unfold own_entries. induction l as [|[x y] l [IH1 IH2]]; [cbn; lia|]. cbn [insert_drops map_insert]. destruct (val_eqb k x) eqn:E.
    - apply val_eqb_spec in E. subst x. rewrite gone_app, mk_app. destruct (drop_gone tk k) as [-> ->], (drop_gone tv y) as [-> ->].
      cbn. split; [unfold list_sum; lia | reflexivity].
    - rewrite IH2. cbn in *. unfold list_sum in *. lia.
  Qed.
  Lemma insert_key_gone tk k l : gone (insert_drops_key tk k l) + sum_own tk (set_insert k l) = sum_own tk l + own tk k /\ mk (insert_drops_key tk k l) = 0.
  Proof.
    unfold insert_drops_key, sum_own. induction l as [|x l [IH1 IH2]]; [cbn; lia|]. cbn [existsb set_insert]. destruct (val_eqb k x) eqn:E; cbn [orb].
    - apply val_eqb_spec in E. subst x. destruct (drop_gone tk k) as [-> ->]. cbn. lia.
    - rewrite IH2. cbn in *. unfold list_sum in *. lia.
  Qed.
  Lemma B_entries tk tv fk fv n : Bal 0 (own tk) fk -> Bal 0 (own tv) fv -> forall i acc,
    forall x x' r es, h_entries tk tv fk fv n i acc x = (x', r, es) ->
    match r with Ok l => own_entries tk tv acc + mk es = gone es + own_entries tk tv l | _ => own_entries tk tv acc + mk es = gone es end.
  Proof.
    intros Hk Hv. induction n as [|n IH]; intros i acc x x' r es; cbn [h_entries].
    { intros E. injection E as <- <- <-. cbn. lia. }
    destruct (hmap_err (DItem i) fk x) as [[x1 r1] es1] eqn:E1. pose proof (B_map_err (DItem i) Hk _ E1) as H1. cbn beta iota in H1.
    destruct (entries_gone tk tv acc) as [Ha1 Ha2].
    destruct r1 as [k|e|p]; [|intros E; injection E as <- <- <-; rewrite mk_app, gone_app; lia..].
    destruct (hmap_err (DItem i) fv x1) as [[x2 r2] es2] eqn:E2. pose proof (B_map_err (DItem i) Hv _ E2) as H2. cbn beta iota in H2.
    destruct (drop_gone tk k) as [Hd1 Hd2].
    destruct r2 as [v|e|p]; [|intros E; injection E as <- <- <-; rewrite !mk_app, !gone_app; lia..].
    destruct (h_entries tk tv fk fv n (S i) (map_insert k v acc) x2) as [[x3 r3] es3] eqn:E3. specialize (IH _ _ _ _ _ _ E3).
    destruct (insert_gone tk tv k v acc) as [Hi1 Hi2].
    intros E; injection E as <- <- <-. destruct r3; rewrite !mk_app, !gone_app; lia.
  Qed.
  Lemma B_keys tk fk n : Bal 0 (own tk) fk -> forall i acc,
    forall x x' r es, h_keys tk fk n i acc x = (x', r, es) ->
    match r with Ok l => sum_own tk acc + mk es = gone es + sum_own tk l | _ => sum_own tk acc + mk es = gone es end.
  Proof.
    intros Hk. induction n as [|n IH]; intros i acc x x' r es; cbn [h_keys].
    { intros E. injection E as <- <- <-. cbn. lia. }
    destruct (hmap_err (DItem i) fk x) as [[x1 r1] es1] eqn:E1. pose proof (B_map_err (DItem i) Hk _ E1) as H1. cbn beta iota in H1.
    destruct (drops_gone tk acc) as [Ha1 Ha2].
    destruct r1 as [k|e|p]; [|intros E; injection E as <- <- <-; rewrite mk_app, gone_app; lia..].
    destruct (h_keys tk fk n (S i) (set_insert k acc) x1) as [[x3 r3] es3] eqn:E3. specialize (IH _ _ _ _ _ _ E3).
    destruct (insert_key_gone tk k acc) as [Hi1 Hi2].
    intros E; injection E as <- <- <-. destruct r3; rewrite !mk_app, !gone_app; lia.
  Qed.
  Lemma B_entries_nil tk tv fk fv n : Bal 0 (own tk) fk -> Bal 0 (own tv) fv -> Bal 0 (own_entries tk tv) (h_entries tk tv fk fv n 0 []).
  Proof. intros Hk Hv i i' r es E. pose proof (@B_entries tk tv fk fv n Hk Hv 0 [] i i' r es E). destruct r; assumption. Qed.
  Lemma B_keys_nil tk fk n : Bal 0 (own tk) fk -> Bal 0 (sum_own tk) (h_keys tk fk n 0 []).
  Proof. intros Hk i i' r es E. pose proof (@B_keys tk fk n Hk 0 [] i i' r es E). destruct r; assumption. Qed.

  Lemma B_text t m : (forall v, own t v = match v with VStr _ => f v | _ => 0 end) -> (forall i i' v, m i = (i', Ok v) -> exists s, v = VStr s) ->
    Bal 0 (own t) (h_text m).
  Proof.
    intros Ht Hm i i' r es. unfold h_text, hmap, hplain. destruct (m i) as [i1 [v|e|p]] eqn:E; intros Ei; injection Ei as <- <- <-; try reflexivity.
    destruct (Hm _ _ _ E) as [s ->]. rewrite Ht. cbn. lia.
  Qed.

  Lemma B_leaf t : (forall v, parts false t v = []) -> Bal 0 (own t) (hplain (decode t)).
  Proof. intros Ht. apply B_plain. intros i i' v _. unfold HeapProofs.own, owners0. rewrite Ht. reflexivity. Qed.

  Lemma string_str i i' v : dec_string i = (i', Ok v) -> exists s, v = VStr s.
  Proof.
    unfold dec_string, dbind, dmap, dmap_err, dlift, dok. destruct (dec_usize i) as [i1 [len|e|p]]; try discriminate.
    destruct (dread _ i1) as [i2 [bs|e|p]]; try discriminate. destruct (check_utf8 bs); cbn; try discriminate.
    intros E. injection E as _ <-. eauto.
  Qed.
  Lemma cstring_str i i' v : dec_cstring i = (i', Ok v) -> exists s, v = VStr s.
  Proof.
    unfold dec_cstring, dbind, derror, dok. destruct (dec_usize i) as [i1 [len|e|p]]; try discriminate.
    destruct (dread _ i1) as [i2 [bs|e|p]]; try discriminate. destruct (find_null 0 bs); cbn; try discriminate.
    intros E. injection E as _ <-. eauto.
  Qed.
  Lemma own_string t v : t = TString \/ t = TCString -> own t v = match v with VStr _ => f v | _ => 0 end.
  Proof. intros [-> | ->]; destruct v; cbn; try reflexivity; apply Nat.add_0_r. Qed.

  Lemma own_owned b v : own (owned b) v = own b v.
  Proof. destruct b; reflexivity. Qed.

  Lemma balance_all t : Bal 0 (own t) (hdecode t) /\ Bal 0 (own (owned t)) (hdecode (owned t)).
  Proof.
    induction t using ty_ind_strong; split_owned; cbn [hdecode]; try (apply B_leaf; intros []; reflexivity);
      try (split; [apply B_plain; discriminate|]); try (eapply B_same; [eassumption|]; reflexivity).
    - apply B_head. intros []; [eapply B_same; [eassumption|]; reflexivity | apply B_plain; intros ? ? ? E; injection E as _ <-; reflexivity].
    - apply B_head. intros []; (eapply B_same; [apply B_map_err; eassumption|]; reflexivity).
    - eapply B_same; [apply B_fields; eapply forall_left, H|]. intros vs. apply own_fields_parts.
    - apply B_array. assumption.
    - apply B_vec. assumption.
    - apply B_vec. assumption.
    - apply B_linked. assumption.
    - apply B_sized_slice. assumption.
    - apply B_text; [intros v; apply own_string; auto | exact string_str].
    - apply B_text; [intros v; apply own_string; auto | exact string_str].
    - apply B_text; [intros v; apply own_string; auto | exact cstring_str].
    - apply B_text; [intros v; apply own_string; auto | exact cstring_str].
    - eapply B_map; [eassumption|]. intros v. destruct w; cbn; unfold HeapProofs.own, owners0, HeapProofs.W; cbn; unfold list_sum; lia.
    - rewrite hdecode_owned. eapply B_same; [eassumption|]. intros v. rewrite own_owned. reflexivity.
    - eapply B_bind; [apply R_drop | eassumption|]. intros a. eapply B_map; [eassumption|]. intros b.
      unfold HeapProofs.own, owners0. cbn [parts]. rewrite map_app, W_app. cbn. lia.
    - eapply B_bind; [apply R_drop | eassumption|]. intros a. eapply B_map; [eassumption|]. intros b.
      unfold HeapProofs.own, owners0. cbn [parts]. rewrite map_app, W_app. cbn. lia.
    - apply B_head. intros d. destruct (d =? 0)%Z; [eapply B_same; [apply B_map_err; eassumption|]; reflexivity|].
      destruct (d =? 1)%Z; [eapply B_same; [apply B_map_err; eassumption|]; reflexivity|].
      destruct (d =? 2)%Z; [apply B_plain; intros ? ? ? E; injection E as _ <-; reflexivity | apply B_plain; discriminate].
    - apply B_head. intros len. apply B_reserve. eapply B_made; [apply B_entries_nil; eassumption|].
      intros l. unfold HeapProofs.own at 1, owners0. cbn [parts map snd]. rewrite <- (own_entries_parts false). reflexivity.
    - apply B_head. intros len. apply B_reserve. eapply B_made; [apply B_keys_nil; eassumption|].
      intros l. unfold HeapProofs.own at 1, owners0. cbn [parts map snd]. rewrite <- (sum_own_flat false). reflexivity.
    - eapply B_same; [apply B_fields; eapply forall_left, H|]. intros vs. apply own_fields_parts.
    - unfold h_enum. destruct (discriminants _) as [ds|]; [|apply B_plain; discriminate].
      apply B_head. intros d. destruct (find_disc d ds 0) as [i|]; [|apply B_plain; discriminate].
      rewrite nth_error_map. destruct (nth_error vs i) as [x|] eqn:Hx; cbn [option_map]; [|apply B_plain; discriminate].
      rewrite Forall_forall in H. eapply B_same; [apply B_fields; eapply forall_left, (H x (nth_error_In _ _ Hx))|].
      intros fs. unfold HeapProofs.own at 1, owners0. cbn [parts]. rewrite nth_error_map, Hx. cbn [option_map]. apply own_fields_parts.
  Qed.
End Conservation.

Lemma count_weight x l : count_occ val_eq_dec l x = W (fun y => if val_eq_dec y x then 1 else 0) l.
Proof. unfold W. induction l as [|y l IH]; [reflexivity|]. cbn. unfold list_sum in IH. destruct (val_eq_dec y x); rewrite IH; reflexivity. Qed.

Lemma C76_lemma0 t i i' r es : hdecode t i = (i', r, es) ->
  Permutation (made es) (dropped es ++ leaked es ++ match r with Ok v => owners0 t v | _ => [] end).
Proof.
  intros E. apply (Permutation_count_occ val_eq_dec). intros x. rewrite !count_occ_app, !count_weight.
  pose proof (proj1 (balance_all (fun y => if val_eq_dec y x then 1 else 0) t) i i' r es E) as H.
  unfold mk, gone, own in H. destruct r; cbn [W map list_sum fold_right] in *; [lia| |]; change (W _ []) with 0; lia.
Qed.

(* the specification's owners are the model's parts *)
Lemma map_flat_map {A B C} (g : B -> C) (h : A -> list B) (h' : A -> list C) l : (forall x, map g (h x) = h' x) -> map g (flat_map h l) = flat_map h' l.
Proof. intros H. induction l as [|x l IH]; [reflexivity|]. cbn [flat_map]. rewrite map_app, H, IH. reflexivity. Qed.
Lemma map_fields ts : Forall (fun t => forall v, map snd (parts false t v) = owners t v) ts -> forall vs,
  map snd (flat_map (fun p => fst p (snd p)) (combine (map (parts false) ts) vs)) = flat_map (fun p => fst p (snd p)) (combine (map owners ts) vs).
Proof. induction 1 as [|t ts Ht _ IH]; intros [|v vs]; cbn; try reflexivity. rewrite map_app, Ht, IH. reflexivity. Qed.
Lemma owners_parts t : forall v, owners0 t v = owners t v.
Proof.
  unfold owners0. induction t using ty_ind_strong; intros v; destruct v; cbn [parts owners map]; try reflexivity; try (destruct w; reflexivity); auto;
    try (f_equal; apply map_flat_map; auto; fail); try (apply map_flat_map; auto; fail).
  - apply map_fields. exact H.
  - apply map_flat_map. intros x. rewrite <- IHt. apply parts_snd.
  - destruct w; cbn [map snd]; first [apply IHt | f_equal; apply IHt].
  - rewrite map_app. f_equal; auto.
  - rewrite map_app. f_equal; auto.
  - f_equal. apply map_flat_map. intros x. rewrite map_app. f_equal; auto.
  - apply map_fields. exact H.
  - rewrite !nth_error_map. destruct (nth_error vs i) as [x|] eqn:Hx; cbn [option_map]; [|reflexivity].
    apply map_fields. rewrite Forall_forall in H. exact (H x (nth_error_In _ _ Hx)).
Qed.
Lemma C76_lemma t i i' r es : hdecode t i = (i', r, es) ->
  Permutation (made es) (dropped es ++ leaked es ++ match r with Ok v => owners t v | _ => [] end).
Proof.
  intros E. apply C76_lemma0 in E. destruct r as [v|e|p]; [rewrite <- owners_parts|..]; exact E.
Qed.

(* ---- which types leak nothing *)
Lemma flat_map_nil {A B} (g : A -> list B) l : (forall x, g x = []) -> flat_map g l = [].
Proof. intros H. induction l as [|x l IH]; cbn; [reflexivity|]. rewrite H, IH. reflexivity. Qed.
Lemma fields_nil (g : ty -> val -> list (bool * val)) ts : Forall (fun t => forall v, g t v = []) ts -> forall vs,
  flat_map (fun p => fst p (snd p)) (combine (map g ts) vs) = [].
Proof. induction 1 as [|t ts Ht _ IH]; intros [|v vs]; cbn; try reflexivity. rewrite Ht, IH. reflexivity. Qed.
Lemma existsb_false {A} (p : A -> bool) l : existsb p l = false -> Forall (fun x => p x = false) l.
Proof. induction l as [|x l IH]; cbn; [constructor|]. intros H. apply orb_false_iff in H. constructor; tauto. Qed.
Lemma forall_use {A} (P Q : A -> Prop) l : Forall (fun x => P x -> Q x) l -> Forall P l -> Forall Q l.
Proof. rewrite !Forall_forall. auto. Qed.
Arguments forall_use {A P Q l} _ _.

Ltac falses := rewrite ?orb_false_l in *; repeat match goal with
  | E : false = false |- _ => clear E
  | E : _ || _ = false |- _ => apply orb_false_iff in E; destruct E
  | E : existsb _ _ = false |- _ => apply existsb_false in E; let Hx := fresh "Hall" in rename E into Hx
  end.

Lemma owns_nothing t : owns t = false -> forall b v, parts b t v = [].
Proof.
  unfold owns. induction t using ty_ind_strong; intros Ho b0 v; cbn [contains is_owner] in Ho; falses; try discriminate;
    destruct v; cbn [parts]; try reflexivity; auto; try (apply flat_map_nil; auto; fail).
  - apply fields_nil. eapply Forall_impl; [|exact (forall_use H Hall)]. auto.
  - destruct w; try discriminate; auto.
  - rewrite IHt, IHt; auto.
  - rewrite IHt, IHt; auto.
  - apply fields_nil. eapply Forall_impl; [|exact (forall_use H Hall)]. auto.
  - rewrite nth_error_map. destruct (nth_error vs i) as [x|] eqn:Hx; cbn [option_map]; [|reflexivity].
    rewrite Forall_forall in H, Hall. pose proof (nth_error_In _ _ Hx) as Hi.
    apply fields_nil. eapply Forall_impl; [|exact (forall_use (H x Hi) (existsb_false _ _ (Hall x Hi)))]. auto.
Qed.

Definition kept (l : list (bool * val)) : Prop := Forall (fun p => fst p = false) l.
Lemma kept_app a b : kept a -> kept b -> kept (a ++ b).
Proof. intros. apply Forall_app. auto. Qed.
Lemma kept_flat {A} (g : A -> list (bool * val)) l : (forall x, kept (g x)) -> kept (flat_map g l).
Proof. intros H. induction l as [|x l IH]; cbn; [constructor|]. apply kept_app; auto. Qed.
Lemma kept_fields (g : ty -> val -> list (bool * val)) ts : Forall (fun t => forall v, kept (g t v)) ts -> forall vs,
  kept (flat_map (fun p => fst p (snd p)) (combine (map g ts) vs)).
Proof. induction 1 as [|t ts Ht _ IH]; intros [|v vs]; cbn; try constructor. apply kept_app; [apply Ht | apply IH]. Qed.

Lemma leaky_kept t : contains leaky t = false -> forall v, kept (parts false t v).
Proof.
  induction t using ty_ind_strong; intros Ho v; cbn [contains leaky] in Ho; falses;
    destruct v; cbn [parts]; try constructor; auto; try (apply kept_flat; auto; fail).
  - apply kept_fields. exact (forall_use H Hall).
  - apply kept_flat. intros x. rewrite owns_nothing by assumption. constructor.
  - destruct w; try (constructor; [reflexivity|]); apply IHt; assumption.
  - apply kept_app; auto.
  - apply kept_app; auto.
  - apply kept_flat. intros x. apply kept_app; auto.
  - apply kept_fields. exact (forall_use H Hall).
  - rewrite nth_error_map. destruct (nth_error vs i) as [x|] eqn:Hx; cbn [option_map]; [|constructor].
    rewrite Forall_forall in H, Hall. pose proof (nth_error_In _ _ Hx) as Hi.
    apply kept_fields. exact (forall_use (H x Hi) (existsb_false _ _ (Hall x Hi))).
Qed.

Lemma leaked_app a b : leaked (a ++ b) = leaked a ++ leaked b.
Proof. apply flat_map_app. Qed.
Lemma leaked_drop t v : contains leaky t = false -> leaked (drop_value t v) = [].
Proof.
  intros Ht. pose proof (leaky_kept t Ht v) as Hk. unfold drop_value. induction Hk as [|[b x] l Hb _ IH]; [reflexivity|].
  cbn [fst] in Hb. subst b. exact IH.
Qed.
Lemma leaked_leak t v : owns t = false -> leaked (leak_value t v) = [].
Proof. intros Ht. unfold leak_value. rewrite owns_nothing by assumption. reflexivity. Qed.

Definition NoLeak {A} (h : H A) : Prop := forall i i' r es, h i = (i', r, es) -> leaked es = [].
Definition Frees {A} (rel : A -> list event) : Prop := forall a, leaked (rel a) = [].

Lemma NL_plain {A} (m : D A) : NoLeak (hplain m).
Proof. intros i i' r es. unfold hplain. intros E. injection E as _ <-. reflexivity. Qed.
Lemma NL_bind {A B} rel (h : H A) (k : A -> H B) : Frees rel -> NoLeak h -> (forall a, NoLeak (k a)) -> NoLeak (hbind rel h k).
Proof.
  intros Hr Hh Hk i i' r es. unfold hbind. destruct (h i) as [[i1 r1] es1] eqn:E1. apply Hh in E1.
  destruct r1 as [a|e|p]; [|intros E; injection E as <- <- <-; exact E1..].
  destruct (k a i1) as [[i2 r2] es2] eqn:E2. apply Hk in E2. specialize (Hr a).
  destruct r2 as [b|e|p]; intros E; injection E as <- <- <-; rewrite !leaked_app, E1, E2, ?Hr; reflexivity.
Qed.
Lemma NL_map {A B} (g : A -> B) made (h : H A) : NoLeak h -> Frees made -> NoLeak (hmap g made h).
Proof.
  intros Hh Hg i i' r es. unfold hmap. destruct (h i) as [[i1 r1] es1] eqn:E1. apply Hh in E1.
  destruct r1 as [a|e|p]; intros E; injection E as <- <- <-; [|exact E1..]. rewrite leaked_app, E1, Hg. reflexivity.
Qed.
Lemma NL_map_err {A} g (h : H A) : NoLeak h -> NoLeak (hmap_err g h).
Proof.
  intros Hh i i' r es. unfold hmap_err. destruct (h i) as [[i1 r1] es1] eqn:E1. apply Hh in E1.
  destruct r1 as [a|e|p]; intros E; injection E as <- <- <-; exact E1.
Qed.
Lemma NL_reserve {A} t n (h : H A) : NoLeak h -> NoLeak (hreserve t n h).
Proof.
  intros Hh i i' r es. unfold hreserve. destruct (h i) as [[i1 r1] es1] eqn:E1. apply Hh in E1. intros E; injection E as <- <- <-; exact E1.
Qed.
Lemma F_nil {A} : Frees (fun _ : A => []).
Proof. intros a. reflexivity. Qed.
Lemma NL_same {A} (g : A -> val) h : NoLeak h -> NoLeak (same g h).
Proof. intros Hh. apply NL_map; [exact Hh | apply F_nil]. Qed.
Lemma NL_head {A B} (m : D A) (k : A -> H B) : (forall a, NoLeak (k a)) -> NoLeak (hbind no_release (hplain m) k).
Proof. intros Hk. apply NL_bind; [apply F_nil | apply NL_plain | exact Hk]. Qed.
Lemma NL_items rel h n : Frees rel -> NoLeak h -> forall i, NoLeak (h_items rel h n i).
Proof.
  intros Hr Hh. induction n as [|n IH]; intros i; cbn [h_items]; [apply NL_plain|].
  apply NL_bind; [exact Hr | apply NL_map_err, Hh|]. intros x. apply NL_map; [apply IH | apply F_nil].
Qed.
Lemma NL_fields conv ts : Forall (fun t => contains leaky t = false) ts -> Forall (fun t => NoLeak (hdecode t)) ts ->
  NoLeak (h_fields conv (map (fun t => (drop_value t, hdecode t)) ts)).
Proof.
  intros Hl. induction 1 as [|t ts Ht _ IH]; cbn [map h_fields]; [apply NL_plain|]. inversion_clear Hl.
  apply NL_bind; [intros v; apply leaked_drop; assumption | apply NL_map_err, Ht|]. intros x. apply NL_map; [auto | apply F_nil].
Qed.
Lemma leaked_entries tk tv l : contains leaky tk = false -> contains leaky tv = false -> leaked (drop_entries tk tv l) = [].
Proof.
  intros Hk Hv. unfold drop_entries. induction l as [|[x y] l IH]; [reflexivity|]. cbn [flat_map fst snd].
  rewrite !leaked_app, IH, !leaked_drop by assumption. reflexivity.
Qed.
Lemma leaked_insert tk tv k l : contains leaky tk = false -> contains leaky tv = false -> leaked (insert_drops tk tv k l) = [].
Proof.
  intros Hk Hv. induction l as [|[x y] l IH]; [reflexivity|]. cbn [insert_drops]. destruct (val_eqb k x); [|exact IH].
  rewrite !leaked_app, !leaked_drop by assumption. reflexivity.
Qed.
Lemma leaked_drops tk l : contains leaky tk = false -> leaked (flat_map (drop_value tk) l) = [].
Proof. intros Hk. induction l as [|x l IH]; [reflexivity|]. cbn [flat_map]. rewrite leaked_app, IH, leaked_drop by assumption. reflexivity. Qed.
Lemma NL_entries tk tv fk fv n : contains leaky tk = false -> contains leaky tv = false -> NoLeak fk -> NoLeak fv ->
  forall i acc, NoLeak (h_entries tk tv fk fv n i acc).
Proof.
  intros Hk Hv Fk Fv. induction n as [|n IH]; intros i acc x x' r es; cbn [h_entries].
  { intros E. injection E as <- <- <-. reflexivity. }
  destruct (hmap_err (DItem i) fk x) as [[x1 r1] es1] eqn:E1. apply (NL_map_err (DItem i) Fk) in E1.
  destruct r1 as [k|e|p]; [|intros E; injection E as <- <- <-; rewrite leaked_app, E1, leaked_entries by assumption; reflexivity..].
  destruct (hmap_err (DItem i) fv x1) as [[x2 r2] es2] eqn:E2. apply (NL_map_err (DItem i) Fv) in E2.
  destruct r2 as [v|e|p]; [|intros E; injection E as <- <- <-; rewrite !leaked_app, E1, E2, leaked_drop, leaked_entries by assumption; reflexivity..].
  destruct (h_entries tk tv fk fv n (S i) (map_insert k v acc) x2) as [[x3 r3] es3] eqn:E3. apply IH in E3.
  intros E; injection E as <- <- <-. rewrite !leaked_app, E1, E2, E3, leaked_insert by assumption. reflexivity.
Qed.
Lemma NL_keys tk fk n : contains leaky tk = false -> NoLeak fk -> forall i acc, NoLeak (h_keys tk fk n i acc).
Proof.
  intros Hk Fk. induction n as [|n IH]; intros i acc x x' r es; cbn [h_keys].
  { intros E. injection E as <- <- <-. reflexivity. }
  destruct (hmap_err (DItem i) fk x) as [[x1 r1] es1] eqn:E1. apply (NL_map_err (DItem i) Fk) in E1.
  destruct r1 as [k|e|p]; [|intros E; injection E as <- <- <-; rewrite leaked_app, E1, leaked_drops by assumption; reflexivity..].
  destruct (h_keys tk fk n (S i) (set_insert k acc) x1) as [[x3 r3] es3] eqn:E3. apply IH in E3.
  intros E; injection E as <- <- <-. rewrite !leaked_app, E1, E3. unfold insert_drops_key.
  destruct (existsb _ _); rewrite ?leaked_drop by assumption; reflexivity.
Qed.
Lemma NL_vec t h : owns t = false -> NoLeak h -> NoLeak (h_vec t h).
Proof.
  intros Ho Hh. apply NL_head. intros len. apply NL_reserve, NL_map; [|intros v; reflexivity].
  apply NL_items; [intros v; apply leaked_leak; exact Ho | exact Hh].
Qed.
Lemma NL_text m : NoLeak (h_text m).
Proof. apply NL_map; [apply NL_plain | intros v; reflexivity]. Qed.

Lemma no_leak_all t : contains leaky t = false -> NoLeak (hdecode t) /\ NoLeak (hdecode (owned t)).
Proof.
  induction t using ty_ind_strong; intros Hl; cbn [contains leaky] in Hl; falses;
    repeat match goal with H : ?c = false -> _, H' : ?c = false |- _ => specialize (H H') end;
    split_owned; cbn [hdecode];
    try (split; [apply NL_plain|]); try apply NL_plain; try (apply NL_same; assumption); try apply NL_text; try (apply NL_vec; assumption).
  - apply NL_head. intros []; [apply NL_same; assumption | apply NL_plain].
  - apply NL_head. intros []; apply NL_same, NL_map_err; assumption.
  - apply NL_same, NL_fields; [exact Hall|]. eapply forall_left, (forall_use H), Hall.
  - apply NL_map; [|apply F_nil]. apply NL_items; [intros v; apply leaked_leak; assumption | assumption].
  - apply NL_head. intros len. apply NL_map; [|intros v; reflexivity]. apply NL_items; [intros v; apply leaked_drop; assumption | assumption].
  - apply NL_head. intros len. destruct (n <? Z.to_nat len); [apply NL_plain|].
    apply NL_map; [apply NL_items; [intros v; apply leaked_leak; assumption | assumption]|].
    intros vs. induction (skipn (Z.to_nat len) vs) as [|x l IH]; [reflexivity|]. cbn [flat_map]. rewrite leaked_app, IH, leaked_leak by assumption. reflexivity.
  - apply NL_map; [assumption|]. intros v. destruct w; reflexivity.
  - rewrite hdecode_owned. apply NL_same. assumption.
  - apply NL_bind; [intros v; apply leaked_drop; assumption | assumption|]. intros a. apply NL_same. assumption.
  - apply NL_bind; [intros v; apply leaked_drop; assumption | assumption|]. intros a. apply NL_same. assumption.
  - apply NL_head. intros d. repeat (destruct (_ =? _)%Z; [first [apply NL_same, NL_map_err; assumption | apply NL_plain]|]). apply NL_plain.
  - apply NL_head. intros len. apply NL_reserve, NL_map; [apply NL_entries; assumption | intros v; reflexivity].
  - apply NL_head. intros len. apply NL_reserve, NL_map; [apply NL_keys; assumption | intros v; reflexivity].
  - apply NL_same, NL_fields; [exact Hall|]. eapply forall_left, (forall_use H), Hall.
  - unfold h_enum. destruct (discriminants _) as [ds|]; [|apply NL_plain].
    apply NL_head. intros d. destruct (find_disc d ds 0) as [i|]; [|apply NL_plain].
    rewrite nth_error_map. destruct (nth_error vs i) as [x|] eqn:Hx; cbn [option_map]; [|apply NL_plain].
    rewrite Forall_forall in H, Hall. pose proof (nth_error_In _ _ Hx) as Hi. pose proof (existsb_false _ _ (Hall x Hi)) as Hf.
    apply NL_same, NL_fields; [exact Hf|]. eapply forall_left, (forall_use (H x Hi)), Hf.
Qed.

Lemma C76_no_leak_lemma t i i' r es : contains leaky t = false -> hdecode t i = (i', r, es) -> leaked es = [].
Proof. intros Hl E. exact (proj1 (no_leak_all t Hl) _ _ _ _ E). Qed.
