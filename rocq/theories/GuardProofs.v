(* C126. *)
From Coq Require Import Lia.
From Verif Require Import Base Streams Utf8 Types TypesFacts Encode SpecLazy Guards SpecGuards.

Definition panics (r : res eerr unit) : bool := match r with Panic _ => true | _ => false end.
Definition NoLoop (g : cells) : Prop := forall a t, ~ LockIn true g a t (g_val (g a)).

Section Fine.
  Variable g0 : cells.
  Definition Like (g : cells) : Prop := forall a, g_val (g a) = g_val (g0 a) /\ g_borrowed (g a) = g_borrowed (g0 a).

  (* [p] does to the output what [m] does and leaves the cells as they are; the cells in [L false] may get poisoned, those in [L true] may be waited for *)
  Definition Fine (L : bool -> Z -> Prop) (p : G) (m : E) : Prop := forall g o, Like g ->
    match p g o with
    | (g1, o1, Ends r) => m o = (o1, r) /\ (forall a, Unpoisoned (g1 a) = Unpoisoned (g a)) /\
        forall a, g_poison (g1 a) = g_poison (g a) \/ (panics r = true /\ L false a /\ g_poison (g1 a) = true)
    | (_, _, Waits) => NoLoop g0 -> exists a, L true a /\ g_locked (g a) = true
    end.

  Lemma unp_val x y : Unpoisoned x = Unpoisoned y -> g_val x = g_val y /\ g_borrowed x = g_borrowed y /\ g_readers x = g_readers y /\ g_locked x = g_locked y.
  Proof. unfold Unpoisoned. intros H. inversion H. auto. Qed.
  Lemma like_unp g g1 : Like g -> (forall a, Unpoisoned (g1 a) = Unpoisoned (g a)) -> Like g1.
  Proof. intros H H1 a. destruct (unp_val _ _ (H1 a)) as (E1 & E2 & _). destruct (H a). split; congruence. Qed.

  Lemma fine_impl (L L' : bool -> Z -> Prop) p m : (forall b a, L b a -> L' b a) -> Fine L p m -> Fine L' p m.
  Proof.
    intros Hi H g o Hl. specialize (H g o Hl). destruct (p g o) as [[g1 o1] [r|]].
    - destruct H as (H1 & H2 & H3). split; [exact H1|]. split; [exact H2|]. intros a. destruct (H3 a) as [E|(E1 & E2 & E3)]; auto.
    - intros Hn. destruct (H Hn) as (a & Ha & E). eauto.
  Qed.
  Lemma fine_do L m : Fine L (gdo m) m.
  Proof. intros g o _. unfold gdo. destruct (m o) as [o1 r]. auto. Qed.
  Lemma fine_seq L p q m n : Fine L p m -> Fine L q n -> Fine L (gseq p q) (eseq m n).
  Proof.
    intros Hp Hq g o Hl. specialize (Hp g o Hl). unfold gseq, eseq. destruct (p g o) as [[g1 o1] [r|]]; [|exact Hp].
    destruct Hp as (E & H2 & H3). rewrite E. destruct r as [u|e|x]; [|split; [reflexivity|]; auto..].
    specialize (Hq g1 o1 (@like_unp _ _ Hl H2)). destruct (q g1 o1) as [[g2 o2] [r|]].
    - destruct Hq as (E' & H4 & H5). split; [exact E'|]. split; [intros a; rewrite H4; apply H2|]. intros a.
      destruct (H5 a) as [E5|E5]; [|right; exact E5]. destruct (H3 a) as [E6|(E6 & _)]; [left; congruence | discriminate].
    - intros Hn. destruct (Hq Hn) as (a & Ha & Eq). exists a. split; [exact Ha|]. destruct (unp_val _ _ (H2 a)) as (_ & _ & _ & E7). congruence.
  Qed.
  Lemma fine_map f L p m : Fine L p m -> Fine L (gmap_err f p) (emap_err f m).
  Proof.
    intros Hp g o Hl. specialize (Hp g o Hl). unfold gmap_err, emap_err. destruct (p g o) as [[g1 o1] [r|]]; [|exact Hp].
    destruct Hp as (E & H2 & H3). rewrite E. destruct r as [u|e|x]; (split; [reflexivity|]; split; [exact H2 | exact H3]).
  Qed.

  Lemma fine_items f (g : val -> E) (h : val -> val) (L : bool -> Z -> val -> Prop) wrap vs : (forall x, Fine (fun b c => L b c x) (f x) (g (h x))) ->
    forall i, Fine (fun b c => Exists (L b c) vs) (g_items f wrap i vs) (enc_items g wrap i (map h vs)).
  Proof.
    intros H. induction vs as [|x vs IH]; intros i; cbn [g_items enc_items map]; [apply fine_do|].
    apply fine_seq; [apply fine_map; eapply fine_impl; [|apply H]; intros; left; assumption | eapply fine_impl; [|apply IH]; intros; right; assumption].
  Qed.
  Lemma fine_slice f (g : val -> E) (h : val -> val) (L : bool -> Z -> val -> Prop) wrap vs : (forall x, Fine (fun b c => L b c x) (f x) (g (h x))) ->
    Fine (fun b c => Exists (L b c) vs) (g_slice f wrap vs) (enc_slice g wrap (map h vs)).
  Proof. intros H. unfold g_slice, enc_slice. rewrite List.map_length. apply fine_seq; [apply fine_do | apply fine_items, H]. Qed.
  Lemma fine_keys f (g : val -> E) (h : val -> val) (L : bool -> Z -> val -> Prop) vs : (forall x, Fine (fun b c => L b c x) (f x) (g (h x))) ->
    Fine (fun b c => Exists (L b c) vs) (g_keys f vs) (enc_keys g (map h vs)).
  Proof.
    intros H. induction vs as [|x vs IH]; cbn [g_keys enc_keys map]; [apply fine_do|].
    apply fine_seq; [eapply fine_impl; [|apply H]; intros; left; assumption | eapply fine_impl; [|apply IH]; intros; right; assumption].
  Qed.
  Lemma fine_entries f (g : val -> E) (h : val -> val) f' (g' : val -> E) (h' : val -> val) (L L' : bool -> Z -> val -> Prop) vs :
    (forall x, Fine (fun b c => L b c x) (f x) (g (h x))) -> (forall x, Fine (fun b c => L' b c x) (f' x) (g' (h' x))) ->
    Fine (fun b c => Exists (fun p => L b c (fst p) \/ L' b c (snd p)) vs) (g_entries f f' vs) (enc_entries g g' (map (fun p => (h (fst p), h' (snd p))) vs)).
  Proof.
    intros H H'. induction vs as [|[x y] vs IH]; cbn [g_entries enc_entries map fst snd]; [apply fine_do|].
    apply fine_seq; [eapply fine_impl; [|apply H]; intros; left; left; assumption|].
    apply fine_seq; [eapply fine_impl; [|apply H']; intros; left; right; assumption | eapply fine_impl; [|apply IH]; intros; right; assumption].
  Qed.
  Definition good ch t := forall v, Fine (fun b c => LockIn b g0 c t v) (guard_encode ch t v) (encode ch t (shown g0 t v)).
  Lemma fine_fields ch ts conv : Forall (good ch) ts ->
    forall vs, Fine (fun b c => Some_of (map (LockIn b g0 c) ts) vs) (g_fields (map (guard_encode ch) ts) conv vs) (enc_fields (map (encode ch) ts) conv (each (map (shown g0) ts) vs)).
  Proof.
    induction 1 as [|t ts Ht _ IH]; intros [|v vs]; cbn [map g_fields enc_fields each Some_of]; try apply fine_do.
    apply fine_seq; [apply fine_map; eapply fine_impl; [|apply Ht]; intros; left; assumption | eapply fine_impl; [|apply IH]; intros; right; assumption].
  Qed.

  Lemma put_same a x g : put a x g a = x.
  Proof. unfold put. rewrite Z.eqb_refl. reflexivity. Qed.
  Lemma put_other a x g b : b <> a -> put a x g b = g b.
  Proof. intros H. unfold put. destruct (Z.eqb_spec b a); [contradiction | reflexivity]. Qed.

  Lemma fine_read L a f m : Fine L (f (g_val (g0 a))) m -> Fine L (g_read a f) m.
  Proof.
    intros H g o Hl. unfold g_read. rewrite (proj1 (Hl a)).
    assert (Hm : Like (more_readers a g)).
    { intros b. unfold more_readers. destruct (Z.eq_dec b a) as [->|Hne]; [rewrite put_same; apply Hl | rewrite put_other by exact Hne; apply Hl]. }
    specialize (H _ o Hm). destruct (f (g_val (g0 a)) (more_readers a g) o) as [[g1 o1] [r|]].
    - destruct H as (E & H2 & H3). split; [exact E|]. split; intros b; specialize (H2 b); specialize (H3 b); unfold more_readers, less_readers in *;
        (destruct (Z.eq_dec b a) as [->|Hne]; [rewrite ?put_same in *|rewrite ?put_other in * by exact Hne; assumption]).
      + unfold Unpoisoned in *. cbn in *. inversion H2 as [[A1 A2 A3 A4]]. rewrite ?A1, ?A2, ?A3, ?A4. cbn. congruence.
      + exact H3.
    - intros Hn. destruct (H Hn) as (b & Hb & E). exists b. split; [exact Hb|]. unfold more_readers in E.
      destruct (Z.eq_dec b a) as [->|Hne]; [rewrite put_same in E; exact E | rewrite put_other in E by exact Hne; exact E].
  Qed.

  Lemma fine_rwlock ch t p a : good ch t ->
    Fine (fun b c => LockIn b g0 c (TLock RwLock t) (VLock p (VInt a))) (g_rwlock a (guard_encode ch t)) (encode ch t (shown g0 t (g_val (g0 a)))).
  Proof.
    intros Ht g o Hl. unfold g_rwlock. destruct (g_locked (g a)) eqn:E.
    - intros _. exists a. split; [cbn; left; auto | exact E].
    - apply (@fine_read (fun b c => LockIn b g0 c (TLock RwLock t) (VLock p (VInt a))) a); [|exact Hl].
      eapply fine_impl; [|apply Ht]. intros b c H. cbn. right. exact H.
  Qed.

  Lemma fine_mutex ch t p a : good ch t ->
    Fine (fun b c => LockIn b g0 c (TLock Mutex t) (VLock p (VInt a))) (g_mutex a (guard_encode ch t)) (encode ch t (shown g0 t (g_val (g0 a)))).
  Proof.
    intros Ht g o Hl. unfold g_mutex. destruct (g_locked (g a)) eqn:E; [intros _; exists a; split; [cbn; left; auto | exact E]|].
    rewrite (proj1 (Hl a)).
    assert (Hm : Like (acquire a g)).
    { intros b. unfold acquire. destruct (Z.eq_dec b a) as [->|Hne]; [rewrite put_same; apply Hl | rewrite put_other by exact Hne; apply Hl]. }
    specialize (Ht (g_val (g0 a)) _ o Hm). destruct (guard_encode ch t (g_val (g0 a)) (acquire a g) o) as [[g1 o1] [r|]].
    - destruct Ht as (E1 & H2 & H3). split; [exact E1|]. split; intros b; specialize (H2 b); specialize (H3 b); unfold acquire, release in *;
        (destruct (Z.eq_dec b a) as [->|Hne]; [rewrite ?put_same in *|rewrite ?put_other in * by exact Hne]).
      + unfold Unpoisoned in *. cbn in *. inversion H2 as [[A1 A2 A3 A4]]. rewrite ?A1, ?A2, ?A3, ?A4. cbn. congruence.
      + assumption.
      + cbn in *. change (match r with Panic _ => true | _ => false end) with (panics r). destruct (panics r); [right; split; [reflexivity|]; split; [left; reflexivity | apply Bool.orb_true_r]|].
        rewrite Bool.orb_false_r. destruct H3 as [H3|(H3 & _)]; [left; exact H3 | discriminate].
      + destruct H3 as [H3|(H3 & H4 & H5)]; [left; exact H3 | right]. split; [exact H3|]. split; [cbn; right; exact H4 | exact H5].
    - intros Hn. destruct (Ht Hn) as (b & Hb & E1). exists b. unfold acquire in E1. destruct (Z.eq_dec b a) as [->|Hne].
      + exfalso. exact (Hn _ _ Hb).
      + rewrite put_other in E1 by exact Hne. split; [cbn; right; exact Hb | exact E1].
  Qed.

  Lemma guard_fine ch t : good ch t.
  Proof.
    induction t using ty_ind_strong; intros v0; destruct v0; cbn [guard_encode shown LockIn]; try apply fine_do; cbn [encode].
    all: try (apply fine_seq; [apply fine_do | first [apply IHt | apply IHt1 | apply fine_map; first [apply IHt | apply IHt2]]]).
    all: try (apply fine_fields; assumption).
    all: try (apply (fine_items _ _ _ (fun b c x => LockIn b g0 c t x)); exact IHt).
    all: try (apply (fine_slice _ _ _ (fun b c x => LockIn b g0 c t x)); exact IHt).
    all: try (apply (fine_keys _ _ _ (fun b c x => LockIn b g0 c t x)); exact IHt).
    all: try (apply fine_seq; (eapply fine_impl; [|apply IHt]); cbn; tauto).
    all: try apply IHt.
    all: try (match goal with k : lock |- _ => destruct k; apply fine_do end).
    - assert (P : Fine (fun b c => LockIn b g0 c t v0) (if mut_borrowed then gdo (eerror EBadBorrow) else gmap_err EBadValue (guard_encode ch t v0))
        (encode ch (TRefCell t) (VRefCell mut_borrowed (shown g0 t v0)))) by (cbn [encode]; unfold enc_refcell; destruct mut_borrowed; [apply fine_do | apply fine_map, IHt]).
      destruct v0; try exact P. clear P. intros g o Hl. unfold g_refcell, enc_refcell. rewrite (proj2 (Hl z)). destruct (g_borrowed (g0 z)); [split; [reflexivity | auto]|].
      apply (@fine_map EBadValue (fun b c => LockIn b g0 c t (g_val (g0 z)))); [apply fine_read, IHt | exact Hl].
    - destruct l, v0; try apply IHt.
      + exact (fine_mutex ch t poisoned z IHt).
      + exact (fine_rwlock ch t poisoned z IHt).
    - apply (fine_entries _ _ _ _ _ _ (fun b c x => LockIn b g0 c t1 x) (fun b c x => LockIn b g0 c t2 x)); assumption.
    - unfold g_enum, enc_enum. destruct (discriminants (map fst vs)) as [ds|]; [|apply fine_do]. destruct (nth_error ds i) as [dz|]; [|apply fine_do].
      rewrite !nth_error_map. destruct (nth_error vs i) as [[x ts]|] eqn:Ev; cbn [option_map snd]; [|apply fine_do].
      apply fine_seq; [apply fine_do|]. eapply fine_impl; [|apply fine_fields; rewrite Forall_forall in H; exact (H _ (nth_error_In _ _ Ev))].
      intros b c Hs. rewrite nth_error_map, Ev. cbn [option_map snd]. exact Hs.
  Qed.
End Fine.

Lemma like_self g : Like g g.
Proof. intros a. auto. Qed.
Lemma panics_iff r : panics r = true -> exists p, r = Panic p.
Proof. destruct r; try discriminate. eauto. Qed.

Lemma C126_lemma : forall checks t v g o g' o' r, guard_encode checks t v g o = (g', o', Ends r) ->
  encode checks t (shown g t v) o = (o', r) /\ (forall a, Unpoisoned (g' a) = Unpoisoned (g a)) /\
  forall a, g_poison (g' a) = g_poison (g a) \/ ((exists p, r = Panic p) /\ LockIn false g a t v /\ g_poison (g' a) = true).
Proof.
  intros ch t v g o g' o' r H. pose proof (guard_fine g ch t v g o (like_self g)) as G. rewrite H in G. destruct G as (G1 & G2 & G3).
  split; [exact G1|]. split; [exact G2|]. intros a. destruct (G3 a) as [E|(E1 & E2 & E3)]; [left; exact E | right]. apply panics_iff in E1. auto.
Qed.

Lemma C126_waits_lemma : forall checks t v g o g' o', (forall a u, ~ LockIn true g a u (g_val (g a))) -> guard_encode checks t v g o = (g', o', Waits) ->
  exists a, LockIn true g a t v /\ g_locked (g a) = true.
Proof. intros ch t v g o g' o' Hn H. pose proof (guard_fine g ch t v g o (like_self g)) as G. rewrite H in G. exact (G Hn). Qed.

Lemma C126_mutex_lemma : forall checks t p a g o g' o' r, guard_encode checks (TLock Mutex t) (VLock p (VInt a)) g o = (g', o', Ends r) ->
  g_poison (g' a) = true <-> g_poison (g a) = true \/ exists p, r = Panic p.
Proof.
  intros ch t p a g o g' o' r H. pose proof (C126_lemma _ _ _ _ _ _ _ _ H) as (_ & _ & H3). cbn [guard_encode] in H. unfold g_mutex in H.
  destruct (g_locked (g a)); [discriminate|].
  destruct (guard_encode ch t (g_val (g a)) (acquire a g) o) as [[g1 o1] [q|]] eqn:E; [|discriminate]. inversion H; subst. clear H.
  pose proof (C126_lemma _ _ _ _ _ _ _ _ E) as (_ & _ & H4). specialize (H4 a). unfold acquire in H4. rewrite put_same in H4. cbn [g_poison] in H4.
  unfold release. rewrite put_same. cbn [g_poison]. change (match r with Panic _ => true | _ => false end) with (panics r).
  destruct r as [u|e|x]; cbn [panics]; rewrite ?Bool.orb_true_r, ?Bool.orb_false_r.
  - destruct H4 as [H4|((y & Hy) & _)]; [|discriminate]. rewrite H4. split; [auto | intros [G|(y & G)]; [exact G | discriminate]].
  - destruct H4 as [H4|((y & Hy) & _)]; [|discriminate]. rewrite H4. split; [auto | intros [G|(y & G)]; [exact G | discriminate]].
  - split; [intros _; right; eauto | reflexivity].
Qed.
