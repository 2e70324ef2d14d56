(* C66. *)
From Coq Require Import Lia.
From Verif Require Import Base Streams Utf8 Types TypesFacts Encode Shared Spec SpecCalls SpecShared EncodeProofs.

(* the execution, of the encoder only: each load gives a value that was held *)
Inductive Exec (held : Z -> val -> Prop) : prog -> output -> output -> res eerr unit -> Prop :=
| X_done r o : Exec held (PDone r) o o r
| X_do m k o o1 r1 o2 r2 : m o = (o1, r1) -> Exec held (k r1) o1 o2 r2 -> Exec held (PDo m k) o o2 r2
| X_load a k x o o2 r2 : held a x -> Exec held (k x) o o2 r2 -> Exec held (PLoad a k) o o2 r2.

Lemma exec_mono (held held' : Z -> val -> Prop) p o o' r : (forall a x, held a x -> held' a x) -> Exec held p o o' r -> Exec held' p o o' r.
Proof. intros H. induction 1; econstructor; eauto. Qed.

Lemma runs_exec c mems c' : Runs c mems c' -> forall r, snd c' = PDone r -> Exec (Held mems) (snd c) (snd (fst c)) (snd (fst c')) r.
Proof.
  induction 1 as [mem o p | mem o p c1 mems c2 Hs Hr IH]; intros r He; cbn [fst snd] in *.
  - subst p. constructor.
  - specialize (IH r He).
    assert (Hm : forall a x, Held mems a x -> Held (mem :: mems) a x).
    { intros a x (m & Hin & Hx). exists m. split; [right; exact Hin | exact Hx]. }
    apply (@exec_mono _ _ _ _ _ _ Hm) in IH. inversion Hs; subst; cbn [fst snd] in *.
    + exact IH.
    + econstructor; eassumption.
    + eapply X_load; [|exact IH]. exists mem. split; [left; reflexivity | reflexivity].
Qed.

(* the program does what the encoder does on a snapshot *)
Definition Does (held : Z -> val -> Prop) (p : prog) {A} (snap : A -> Prop) (m : A -> E) : Prop :=
  forall o o' r, Exec held p o o' r -> exists a, snap a /\ m a o = (o', r).

Section Does.
  Variable held : Z -> val -> Prop.

  Lemma exec_pdo m o o' r : Exec held (pdo m) o o' r -> m o = (o', r).
  Proof. intros H. inversion H; subst. match goal with G : Exec held (PDone _) _ _ _ |- _ => inversion G; subst end. assumption. Qed.

  Lemma exec_pseq p q o o' r : Exec held (pseq p q) o o' r ->
    exists o1 r1, Exec held p o o1 r1 /\ match r1 with Ok _ => Exec held q o1 o' r | _ => o1 = o' /\ r1 = r end.
  Proof.
    revert o. induction p as [r0|m k IH|a k IH]; intros o H; cbn [pseq] in H.
    - destruct r0 as [u|e|x]; [exists o, (Ok u); split; [constructor | exact H] | |];
        inversion H; subst; eexists _, _; (split; [constructor | split; reflexivity]).
    - inversion H; subst. clear H. match goal with G : Exec held _ _ _ _ |- _ => destruct (IH _ _ G) as (o2 & r2 & G1 & G2) end. exists o2, r2. split; [econstructor; eassumption | exact G2].
    - inversion H; subst. clear H. match goal with G : Exec held _ _ _ _ |- _ => destruct (IH _ _ G) as (o2 & r2 & G1 & G2) end. exists o2, r2. split; [eapply X_load; eassumption | exact G2].
  Qed.

  Lemma exec_pmap f p o o' r : Exec held (pmap_err f p) o o' r ->
    exists r1, Exec held p o o' r1 /\ r = match r1 with Err e => Err (f e) | _ => r1 end.
  Proof.
    revert o. induction p as [r0|m k IH|a k IH]; intros o H; cbn [pmap_err] in H.
    - destruct r0 as [u|e|x]; inversion H; subst; eexists; (split; [constructor | reflexivity]).
    - inversion H; subst. clear H. match goal with G : Exec held _ _ _ _ |- _ => destruct (IH _ _ G) as (r2 & G1 & G2) end. exists r2. split; [econstructor; eassumption | exact G2].
    - inversion H; subst. clear H. match goal with G : Exec held _ _ _ _ |- _ => destruct (IH _ _ G) as (r2 & G1 & G2) end. exists r2. split; [eapply X_load; eassumption | exact G2].
  Qed.

  Lemma does_do {A} (snap : A -> Prop) (m : A -> E) e a : snap a -> (forall o, m a o = e o) -> Does held (pdo e) snap m.
  Proof. intros Hs He o o' r H. apply exec_pdo in H. exists a. split; [exact Hs | rewrite He; exact H]. Qed.

  Lemma does_impl {A B} p (s : A -> Prop) (m : A -> E) (s' : B -> Prop) (m' : B -> E) (g : A -> B) :
    Does held p s m -> (forall a, s a -> s' (g a) /\ forall o, m' (g a) o = m a o) -> Does held p s' m'.
  Proof.
    intros H Hg o o' r Hx. destruct (H _ _ _ Hx) as (a & Ha & Hm). destruct (Hg a Ha) as [H1 H2].
    exists (g a). split; [exact H1 | rewrite H2; exact Hm].
  Qed.

  Lemma does_map {A} f p (s : A -> Prop) m : Does held p s m -> Does held (pmap_err f p) s (fun a => emap_err f (m a)).
  Proof.
    intros H o o' r Hx. destruct (exec_pmap _ _ _ _ _ Hx) as (r1 & H1 & ->). destruct (H _ _ _ H1) as (a & Ha & Hm).
    exists a. split; [exact Ha|]. unfold emap_err. rewrite Hm. destruct r1; reflexivity.
  Qed.

  (* the second part needs a snapshot even when it is not reached *)
  Lemma does_seq {A B} p q (s : A -> Prop) m (s' : B -> Prop) m' : Does held p s m -> Does held q s' m' -> (exists b, s' b) ->
    Does held (pseq p q) (fun ab => s (fst ab) /\ s' (snd ab)) (fun ab => eseq (m (fst ab)) (m' (snd ab))).
  Proof.
    intros Hp Hq (b0 & Hb0) o o' r Hx. destruct (exec_pseq _ _ _ _ _ Hx) as (o1 & r1 & H1 & H2). destruct (Hp _ _ _ H1) as (a & Ha & Hm).
    destruct r1 as [u|e|x].
    - destruct (Hq _ _ _ H2) as (b & Hb & Hm'). exists (a, b). cbn [fst snd]. split; [auto|]. unfold eseq. rewrite Hm. exact Hm'.
    - destruct H2 as [-> <-]. exists (a, b0). cbn [fst snd]. split; [auto|]. unfold eseq. rewrite Hm. reflexivity.
    - destruct H2 as [-> <-]. exists (a, b0). cbn [fst snd]. split; [auto|]. unfold eseq. rewrite Hm. reflexivity.
  Qed.

  Hypothesis some : forall a, exists x, held a x.

  (* a snapshot exists *)
  Lemma forall2_exists {A B} (R : A -> B -> Prop) l : (forall x, exists y, R x y) -> exists l', Forall2 R l l'.
  Proof. intros H. induction l as [|x l (l' & IH)]; [exists []; constructor|]. destruct (H x) as (y & Hy). exists (y :: l'). constructor; assumption. Qed.

  Lemma pointwise_exists ts : Forall (fun t => forall v, exists w, Snapshot held t v w) ts -> forall vs, exists ws, Pointwise (map (Snapshot held) ts) vs ws.
  Proof.
    induction 1 as [|t ts Ht _ IH]; intros vs; cbn [map Pointwise]; [exists vs; reflexivity|].
    destruct vs as [|v vs]; [exists []; exact I|]. destruct (Ht v) as (w & Hw). destruct (IH vs) as (ws & Hws). exists (w :: ws). auto.
  Qed.

  Lemma snapshot_exists t : forall v, exists w, Snapshot held t v w.
  Proof.
    induction t using ty_ind_strong; intros v0; destruct v0; cbn [Snapshot]; eauto;
      repeat match goal with
      | IH : forall v, exists w, Snapshot held ?t v w |- exists w, exists y, Snapshot held ?t ?v y /\ w = _ => destruct (IH v) as (y & Hy); eauto
      | IH : forall v, exists w, Snapshot held ?t v w |- exists w, exists ws, Forall2 (Snapshot held ?t) ?vs ws /\ w = _ =>
        destruct (forall2_exists (Snapshot held t) vs IH) as (l & Hl); eauto
      | IH : Forall _ ?ts |- exists w, exists ws, Pointwise (map (Snapshot held) ?ts) ?vs ws /\ w = _ =>
        destruct (pointwise_exists _ IH vs) as (l & Hl); eauto
      end.
    all: try (match goal with w : wrapper |- _ => destruct w; eexists; reflexivity end).
    - (* wrappers *)
      assert (G : exists w0 y, Snapshot held t v0 y /\ w0 = VWrap y) by (destruct (IHt v0) as (y & Hy); eauto).
      destruct w; try exact G. destruct v0; try exact G. destruct (some z) as (x & Hx). eauto.
    - destruct v0; eauto. destruct (some z) as (x & Hx). destruct (IHt x) as (y & Hy). eauto 6.
    - destruct (IHt v0_1) as (x & Hx). destruct (IHt v0_2) as (y & Hy). eauto 6.
    - destruct (IHt v0_1) as (x & Hx). destruct (IHt v0_2) as (y & Hy). eauto 6.
    - destruct (forall2_exists (fun p q => Snapshot held t1 (fst p) (fst q) /\ Snapshot held t2 (snd p) (snd q)) kvs) as (l & Hl); [|eauto].
      intros [k v]. destruct (IHt1 k) as (x & Hx). destruct (IHt2 v) as (y & Hy). exists (x, y). auto.
    - rewrite nth_error_map. destruct (nth_error vs i) as [[d ts]|] eqn:E; cbn [option_map snd].
      + rewrite Forall_forall in H. specialize (H _ (nth_error_In _ _ E)). destruct (pointwise_exists _ H vs0) as (l & Hl). eauto.
      + eauto.
  Qed.

  Lemma does_load {A} a k (snap : A -> Prop) m : (forall x, held a x -> Does held (k x) snap m) -> Does held (PLoad a k) snap m.
  Proof. intros H o o' r Hx. inversion Hx; subst. eapply H; eassumption. Qed.

  Section Lists.
    Variable ch : bool.
    Definition good (t : ty) : Prop := forall v, Does held (shared_encode ch t v) (Snapshot held t v) (encode ch t).

    Lemma does_items t wrap vs : good t -> forall i, Does held (p_items (shared_encode ch t) wrap i vs) (Forall2 (Snapshot held t) vs) (enc_items (encode ch t) wrap i).
    Proof.
      intros Ht. induction vs as [|v vs IH]; intros i; cbn [p_items].
      - apply (@does_do _ _ _ _ []); [constructor | reflexivity].
      - eapply (@does_impl (val * list val) (list val) _ _ _ _ _ (fun ab => fst ab :: snd ab)).
        + apply does_seq; [apply does_map, Ht | apply IH|]. apply forall2_exists. apply snapshot_exists.
        + intros [a b] [H1 H2]. cbn [fst snd] in *. split; [constructor; assumption | reflexivity].
    Qed.

    Lemma does_slice t wrap vs : good t -> Does held (p_slice (shared_encode ch t) wrap vs) (Forall2 (Snapshot held t) vs) (enc_slice (encode ch t) wrap).
    Proof.
      intros Ht. unfold p_slice, enc_slice.
      eapply (@does_impl (unit * list val) (list val) _ _ _ _ _ snd).
      - apply (@does_seq unit _ _ _ (fun _ => True) (fun _ => emap_err ELen (enc_usize (Z.of_nat (length vs))))); [|apply does_items; exact Ht|].
        + apply (@does_do _ _ _ _ tt); [exact I | reflexivity].
        + apply forall2_exists. apply snapshot_exists.
      - intros [[] b] [_ H]. cbn [fst snd] in *. split; [exact H|]. intros o.
        replace (length b) with (length vs); [reflexivity|]. clear - H. induction H; cbn; congruence.
    Qed.

    Lemma does_fields ts conv : Forall good ts -> forall vs,
      Does held (p_fields (map (shared_encode ch) ts) conv vs) (Pointwise (map (Snapshot held) ts) vs) (enc_fields (map (encode ch) ts) conv).
    Proof.
      induction 1 as [|t ts Ht Hts IH]; intros vs; cbn [map p_fields].
      - destruct vs as [|v vs].
        + apply (@does_do _ _ _ _ []); [reflexivity | reflexivity].
        + apply (@does_do _ _ _ _ (v :: vs)); [reflexivity | reflexivity].
      - destruct vs as [|v vs].
        + apply (@does_do _ _ _ _ []); [exact I | reflexivity].
        + eapply (@does_impl (val * list val) (list val) _ _ _ _ _ (fun ab => fst ab :: snd ab)).
          * apply does_seq; [apply does_map, Ht | apply IH|]. apply pointwise_exists. rewrite Forall_forall. intros t' _. apply snapshot_exists.
          * intros [a b] [H1 H2]. cbn [fst snd] in *. split; [split; assumption | reflexivity].
    Qed.

    Lemma does_entries k u kvs : good k -> good u ->
      Does held (p_entries (shared_encode ch k) (shared_encode ch u) kvs)
        (Forall2 (fun p q => Snapshot held k (fst p) (fst q) /\ Snapshot held u (snd p) (snd q)) kvs) (enc_entries (encode ch k) (encode ch u)).
    Proof.
      intros Hk Hu. induction kvs as [|[x y] kvs IH]; cbn [p_entries].
      - apply (@does_do _ _ _ _ []); [constructor | reflexivity].
      - assert (E : exists l, Forall2 (fun p q => Snapshot held k (fst p) (fst q) /\ Snapshot held u (snd p) (snd q)) kvs l).
        { apply forall2_exists. intros [a b]. destruct (snapshot_exists k a) as (c & Hc). destruct (snapshot_exists u b) as (d & Hd). exists (c, d). auto. }
        eapply (@does_impl (val * (val * list (val * val))) (list (val * val)) _ _ _ _ _ (fun ab => (fst ab, fst (snd ab)) :: snd (snd ab))).
        + apply does_seq; [apply Hk | apply does_seq; [apply Hu | apply IH | exact E]|].
          destruct E as (l & Hl). destruct (snapshot_exists u y) as (d & Hd). exists (d, l). auto.
        + intros (a & b & c) (H1 & H2 & H3). cbn [fst snd] in *. split; [constructor; auto | reflexivity].
    Qed.

    Lemma does_keys k ks : good k -> Does held (p_keys (shared_encode ch k) ks) (Forall2 (Snapshot held k) ks) (enc_keys (encode ch k)).
    Proof.
      intros Hk. induction ks as [|x ks IH]; cbn [p_keys].
      - apply (@does_do _ _ _ _ []); [constructor | reflexivity].
      - eapply (@does_impl (val * list val) (list val) _ _ _ _ _ (fun ab => fst ab :: snd ab)).
        + apply does_seq; [apply Hk | apply IH | apply forall2_exists; apply snapshot_exists].
        + intros [a b] [H1 H2]. cbn [fst snd] in *. split; [constructor; assumption | reflexivity].
    Qed.

    (* one part, or a fixed write and then one part *)
    Lemma does_one p t v (g : val -> val) (m m' : val -> E) : Does held p (Snapshot held t v) m -> (forall y o, m' (g y) o = m y o) ->
      Does held p (fun w => exists y, Snapshot held t v y /\ w = g y) m'.
    Proof. intros H Hm. eapply (@does_impl _ _ _ _ _ _ _ g); [exact H|]. intros a Ha. split; [eauto | apply Hm]. Qed.

    Lemma does_tagged p e t v (g : val -> val) (m m' : val -> E) : Does held p (Snapshot held t v) m -> (forall y o, m' (g y) o = eseq e (m y) o) ->
      Does held (pseq (pdo e) p) (fun w => exists y, Snapshot held t v y /\ w = g y) m'.
    Proof.
      intros H Hm. eapply (@does_impl (unit * val) _ _ _ _ _ _ (fun ab => g (snd ab))).
      - apply (@does_seq unit _ _ _ (fun _ => True) (fun _ => e)); [apply (@does_do _ _ _ _ tt); [exact I | reflexivity] | exact H | apply snapshot_exists].
      - intros [[] y] [_ Hy]. cbn [fst snd] in *. split; [eauto | apply Hm].
    Qed.

    Lemma does_two t a b (g : val -> val -> val) (m' : val -> E) : good t -> (forall x y o, m' (g x y) o = eseq (encode ch t x) (encode ch t y) o) ->
      Does held (pseq (shared_encode ch t a) (shared_encode ch t b))
        (fun w => exists x y, Snapshot held t a x /\ Snapshot held t b y /\ w = g x y) m'.
    Proof.
      intros Ht Hm. eapply (@does_impl (val * val) _ _ _ _ _ _ (fun ab => g (fst ab) (snd ab))).
      - apply does_seq; [apply Ht | apply Ht | apply snapshot_exists].
      - intros [x y] [H1 H2]. cbn [fst snd] in *. split; [eauto 6 | apply Hm].
    Qed.

    Lemma does_list p t vs (g : list val -> val) m m' : Does held p (Forall2 (Snapshot held t) vs) m -> (forall l o, m' (g l) o = m l o) ->
      Does held p (fun w => exists ws, Forall2 (Snapshot held t) vs ws /\ w = g ws) m'.
    Proof. intros H Hm. eapply (@does_impl _ _ _ _ _ _ _ g); [exact H|]. intros a Ha. split; [eauto | apply Hm]. Qed.

    Lemma does_group p ts vs (g : list val -> val) m m' : Does held p (Pointwise (map (Snapshot held) ts) vs) m -> (forall l o, m' (g l) o = m l o) ->
      Does held p (fun w => exists ws, Pointwise (map (Snapshot held) ts) vs ws /\ w = g ws) m'.
    Proof. intros H Hm. eapply (@does_impl _ _ _ _ _ _ _ g); [exact H|]. intros a Ha. split; [eauto | apply Hm]. Qed.

    Lemma does_plain t v : Does held (pdo (encode ch t v)) (fun w => w = v) (encode ch t).
    Proof. apply (@does_do _ _ _ _ v); reflexivity. Qed.

    Lemma shared_does t : good t.
    Proof.
      induction t using ty_ind_strong; intros v0; destruct v0; cbn [Snapshot shared_encode]; try apply does_plain.
      all: try (eapply does_tagged; [first [apply IHt | apply IHt1 | apply does_map; first [apply IHt | apply IHt2]] | reflexivity]).
      all: try (eapply does_group; [apply does_fields; eassumption | reflexivity]).
      all: try (eapply does_list; [first [apply does_items; exact IHt | apply does_slice; exact IHt | apply does_keys; exact IHt] | reflexivity]).
      all: try (eapply does_two; [exact IHt | reflexivity]).
      all: try (eapply does_one; [apply IHt | reflexivity]).
      all: try (match goal with w : wrapper |- _ => destruct w; apply does_plain end).
      - assert (G : Does held (shared_encode ch t v0) (fun w0 => exists y, Snapshot held t v0 y /\ w0 = VWrap y) (encode ch (TWrap w t)))
          by (eapply does_one; [apply IHt | reflexivity]).
        destruct w; try exact G. destruct v0; try exact G. apply does_load. intros x Hx. apply (@does_do _ _ _ _ (VWrap x)); [eauto | reflexivity].
      - destruct mut_borrowed.
        + destruct (snapshot_exists t v0) as (y & Hy). apply (@does_do _ _ _ _ (VRefCell true y)); [eauto | reflexivity].
        + eapply does_one; [apply does_map, IHt | reflexivity].
      - destruct v0; try apply does_plain. apply does_load. intros x Hx.
        eapply (@does_impl _ _ _ _ _ _ _ (VLock poisoned)); [apply IHt|]. intros y Hy. split; [eauto 6 | reflexivity].
      - eapply (@does_impl _ _ _ _ _ _ _ VMap); [apply does_entries; assumption|]. intros y Hy. split; [eauto | reflexivity].
      - rewrite nth_error_map.
        assert (E : exists ws, match option_map (fun x => map (Snapshot held) (snd x)) (nth_error vs i) with Some rs => Pointwise rs vs0 ws | None => ws = vs0 end).
        { destruct (nth_error vs i) as [[d ts]|]; cbn [option_map snd]; [|eauto]. apply pointwise_exists. rewrite Forall_forall. intros t' _. apply snapshot_exists. }
        destruct E as (ws0 & Hws0). unfold p_enum.
        destruct (discriminants (map fst vs)) as [ds|] eqn:Eds; [|apply (@does_do _ _ _ _ (VEnum i ws0)); [eauto | intros o; cbn [encode]; unfold enc_enum; rewrite Eds; reflexivity]].
        rewrite nth_error_map. destruct (nth_error ds i) as [d|] eqn:Ed;
          [|apply (@does_do _ _ _ _ (VEnum i ws0)); [eauto | intros o; cbn [encode]; unfold enc_enum; rewrite Eds, Ed; reflexivity]].
        destruct (nth_error vs i) as [[x ts]|] eqn:Ev; cbn [option_map snd] in *;
          [|apply (@does_do _ _ _ _ (VEnum i ws0)); [eauto | intros o; cbn [encode]; unfold enc_enum; rewrite Eds, Ed, nth_error_map, Ev; reflexivity]].
        rewrite Forall_forall in H. specialize (H _ (nth_error_In _ _ Ev)). cbn [snd] in H.
        eapply (@does_impl (unit * list val) _ _ _ _ _ _ (fun ab => VEnum i (snd ab))).
        + apply (@does_seq unit _ _ _ (fun _ => True) (fun _ => emap_err EDisc (enc_int r d))); [|apply does_fields; exact H | eauto].
          apply (@does_do _ _ _ _ tt); [exact I | reflexivity].
        + intros [[] l] [_ Hl]. cbn [fst snd] in *. split; [eauto|]. intros o. cbn [encode]. unfold enc_enum. rewrite Eds, Ed, nth_error_map, Ev. reflexivity.
    Qed.
  End Lists.

End Does.

Lemma runs_held c mems c' : Runs c mems c' -> forall a, exists x, Held mems a x.
Proof.
  intros H a. destruct H as [mem o p | mem o p c1 mems c2 _ _]; exists (mem a), mem; (split; [left; reflexivity | reflexivity]).
Qed.

Lemma C66_lemma : forall checks t v mem o mems mem' o' r,
  Runs (mem, o, shared_encode checks t v) mems (mem', o', PDone r) ->
  exists w, Snapshot (Held mems) t v w /\ encode checks t w o = (o', r).
Proof.
  intros ch t v mem o mems mem' o' r H. pose proof (@runs_exec _ _ _ H r eq_refl) as Hx. cbn [fst snd] in Hx.
  exact (@shared_does (Held mems) (runs_held _ _ _ H) ch t v o o' r Hx).
Qed.

Lemma forall2_impl {A B} (R S : A -> B -> Prop) l l' : (forall a b, R a b -> S a b) -> Forall2 R l l' -> Forall2 S l l'.
Proof. intros H. induction 1; constructor; auto. Qed.

Lemma snapshot_mono (held held' : Z -> val -> Prop) : (forall a x, held a x -> held' a x) -> forall t v w, Snapshot held t v w -> Snapshot held' t v w.
Proof.
  intros H t. assert (PW : forall ts, Forall (fun t => forall v w, Snapshot held t v w -> Snapshot held' t v w) ts -> forall vs ws,
    Pointwise (map (Snapshot held) ts) vs ws -> Pointwise (map (Snapshot held') ts) vs ws).
  { clear - H. induction 1 as [|t ts Ht _ IH]; intros [|v vs] [|w ws]; cbn [map Pointwise]; try tauto. intros [H1 H2]. auto. }
  induction t using ty_ind_strong; intros v0 w0; destruct v0; cbn [Snapshot]; try exact (fun h => h);
    try (intros (y & Hy & ->); eexists; split; [first [apply IHt | apply IHt1 | apply IHt2 | apply PW; [assumption|] | eapply forall2_impl; [apply IHt|]]; exact Hy | reflexivity]);
    try (intros (x & y & Hx & Hy & ->); eexists; eexists; split; [apply IHt; exact Hx|]; split; [apply IHt; exact Hy | reflexivity]).
  all: try (destruct w; exact (fun h => h)).
  - assert (G : (exists y, Snapshot held t v0 y /\ w0 = VWrap y) -> exists y, Snapshot held' t v0 y /\ w0 = VWrap y) by (intros (y & Hy & ->); eauto).
    destruct w; try exact G. destruct v0; try exact G. intros (x & Hx & ->). eauto.
  - destruct v0; try exact (fun h => h). intros (x & y & Hx & Hy & ->). exists x, y. auto.
  - intros (l & Hl & ->). eexists. split; [|reflexivity]. eapply forall2_impl; [|exact Hl]. intros [a b] [c d]. cbn [fst snd]. intros [H1 H2]. auto.
  - intros (ws & Hws & ->). eexists. split; [|reflexivity]. rewrite nth_error_map in *. destruct (nth_error vs i) as [[d ts]|] eqn:E; cbn [option_map snd] in *; [|exact Hws].
    rewrite Forall_forall in H0. specialize (H0 _ (nth_error_In _ _ E)). apply PW; assumption.
Qed.

Lemma C66_typed_lemma : forall checks t v ok mem o mems mem' o' r,
  SharedOf ok t v -> (forall m a, In m mems -> ok a (m a)) ->
  Runs (mem, o, shared_encode checks t v) mems (mem', o', PDone r) ->
  exists w, Snapshot (Held mems) t v w /\ wt t w /\ encode checks t w o = (o', r).
Proof.
  intros ch t v ok mem o mems mem' o' r Hs Hok H. destruct (@C66_lemma _ _ _ _ _ _ _ _ _ H) as (w & Hw & He). exists w. split; [exact Hw|].
  split; [|exact He]. apply Hs. eapply snapshot_mono; [|exact Hw]. intros a x (m & Hin & <-). apply Hok. exact Hin.
Qed.

(* without other threads, it is the encoding of what the cells hold *)
Lemma C66_progress_lemma : forall checks t v mem o, exists mems mem' o' r, Runs (mem, o, shared_encode checks t v) mems (mem', o', PDone r).
Proof.
  intros ch t v. intros mem o. generalize (shared_encode ch t v) as p. intros p. revert o. induction p as [r|m k IH|a k IH]; intros o.
  - exists [mem], mem, o, r. constructor.
  - destruct (m o) as [o1 r1] eqn:E. destruct (IH r1 o1) as (mems & mem' & o' & r & H). exists (mem :: mems), mem', o', r.
    econstructor; [econstructor; exact E | exact H].
  - destruct (IH (mem a) o) as (mems & mem' & o' & r & H). exists (mem :: mems), mem', o', r. econstructor; [econstructor | exact H].
Qed.

Lemma C66_full_lemma : forall checks t v ok mem o mems mem' o' r,
  SharedOf ok t v -> (forall m a, In m mems -> ok a (m a)) -> output_position o <= output_capacity o ->
  Runs (mem, o, shared_encode checks t v) mems (mem', o', PDone r) ->
  exists w, Snapshot (Held mems) t v w /\ wt t w /\ encode checks t w o = (o', r) /\
    (r = Ok tt -> exists bs, output_as_slice o' = output_as_slice o ++ bs /\ Wire checks t w bs).
Proof.
  intros ch t v ok mem o mems mem' o' r Hs Hok Ho H. destruct (@C66_typed_lemma _ _ _ _ _ _ _ _ _ _ Hs Hok H) as (w & Hw & Hwt & He).
  exists w. split; [exact Hw|]. split; [exact Hwt|]. split; [exact He|]. intros ->.
  destruct (@C07_lemma ch t w o o' (Ok tt) Ho He) as (Hc & Hp & Hf & _).
  exists (skipn (output_position o) (output_as_slice o')).
  assert (E : output_as_slice o' = output_as_slice o ++ skipn (output_position o) (output_as_slice o')).
  { unfold output_as_slice, output_position in *. rewrite <- Hf. rewrite <- (firstn_skipn (o_pos o) (firstn (o_pos o') (o_buf o'))) at 1.
    f_equal. rewrite firstn_firstn. f_equal. lia. }
  split; [exact E|]. apply (@C06_lemma ch t w o _ Hwt Ho). exists o'. split; [exact He | exact E].
Qed.

(* an execution by a schedule: at each step a store of another thread, or a step of the encoder; only to compute cases *)
Definition put (mem : memory) (a : Z) (x : val) : memory := fun b => if Z.eqb b a then x else mem b.
Fixpoint play (sched : list (option (Z * val))) (mem : memory) (o : output) (p : prog) : output * prog :=
  match sched with
  | [] => (o, p)
  | Some (a, x) :: l => play l (put mem a x) o p
  | None :: l =>
    match p with
    | PDone r => (o, p)
    | PDo m k => let (o', r) := m o in play l mem o' (k r)
    | PLoad a k => play l mem o (k (mem a))
    end
  end.

Lemma play_runs (ok : Z -> val -> Prop) sched : forall mem o p o' p', (forall a, ok a (mem a)) ->
  Forall (fun s => match s with Some (a, x) => ok a x | None => True end) sched ->
  play sched mem o p = (o', p') -> exists mems mem', (forall m a, In m mems -> ok a (m a)) /\ Runs (mem, o, p) mems (mem', o', p').
Proof.
  induction sched as [|[[a x]|] l IH]; intros mem o p o' p' Hok Hs H; cbn [play] in H.
  - injection H as <- <-. exists [mem], mem. split; [intros m a [<- | []]; apply Hok | constructor].
  - inversion_clear Hs as [|? ? H1 H2]. destruct (IH (put mem a x) o p o' p') as (mems & mem' & Hm & Hr); [|exact H2|exact H|].
    + intros b. unfold put. destruct (Z.eqb_spec b a) as [-> | _]; [exact H1 | apply Hok].
    + exists (mem :: mems), mem'. split; [intros m b [<- | Hin]; [apply Hok | apply Hm; exact Hin]|]. econstructor; [apply Step_store | exact Hr].
  - inversion_clear Hs as [|? ? H1 H2]. destruct p as [r|m k|a k].
    + injection H as <- <-. exists [mem], mem. split; [intros m a [<- | []]; apply Hok | constructor].
    + destruct (m o) as [o1 r1] eqn:E. destruct (IH _ _ _ _ _ Hok H2 H) as (mems & mem' & Hm & Hr). exists (mem :: mems), mem'.
      split; [intros m' b [<- | Hin]; [apply Hok | apply Hm; exact Hin]|]. econstructor; [apply Step_do; exact E | exact Hr].
    + destruct (IH _ _ _ _ _ Hok H2 H) as (mems & mem' & Hm & Hr). exists (mem :: mems), mem'.
      split; [intros m' b [<- | Hin]; [apply Hok | apply Hm; exact Hin]|]. econstructor; [apply Step_load | exact Hr].
Qed.
