(* C125. *)
From Coq Require Import Lia.
From Verif Require Import Base Streams StreamFacts Utf8 Types TypesFacts Encode EncodeFacts Shared Lazy SpecLazy.

(* ---- cells *)

Lemma view_force a s b : view (fst (force a s)) b = view s b.
Proof.
  unfold force, view. destruct (l_cells s a) as [[x|]|x|] eqn:E; cbn [fst l_cells]; try reflexivity;
    (destruct (Z.eqb_spec b a) as [->|]; [rewrite E; reflexivity | reflexivity]).
Qed.
Lemma force_view a s : snd (force a s) = view s a.
Proof. unfold force, view. destruct (l_cells s a) as [[x|]|x|]; reflexivity. Qed.
Lemma force_poison a s : snd (force a s) = None -> l_cells (fst (force a s)) a = Poisoned.
Proof. unfold force. destruct (l_cells s a) as [[x|]|x|] eqn:E; cbn; try discriminate; intros _; [rewrite Z.eqb_refl; reflexivity | exact E]. Qed.
Lemma force_kept a s b : (forall f, l_cells s b <> Waiting f) -> l_cells (fst (force a s)) b = l_cells s b.
Proof.
  intros H. unfold force. destruct (l_cells s a) as [[x|]|x|] eqn:E; cbn [fst l_cells]; try reflexivity;
    (destruct (Z.eqb_spec b a) as [->|]; [rewrite E in H; exfalso; exact (H _ eq_refl) | reflexivity]).
Qed.

(* one step does to the cells what some look does, or nothing *)
Lemma lown_cells c c' : lown c c' -> fst (fst c') = fst (fst c) \/ exists a, fst (fst c') = fst (force a (fst (fst c))).
Proof. intros H. inversion H; subst; cbn [fst snd]; [left; reflexivity | right; exists a.. ]; match goal with G : force _ _ = _ |- _ => rewrite G end; reflexivity. Qed.
Lemma lstep_cells c c' : lstep c c' -> fst (fst c') = fst (fst c) \/ exists a, fst (fst c') = fst (force a (fst (fst c))).
Proof. intros H. inversion H; subst; [apply lown_cells; assumption | right; exists a; reflexivity]. Qed.
Lemma runs_cells (P : store -> Prop) : (forall a s, P s -> P (fst (force a s))) -> forall c c', LRuns c c' -> P (fst (fst c)) -> P (fst (fst c')).
Proof.
  intros Hf c c' H. induction H as [c|c c1 c2 H1 _ IH]; [exact (fun h => h)|]. intros Hp. apply IH.
  destruct (lstep_cells _ _ H1) as [E|(a & E)]; rewrite E; [exact Hp | apply Hf; exact Hp].
Qed.

Lemma C125_kept_lemma : forall s o p s' o' p' a, LRuns (s, o, p) (s', o', p') ->
  view s' a = view s a /\ ((forall f, l_cells s a <> Waiting f) -> l_cells s' a = l_cells s a).
Proof.
  intros s o p s' o' p' a H. split.
  - apply (@runs_cells (fun s' => view s' a = view s a)) in H; [exact H | | reflexivity]. intros b s1 E. rewrite view_force. exact E.
  - intros Hw. apply (@runs_cells (fun s' => l_cells s' a = l_cells s a)) in H; [exact H | | reflexivity]. intros b s1 E.
    rewrite force_kept; [exact E | rewrite E; exact Hw].
Qed.

Definition Once (s : store) : Prop := NoDup (l_calls s) /\ forall a, In a (l_calls s) <-> forall f, l_cells s a <> Waiting f.

Lemma once_force a s : Once s -> Once (fst (force a s)).
Proof.
  intros [Hn Hc]. unfold force. destruct (l_cells s a) as [f|x|] eqn:E; [|split; assumption..].
  assert (Ha : ~ In a (l_calls s)) by (rewrite Hc; intros H; exact (H f E)).
  assert (G : forall y, (forall f, y <> Waiting f) -> Once (Store (fun b => if Z.eqb b a then y else l_cells s b) (l_calls s ++ [a]))).
  { intros y Hy. split; cbn [l_calls l_cells].
    - apply (NoDup_Add (a := a) (l := l_calls s)); [|split; assumption].
      rewrite <- (app_nil_r (l_calls s)) at 1. apply Add_app.
    - intros b. rewrite in_app_iff, Hc. cbn [In]. destruct (Z.eqb_spec b a) as [->|Hne].
      + split; [intros _; exact Hy | intros _; right; left; reflexivity].
      + split; [intros [H|[H|[]]]; [exact H | congruence] | intros H; left; exact H]. }
  destruct f; cbn [fst]; apply G; discriminate.
Qed.

Lemma C125_once_lemma : forall s o p s' o' p', Fresh s -> LRuns (s, o, p) (s', o', p') ->
  NoDup (l_calls s') /\ forall a, In a (l_calls s') <-> forall f, l_cells s' a <> Waiting f.
Proof.
  intros s o p s' o' p' [H0 Hw] H. apply (@runs_cells Once once_force) in H; [exact H|]. cbn [fst]. unfold Once. rewrite H0. split; [constructor|].
  intros a. split; [intros [] | intros G; destruct (Hw a) as (f & E); exact (G f E)].
Qed.

(* ---- what a program does when the cells are known *)

Fixpoint leval (w : Z -> option val) (p : prog) (o : output) : output * res eerr unit :=
  match p with
  | PDone r => (o, r)
  | PDo m k => let '(o1, r1) := m o in leval w (k r1) o1
  | PLoad a k => match w a with Some x => leval w (k x) o | None => (o, Panic PUser) end
  end.

Lemma leval_ext w w' p : (forall a, w a = w' a) -> forall o, leval w p o = leval w' p o.
Proof.
  intros H. induction p as [r|m k IH|a k IH]; intros o; cbn [leval]; [reflexivity | destruct (m o); apply IH|].
  rewrite H. destruct (w' a); [apply IH | reflexivity].
Qed.

Lemma runs_leval c c' : LRuns c c' -> forall r, snd c' = PDone r -> leval (view (fst (fst c))) (snd c) (snd (fst c)) = (snd (fst c'), r).
Proof.
  induction 1 as [c|c c1 c2 H1 H2 IH]; intros r Hr; [rewrite Hr; reflexivity|]. specialize (IH r Hr). rewrite <- IH. clear IH.
  destruct H1 as [c c1 H1|s o p a]; [destruct H1 as [s o m k o1 r1 E|s o a k s1 x E|s o a k s1 E]|]; cbn [fst snd leval].
  - rewrite E. reflexivity.
  - rewrite <- force_view, E. cbn [snd]. apply leval_ext. intros b. replace s1 with (fst (force a s)) by (rewrite E; reflexivity). symmetry. apply view_force.
  - rewrite <- force_view, E. reflexivity.
  - apply leval_ext. intros b. symmetry. apply view_force.
Qed.

Lemma C125_same_lemma : forall checks t v o s1 s2 s1' s2' o1 o2 r1 r2, (forall a, view s1 a = view s2 a) ->
  LRuns (s1, o, lazy_encode checks t v) (s1', o1, PDone r1) -> LRuns (s2, o, lazy_encode checks t v) (s2', o2, PDone r2) -> o1 = o2 /\ r1 = r2.
Proof.
  intros ch t v o s1 s2 s1' s2' o1 o2 r1 r2 Hv H1 H2. apply runs_leval with (r := r1) in H1; [|reflexivity]. apply runs_leval with (r := r2) in H2; [|reflexivity].
  cbn [fst snd] in *. rewrite (@leval_ext _ _ _ Hv) in H1. rewrite H1 in H2. inversion H2. split; reflexivity.
Qed.

Section Eval.
  Variable d : Z -> val.
  Let w (a : Z) : option val := Some (d a).
  Definition As (p : prog) (m : E) : Prop := forall o, leval w p o = m o.

  Lemma as_do m : As (pdo m) m.
  Proof. intros o. cbn. destruct (m o). reflexivity. Qed.
  Lemma leval_seq p q : forall o, leval w (pseq p q) o = match leval w p o with (o1, Ok _) => leval w q o1 | x => x end.
  Proof.
    induction p as [r|m k IH|a k IH]; intros o; cbn [pseq leval]; [destruct r; reflexivity | destruct (m o); apply IH | apply IH].
  Qed.
  Lemma as_seq p q m n : As p m -> As q n -> As (pseq p q) (eseq m n).
  Proof. intros Hp Hq o. rewrite leval_seq, Hp. unfold eseq. destruct (m o) as [o1 [u|e|x]]; [apply Hq | reflexivity..]. Qed.
  Lemma as_map f p m : As p m -> As (pmap_err f p) (emap_err f m).
  Proof.
    intros Hp o. unfold emap_err. rewrite <- Hp. clear Hp. revert o.
    induction p as [r|q k IH|a k IH]; intros o; cbn [pmap_err leval]; [destruct r; reflexivity | destruct (q o); apply IH | apply IH].
  Qed.

  Lemma as_items f (g : val -> E) (h : val -> val) wrap vs : (forall x, As (f x) (g (h x))) -> forall i, As (p_items f wrap i vs) (enc_items g wrap i (map h vs)).
  Proof. intros H. induction vs as [|x vs IH]; intros i; cbn [p_items enc_items map]; [apply as_do | apply as_seq; [apply as_map, H | apply IH]]. Qed.
  Lemma as_slice f (g : val -> E) (h : val -> val) wrap vs : (forall x, As (f x) (g (h x))) -> As (p_slice f wrap vs) (enc_slice g wrap (map h vs)).
  Proof. intros H. unfold p_slice, enc_slice. rewrite List.map_length. apply as_seq; [apply as_do | apply as_items, H]. Qed.
  Lemma as_entries f (g : val -> E) (h : val -> val) f' (g' : val -> E) (h' : val -> val) vs : (forall x, As (f x) (g (h x))) -> (forall x, As (f' x) (g' (h' x))) ->
    As (p_entries f f' vs) (enc_entries g g' (map (fun p => (h (fst p), h' (snd p))) vs)).
  Proof.
    intros H H'. induction vs as [|[x y] vs IH]; cbn [p_entries enc_entries map fst snd]; [apply as_do | apply as_seq; [apply H | apply as_seq; [apply H' | exact IH]]].
  Qed.
  Lemma as_keys f (g : val -> E) (h : val -> val) vs : (forall x, As (f x) (g (h x))) -> As (p_keys f vs) (enc_keys g (map h vs)).
  Proof. intros H. induction vs as [|x vs IH]; cbn [p_keys enc_keys map]; [apply as_do | apply as_seq; [apply H | exact IH]]. Qed.
  Lemma as_fields ch ts conv : Forall (fun t => forall v, As (lazy_encode ch t v) (encode ch t (forced d t v))) ts ->
    forall vs, As (p_fields (map (lazy_encode ch) ts) conv vs) (enc_fields (map (encode ch) ts) conv (each (map (forced d) ts) vs)).
  Proof.
    induction 1 as [|t ts Ht _ IH]; intros [|v vs]; cbn [map p_fields enc_fields each]; try apply as_do. apply as_seq; [apply as_map, Ht | apply IH].
  Qed.

  Lemma lazy_as ch t : forall v, As (lazy_encode ch t v) (encode ch t (forced d t v)).
  Proof.
    induction t using ty_ind_strong; intros v0; destruct v0; cbn [lazy_encode forced]; try apply as_do; cbn [encode].
    all: try (apply as_seq; [apply as_do | first [apply IHt | apply IHt1 | apply as_map; first [apply IHt | apply IHt2]]]).
    all: try (apply as_fields; assumption).
    all: try (apply as_items; exact IHt).
    all: try (apply as_slice; exact IHt).
    all: try (apply as_keys; exact IHt).
    all: try (apply as_seq; apply IHt).
    all: try apply IHt.
    all: try (destruct w0; apply as_do).
    - destruct w0; try (apply IHt); destruct v0; try (apply IHt); intros o; cbn [leval w]; apply IHt.
    - destruct mut_borrowed; [apply as_do | apply as_map, IHt].
    - apply as_entries; assumption.
    - unfold p_enum, enc_enum. destruct (discriminants (map fst vs)) as [ds|]; [|apply as_do]. destruct (nth_error ds i) as [dz|]; [|apply as_do].
      rewrite !nth_error_map. destruct (nth_error vs i) as [[x ts]|] eqn:Ev; cbn [option_map snd]; [|apply as_do].
      apply as_seq; [apply as_do|]. apply as_fields. rewrite Forall_forall in H. exact (H _ (nth_error_In _ _ Ev)).
  Qed.
End Eval.

(* ---- each part of the program appends *)

Fixpoint good (p : prog) : Prop :=
  match p with
  | PDone _ => True
  | PDo m k => HasTrace m /\ forall r, good (k r)
  | PLoad _ k => forall x, good (k x)
  end.
Lemma good_do m : HasTrace m -> good (pdo m).
Proof. intros H. split; [exact H | intros r; exact I]. Qed.
Lemma good_seq p q : good p -> good q -> good (pseq p q).
Proof. intros Hp Hq. induction p as [r|m k IH|a k IH]; cbn [pseq good] in *; [destruct r; [exact Hq | exact I..] | destruct Hp; split; auto | auto]. Qed.
Lemma good_map f p : good p -> good (pmap_err f p).
Proof. intros Hp. induction p as [r|m k IH|a k IH]; cbn [pmap_err good] in *; [destruct r; exact I | destruct Hp; split; auto | auto]. Qed.
Lemma good_items f wrap vs : (forall x, good (f x)) -> forall i, good (p_items f wrap i vs).
Proof. intros H. induction vs as [|x vs IH]; intros i; cbn [p_items]; [apply good_do, HT_ok | apply good_seq; [apply good_map, H | apply IH]]. Qed.
Lemma good_slice f wrap vs : (forall x, good (f x)) -> good (p_slice f wrap vs).
Proof. intros H. apply good_seq; [apply good_do, HT_map_err, (HT_int Usize) | apply good_items, H]. Qed.
Lemma good_entries f g vs : (forall x, good (f x)) -> (forall x, good (g x)) -> good (p_entries f g vs).
Proof. intros H H'. induction vs as [|[x y] vs IH]; cbn [p_entries]; [apply good_do, HT_ok | apply good_seq; [apply H | apply good_seq; [apply H' | exact IH]]]. Qed.
Lemma good_keys f vs : (forall x, good (f x)) -> good (p_keys f vs).
Proof. intros H. induction vs as [|x vs IH]; cbn [p_keys]; [apply good_do, HT_ok | apply good_seq; [apply H | exact IH]]. Qed.
Lemma good_fields ch ts conv : Forall (fun t => forall v, good (lazy_encode ch t v)) ts -> forall vs, good (p_fields (map (lazy_encode ch) ts) conv vs).
Proof.
  induction 1 as [|t ts Ht _ IH]; intros [|v vs]; cbn [map p_fields]; try apply good_do; try apply HT_ok; try apply HT_panic. apply good_seq; [apply good_map, Ht | apply IH].
Qed.

Lemma lazy_good ch t : forall v, good (lazy_encode ch t v).
Proof.
  assert (P : forall t v, good (pdo (encode ch t v))) by (intros; apply good_do, encode_has_trace).
  induction t using ty_ind_strong; intros v0; destruct v0; cbn [lazy_encode]; try apply P.
  all: try (apply good_seq; [apply good_do, HT_num | first [apply IHt | apply IHt1 | apply good_map; first [apply IHt | apply IHt2]]]).
  all: try (apply good_fields; assumption).
  all: try (apply good_items; exact IHt).
  all: try (apply good_slice; exact IHt).
  all: try (apply good_keys; exact IHt).
  all: try (apply good_seq; apply IHt).
  all: try apply IHt.
  all: try (destruct w; apply P).
  - destruct w; try (apply IHt); destruct v0; try (apply IHt); intros x; apply IHt.
  - destruct mut_borrowed; [apply good_do, HT_err | apply good_map, IHt].
  - apply good_entries; assumption.
  - unfold p_enum. destruct (discriminants (map fst vs)) as [ds|]; [|apply good_do, HT_panic]. destruct (nth_error ds i) as [dz|]; [|apply good_do, HT_panic].
    rewrite !nth_error_map. destruct (nth_error vs i) as [[x ts]|] eqn:Ev; cbn [option_map snd]; [|apply good_do, HT_panic].
    apply good_seq; [apply good_do, HT_map_err, HT_int|]. apply good_fields. rewrite Forall_forall in H. exact (H _ (nth_error_In _ _ Ev)).
Qed.

Lemma replay_extends cs r : forall o, wf_out o -> let o' := fst (replay cs r o) in wf_out o' /\ exists more, output_as_slice o' = output_as_slice o ++ more.
Proof.
  induction cs as [|c cs IH]; intros o Ho; cbn [replay]; [cbn [fst]; split; [exact Ho | exists []; symmetry; apply app_nil_r]|].
  destruct (Nat.leb_spec (o_pos o + length c) (length (o_buf o))) as [Hc|Hc].
  - rewrite write_fits by exact Hc. destruct (IH (append o c)) as [H1 (more & H2)]; [apply append_wf; exact Hc|]. split; [exact H1|].
    exists (c ++ more). rewrite H2, append_slice by exact Ho. symmetry. apply app_assoc.
  - rewrite write_short by (try exact Ho; unfold fits; lia). cbn [fst]. split; [exact Ho | exists []; symmetry; apply app_nil_r].
Qed.

Lemma good_extends w p : good p -> forall o, wf_out o -> exists more, output_as_slice (fst (leval w p o)) = output_as_slice o ++ more.
Proof.
  induction p as [r|m k IH|a k IH]; intros Hg o Ho; cbn [leval good] in *.
  - exists []. symmetry. apply app_nil_r.
  - destruct Hg as [(cs & q & Ht) Hk]. destruct (replay_extends cs q o Ho) as [H1 (more & H2)]. rewrite (Ht o). destruct (replay cs q o) as [o1 r1]. cbn [fst] in *.
    destruct (IH r1 (Hk r1) o1 H1) as (more' & H3). exists (more ++ more'). rewrite H3, H2. symmetry. apply app_assoc.
  - destruct (w a) as [x|]; [apply IH; auto | exists []; symmetry; apply app_nil_r].
Qed.

Lemma runs_outcome d c c' : LRuns c c' -> forall r, snd c' = PDone r -> good (snd c) -> wf_out (snd (fst c)) ->
  (forall a x, view (fst (fst c)) a = Some x -> d a = x) ->
  leval (fun a => Some (d a)) (snd c) (snd (fst c)) = (snd (fst c'), r) \/
  (r = Panic PUser /\ (exists a, l_cells (fst (fst c')) a = Poisoned) /\
   exists more, output_as_slice (fst (leval (fun a => Some (d a)) (snd c) (snd (fst c)))) = output_as_slice (snd (fst c')) ++ more).
Proof.
  induction 1 as [c|c c1 c2 H1 H2 IH]; intros r Hr Hg Ho Hd; [left; rewrite Hr; reflexivity|]. specialize (IH r Hr).
  destruct H1 as [c c1 H1|s o p a]; [destruct H1 as [s o m k o1 r1 E|s o a k s1 x E|s o a k s1 E]|]; cbn [fst snd leval good] in *.
  - rewrite E. destruct Hg as [(cs & q & Ht) Hk]. apply IH; [apply Hk | | exact Hd]. destruct (replay_extends cs q o Ho) as [H3 _]. rewrite <- (Ht o), E in H3. exact H3.
  - assert (V : view s a = Some x) by (rewrite <- force_view, E; reflexivity). rewrite (Hd _ _ V). apply IH; [apply Hg | exact Ho|].
    intros b y Hb. apply Hd. rewrite <- Hb. replace s1 with (fst (force a s)) by (rewrite E; reflexivity). symmetry. apply view_force.
  - right. pose proof (runs_leval _ _ H2 r Hr) as L. cbn in L. inversion L; subst. split; [reflexivity|]. split.
    + exists a. assert (Hp : l_cells s1 a = Poisoned) by (replace s1 with (fst (force a s)) by (rewrite E; reflexivity); apply force_poison; rewrite E; reflexivity).
      destruct c2 as [[s2 o2] p2]. cbn [fst snd] in *. apply C125_kept_lemma with (a := a) in H2. destruct H2 as [_ H2]. rewrite H2; [exact Hp | rewrite Hp; discriminate].
    + apply good_extends; [apply Hg | exact Ho].
  - apply IH; [exact Hg | exact Ho|]. intros b y Hb. apply Hd. rewrite <- Hb. symmetry. apply view_force.
Qed.

Lemma C125_outcome_lemma : forall checks t v s o s' o' r d,
  LRuns (s, o, lazy_encode checks t v) (s', o', PDone r) -> output_position o <= output_capacity o -> (forall a x, view s a = Some x -> d a = x) ->
  encode checks t (forced d t v) o = (o', r) \/
  (r = Panic PUser /\ (exists a, l_cells s' a = Poisoned) /\
   exists more, output_as_slice (fst (encode checks t (forced d t v) o)) = output_as_slice o' ++ more).
Proof.
  intros ch t v s o s' o' r d H Ho Hd. pose proof (@runs_outcome d _ _ H r eq_refl (lazy_good ch t v) Ho Hd) as G. cbn [fst snd] in G.
  rewrite (lazy_as d ch t v o) in G. exact G.
Qed.

(* ---- which cells are looked at *)

Fixpoint loads (w : Z -> option val) (c : Z) (p : prog) : Prop :=
  match p with
  | PDone _ => False
  | PDo _ k => exists r, loads w c (k r)
  | PLoad a k => c = a \/ match w a with Some x => loads w c (k x) | None => False end
  end.
Lemma loads_ext w w' c p : (forall a, w a = w' a) -> loads w c p -> loads w' c p.
Proof.
  intros H. induction p as [r|m k IH|a k IH]; cbn [loads]; [tauto | intros (r & Hr); eauto|]. rewrite H. destruct (w' a); [|tauto]. intros [E|E]; auto.
Qed.

Lemma alone_calls c c' : Alone c c' -> forall a, In a (l_calls (fst (fst c'))) -> In a (l_calls (fst (fst c))) \/ loads (view (fst (fst c))) a (snd c).
Proof.
  assert (F : forall a s b, In b (l_calls (fst (force a s))) -> In b (l_calls s) \/ b = a).
  { intros a s b. unfold force. destruct (l_cells s a) as [[x|]|x|]; cbn [fst l_calls]; rewrite ?in_app_iff; cbn [In]; intuition congruence. }
  induction 1 as [c|c c1 c2 H1 H2 IH]; intros b Hb; [left; exact Hb|]. specialize (IH b Hb).
  destruct H1 as [s o m k o1 r1 E|s o a k s1 x E|s o a k s1 E]; cbn [fst snd loads] in *.
  - destruct IH as [H|H]; [left; exact H | right; exists r1; exact H].
  - replace s1 with (fst (force a s)) in * by (rewrite E; reflexivity). destruct IH as [H|H]; [destruct (F _ _ _ H); auto|].
    right. right. rewrite <- force_view, E. cbn [snd]. revert H. apply loads_ext. intros y. apply view_force.
  - replace s1 with (fst (force a s)) in * by (rewrite E; reflexivity). destruct IH as [H|[]]. destruct (F _ _ _ H); auto.
Qed.

Section Loads.
  Variables (w : Z -> option val) (c : Z).
  Lemma loads_do m : loads w c (pdo m) -> False.
  Proof. intros (r & []). Qed.
  Lemma loads_seq p q : loads w c (pseq p q) -> loads w c p \/ loads w c q.
  Proof.
    induction p as [r|m k IH|a k IH]; cbn [pseq loads]; [destruct r; cbn [loads]; tauto | intros (r & Hr); destruct (IH _ Hr); eauto|].
    destruct (w a); [|tauto]. intros [H|H]; [tauto|]. destruct (IH _ H); tauto.
  Qed.
  Lemma loads_map f p : loads w c (pmap_err f p) -> loads w c p.
  Proof.
    induction p as [r|m k IH|a k IH]; cbn [pmap_err loads]; [destruct r; cbn [loads]; tauto | intros (r & Hr); eauto|].
    destruct (w a); [|tauto]. intros [H|H]; [tauto|]. right. apply IH. exact H.
  Qed.
  Lemma loads_items f (P : val -> Prop) wrap vs : (forall x, loads w c (f x) -> P x) -> forall i, loads w c (p_items f wrap i vs) -> Exists P vs.
  Proof.
    intros H. induction vs as [|x vs IH]; intros i; cbn [p_items]; [intros G; destruct (loads_do _ G)|].
    intros G. apply loads_seq in G. destruct G as [G|G]; [left; apply H, (loads_map _ _ G) | right; apply (IH _ G)].
  Qed.
  Lemma loads_slice f (P : val -> Prop) wrap vs : (forall x, loads w c (f x) -> P x) -> loads w c (p_slice f wrap vs) -> Exists P vs.
  Proof. intros H G. apply loads_seq in G. destruct G as [G|G]; [destruct (loads_do _ G) | apply (loads_items f P wrap vs H _ G)]. Qed.
  Lemma loads_entries f g (P Q : val -> Prop) vs : (forall x, loads w c (f x) -> P x) -> (forall x, loads w c (g x) -> Q x) ->
    loads w c (p_entries f g vs) -> Exists (fun p => P (fst p) \/ Q (snd p)) vs.
  Proof.
    intros H H'. induction vs as [|[x y] vs IH]; cbn [p_entries]; [intros G; destruct (loads_do _ G)|].
    intros G. apply loads_seq in G. destruct G as [G|G]; [left; left; apply H, G|]. apply loads_seq in G. destruct G as [G|G]; [left; right; apply H', G | right; apply IH, G].
  Qed.
  Lemma loads_keys f (P : val -> Prop) vs : (forall x, loads w c (f x) -> P x) -> loads w c (p_keys f vs) -> Exists P vs.
  Proof.
    intros H. induction vs as [|x vs IH]; cbn [p_keys]; [intros G; destruct (loads_do _ G)|].
    intros G. apply loads_seq in G. destruct G as [G|G]; [left; apply H, G | right; apply IH, G].
  Qed.
  Lemma loads_fields ch ts conv : Forall (fun t => forall v, loads w c (lazy_encode ch t v) -> Part w c t v) ts ->
    forall vs, loads w c (p_fields (map (lazy_encode ch) ts) conv vs) -> Some_of (map (Part w c) ts) vs.
  Proof.
    induction 1 as [|t ts Ht _ IH]; intros [|v vs]; cbn [map p_fields Some_of]; intros G; try (destruct (loads_do _ G)).
    apply loads_seq in G. destruct G as [G|G]; [left; apply Ht, (loads_map _ _ G) | right; apply IH, G].
  Qed.

  Lemma lazy_loads ch t : forall v, loads w c (lazy_encode ch t v) -> Part w c t v.
  Proof.
    induction t using ty_ind_strong; intros v0; destruct v0; cbn [lazy_encode Part]; try (intros G; destruct (loads_do _ G); fail).
    all: try (intros G; apply loads_seq in G; destruct G as [G|G]; [destruct (loads_do _ G) | try apply loads_map in G; first [apply IHt, G | apply IHt1, G | apply IHt2, G]]).
    all: try (apply loads_fields; assumption).
    all: try (apply loads_items; exact IHt).
    all: try (apply loads_slice; exact IHt).
    all: try (apply loads_keys; exact IHt).
    all: try (intros G; apply loads_seq in G; destruct G as [G|G]; [left | right]; apply IHt, G).
    all: try apply IHt.
    all: try (destruct w0; intros G; destruct (loads_do _ G); fail).
    - destruct w0; try (apply IHt); destruct v0; try (apply IHt); cbn [loads]; (intros [H|H]; [left; exact H | right; destruct (w z); [apply IHt, H | exact H]]).
    - destruct mut_borrowed; [intros G; destruct (loads_do _ G) | intros G; apply loads_map in G; apply IHt, G].
    - apply loads_entries; assumption.
    - unfold p_enum. destruct (discriminants (map fst vs)) as [ds|]; [|intros G; destruct (loads_do _ G)]. destruct (nth_error ds i) as [dz|]; [|intros G; destruct (loads_do _ G)].
      rewrite !nth_error_map. destruct (nth_error vs i) as [[x ts]|] eqn:Ev; cbn [option_map snd]; [|intros G; destruct (loads_do _ G)].
      intros G. apply loads_seq in G. destruct G as [G|G]; [destruct (loads_do _ G)|]. revert G. apply loads_fields.
      rewrite Forall_forall in H. exact (H _ (nth_error_In _ _ Ev)).
  Qed.
End Loads.

Lemma C125_only_lemma : forall checks t v s o s' o' p' a, Alone (s, o, lazy_encode checks t v) (s', o', p') ->
  In a (l_calls s') -> In a (l_calls s) \/ Part (view s) a t v.
Proof. intros ch t v s o s' o' p' a H Ha. destruct (alone_calls _ _ H a Ha) as [G|G]; [left; exact G | right; exact (lazy_loads _ _ _ _ _ G)]. Qed.

Lemma C125_returns_lemma : forall checks t v s o, exists s' o' r, Alone (s, o, lazy_encode checks t v) (s', o', PDone r).
Proof.
  intros ch t v. generalize (lazy_encode ch t v) as p. intros p. induction p as [r|m k IH|a k IH]; intros s o.
  - exists s, o, r. constructor.
  - destruct (m o) as [o1 r1] eqn:E. destruct (IH r1 s o1) as (s' & o' & r & H). exists s', o', r. econstructor; [constructor; exact E | exact H].
  - destruct (force a s) as [s1 [x|]] eqn:E.
    + destruct (IH x s1 o) as (s' & o' & r & H). exists s', o', r. econstructor; [eapply LOwn_load; exact E | exact H].
    + exists s1, o, (Panic PUser). econstructor; [eapply LOwn_panic; exact E | constructor].
Qed.

Lemma alone_runs c c' : Alone c c' -> LRuns c c'.
Proof. induction 1 as [c|c c1 c2 H1 _ IH]; [constructor|]. econstructor; [constructor; exact H1 | exact IH]. Qed.

(* the encoder alone; only to compute cases *)
Fixpoint go (p : prog) (s : store) (o : output) : store * output * res eerr unit :=
  match p with
  | PDone r => (s, o, r)
  | PDo m k => let '(o1, r1) := m o in go (k r1) s o1
  | PLoad a k => match force a s with (s1, Some x) => go (k x) s1 o | (s1, None) => (s1, o, Panic PUser) end
  end.
Lemma go_alone p : forall s o, Alone (s, o, p) (fst (go p s o), PDone (snd (go p s o))).
Proof.
  induction p as [r|m k IH|a k IH]; intros s o; cbn [go].
  - constructor.
  - destruct (m o) as [o1 r1] eqn:E. econstructor; [constructor; exact E | apply IH].
  - destruct (force a s) as [s1 [x|]] eqn:E; econstructor; [eapply LOwn_load; exact E | apply IH | eapply LOwn_panic; exact E | constructor].
Qed.
Lemma go_case p s o o' r calls : (let '(s', x, y) := go p s o in (l_calls s', x, y)) = (calls, o', r) -> exists s', l_calls s' = calls /\ Alone (s, o, p) (s', o', PDone r).
Proof.
  intros H. pose proof (go_alone p s o) as G. destruct (go p s o) as [[s' x] y]. cbn [fst snd] in *. inversion H; subst. exists s'. split; [reflexivity | exact G].
Qed.
