(* C49-C54: the lemmas behind the theorems about SizedSlice. *)
From Coq Require Import Lia.
From Verif Require Import Base BaseFacts Streams Types Decode Mem SizedSlice SizedIter SizedStr SpecContainers SizedSliceProofs.

Lemma C49_new_lemma : forall A (cl : A -> option A) n data,
  (n < length data -> ss_new cl n data = Done (inl (LengthError n (length data)))) /\
  (forall copies, length data <= n -> Clones cl data copies ->
     exists s, ss_new cl n data = Done (inr s) /\ ss_as_slice s = Done copies /\ ss_capacity s = n) /\
  (length data <= n -> ~ (exists copies, Clones cl data copies) -> ss_new cl n data = Panics PUser).
Proof.
  intros A cl n data. split; [|split].
  - intros H. unfold ss_new. replace (n <? length data) with true by (symmetry; apply Nat.ltb_lt; exact H). reflexivity.
  - intros copies Hn Hc. destruct (@new_shape _ _ _ _ _ Hn Hc) as (s & H & Hs). exists s. split; [exact H|].
    split; [exact (shape_slice Hs) | apply (shape_len Hs)].
  - intros Hn Hnone. unfold ss_new. replace (n <? length data) with false by (symmetry; apply Nat.ltb_ge; exact Hn).
    enough (H : forall n, length data <= n -> clone_into cl (uninit A n) data = Panics PUser) by (rewrite H by exact Hn; reflexivity).
    clear n Hn. induction data as [|x data IH]; intros n Hn.
    + exfalso. apply Hnone. exists []. constructor.
    + destruct n as [|n]; [cbn in Hn; lia|]. cbn [uninit repeat clone_into]. destruct (cl x) as [y|] eqn:E; [|reflexivity].
      change (repeat None n) with (uninit A n). rewrite IH; [reflexivity | | cbn in Hn; lia].
      intros (copies & Hc). apply Hnone. exists (y :: copies). constructor; assumption.
Qed.

Lemma C50_lemma : forall St A (next : iterator St A) n st s st', ss_from_iter next n st = (s, st') ->
  exists items, ss_as_slice s = Done items /\ ss_capacity s = n /\
    ((length items = n /\ Pulls next st items st') \/
     (length items < n /\ exists st1, Pulls next st items st1 /\ next st1 = (None, st'))).
Proof.
  intros St A next n st s st' H. unfold ss_from_iter in H. destruct (fill next n st) as [[buf len] st1] eqn:E. injection H as <- <-.
  destruct (@fill_spec _ _ _ _ _ _ _ _ E) as (items & rest & -> & -> & Hl & Hp).
  assert (Hs : shape n items (SSlice (map Some items ++ rest) (length items))) by (exists rest; auto).
  exists items. split; [exact (shape_slice Hs)|]. split; [apply (shape_len Hs) | exact Hp].
Qed.

Lemma C50_list_lemma : forall A (l : list A) n s l', ss_from_iter list_next n l = (s, l') ->
  ss_as_slice s = Done (firstn n l) /\ l' = skipn n l.
Proof.
  intros A l n s l' H. unfold ss_from_iter in H. destruct (fill list_next n l) as [[buf len] l1] eqn:E. injection H as <- <-.
  enough (G : forall n (l : list A) buf len l1, fill list_next n l = (buf, len, l1) ->
    exists rest, buf = map Some (firstn n l) ++ rest /\ len = length (firstn n l) /\ l1 = skipn n l).
  { destruct (G _ _ _ _ _ E) as (rest & -> & -> & ->). split; [|reflexivity].
    exact (@mem_slice_mid A (firstn n l) [] rest 0 eq_refl). }
  clear. induction n as [|n IH]; cbn [fill]; intros l buf len l1 H.
  - injection H as <- <- <-. exists []. auto.
  - destruct l as [|x l]; cbn [list_next] in H.
    + injection H as <- <- <-. exists (uninit A (S n)). auto.
    + destruct (fill list_next n l) as [[b k] l2] eqn:E. injection H as <- <- <-. destruct (IH _ _ _ _ E) as (rest & -> & -> & ->).
      exists rest. auto.
Qed.

Lemma C51_lemma : forall n A (s : sslice A), Reachable n s ->
  exists items, ss_as_slice s = Done items /\ length items = ss_length s /\ ss_length s <= n /\ ss_capacity s = n /\
    it_as_slice (ss_into_iter s) = Done items /\
    (forall cl copies, Clones cl items copies -> exists s', ss_clone cl s = Done s' /\ ss_as_slice s' = Done copies /\ ss_capacity s' = n) /\
    (exists refs addrs, ss_each_ref s = Done refs /\ ss_as_slice refs = Done addrs /\ NoDup addrs /\
       Forall2 (fun a x => ss_deref s a = Done x) addrs items) /\
    (forall k, ss_index s k = match nth_error items k with Some x => Done x | None => Panics PIndex end) /\
    (forall a b, ss_index_range s a b = if (a <=? b) && (b <=? length items) then Done (firstn (b - a) (skipn a items)) else Panics PIndex).
Proof.
  intros n A s Hr. destruct (reachable_shape Hr) as (items & Hs). destruct (shape_len Hs) as (Hl & Hc & Hn).
  exists items. split; [exact (shape_slice Hs)|]. split; [congruence|]. split; [lia|]. split; [exact Hc|]. split; [|split; [|split]].
  - destruct Hs as (rest & -> & _). exact (@mem_slice_mid A items [] rest 0 eq_refl).
  - intros cl copies Hcl. destruct (@clone_shape _ _ _ _ _ _ Hs Hcl) as (s' & H' & Hs'). exists s'. split; [exact H'|].
    split; [exact (shape_slice Hs') | apply (shape_len Hs')].
  - destruct (each_ref_shape Hs) as (refs & H' & Hs'). exists refs, (seq 0 (length items)). split; [exact H'|].
    split; [exact (shape_slice Hs')|]. split; [apply seq_NoDup|].
    destruct Hs as (rest & -> & _). unfold ss_deref. cbn [ss_buf]. clear.
    enough (G : forall (pre : list (option A)), Forall2 (fun a x => mem_read (pre ++ map Some items ++ rest) a = Done x) (seq (length pre) (length items)) items)
      by exact (G []).
    induction items as [|x items IH]; intros pre; [constructor|]. cbn [length seq map app]. constructor.
    + apply mem_read_mid. reflexivity.
    + change (pre ++ Some x :: map Some items ++ rest) with (pre ++ [Some x] ++ map Some items ++ rest). rewrite app_assoc.
      replace (S (length pre)) with (length (pre ++ [Some x])) by (rewrite app_length; cbn [length]; lia). apply IH.
  - unfold ss_index, ss_index_range. rewrite (shape_slice Hs). cbn [obind]. split; reflexivity.
Qed.

Lemma C51_into_vec_lemma : forall n A (s : sslice A) items size, Reachable n s -> ss_as_slice s = Done items ->
  items <> [] -> (0 < size)%N -> ss_into_boxed_slice size true s = Done items.
Proof.
  intros n A s items size Hr Hi Hne Hz. destruct (reachable_shape Hr) as (items' & Hs). pose proof (shape_unique Hs Hi) as ->.
  destruct (shape_len Hs) as (Hl & _ & _). unfold ss_length in Hl. unfold ss_into_boxed_slice. rewrite Hl.
  replace ((size * N.of_nat (length items') =? 0)%N) with false.
  - unfold ss_as_slice in Hi. rewrite Hl in Hi. exact Hi.
  - symmetry. apply N.eqb_neq. destruct items'; [congruence|]. cbn [length]. lia.
Qed.

Lemma C51_refutation :
  (forall A n size, exists s : sslice A, Reachable n s /\ ss_as_slice s = Done [] /\ ss_into_boxed_slice size true s = Undefined UZeroAlloc) /\
  (exists s : sslice unit, Reachable 1 s /\ ss_as_slice s = Done [tt] /\ ss_into_boxed_slice 0 true s = Undefined UZeroAlloc).
Proof.
  split.
  - intros A n size. exists (ss_default A n). split; [constructor|]. split; [reflexivity|].
    unfold ss_into_boxed_slice. cbn [ss_default ss_len N.of_nat]. rewrite N.mul_0_r. reflexivity.
  - exists (ss_from_array [tt]). split; [constructor; reflexivity|]. split; reflexivity.
Qed.

(* comparisons *)

Lemma slice_eq_spec {A B} (eq : A -> B -> bool) x : forall y, slice_eq eq x y = true <-> Forall2 (fun a b => eq a b = true) x y.
Proof.
  induction x as [|a x IH]; intros [|b y]; cbn [slice_eq].
  - split; [constructor | reflexivity].
  - split; [discriminate | intros H; inversion H].
  - split; [discriminate | intros H; inversion H].
  - rewrite andb_true_iff, IH. split; [intros [H1 H2]; constructor; assumption | intros H; inversion H; auto].
Qed.

Lemma Forall2_eq {A} (x y : list A) : Forall2 eq x y <-> x = y.
Proof.
  split; [induction 1; congruence | intros <-; induction x; constructor; auto].
Qed.

Lemma C52_eq_lemma : forall n m A B (eq : A -> B -> bool) s s' x y,
  @Reachable n A s -> @Reachable m B s' -> ss_as_slice s = Done x -> ss_as_slice s' = Done y ->
  exists b, ss_eq eq s s' = Done b /\ ss_eq_slice eq s y = Done b /\ (b = true <-> Forall2 (fun a b => eq a b = true) x y).
Proof.
  intros n m A B eq s s' x y _ _ Hx Hy. unfold ss_eq, ss_eq_slice. rewrite Hx, Hy. cbn. eexists. split; [reflexivity|].
  split; [reflexivity | apply slice_eq_spec].
Qed.

Lemma slice_cmp_lt {A} (cmp : A -> A -> comparison) x : forall y,
  slice_cmp cmp x y = Lt <-> LexLess (fun a b => cmp a b = Eq) (fun a b => cmp a b = Lt) x y.
Proof.
  induction x as [|a x IH]; intros [|b y]; cbn [slice_cmp].
  - split; [discriminate|]. intros (p & q & _ & [(b & y' & <- & H) | (a & x' & b & y' & H & _)]).
    + destruct q; discriminate H.
    + destruct p; discriminate H.
  - split; [|reflexivity]. intros _. exists [], []. split; [constructor|]. left. exists b, y. auto.
  - split; [discriminate|]. intros (p & q & _ & [(c & y' & _ & H) | (c & x' & d & y' & _ & H & _)]); destruct q; discriminate H.
  - split.
    + intros H. destruct (cmp a b) eqn:E.
      * apply IH in H. destruct H as (p & q & Hpq & Hc). exists (a :: p), (b :: q). split; [constructor; assumption|].
        destruct Hc as [(d & y' & -> & ->) | (c & x' & d & y' & -> & -> & Hlt)].
        -- left. exists d, y'. auto.
        -- right. exists c, x', d, y'. auto.
      * exists [], []. split; [constructor|]. right. exists a, x, b, y. auto.
      * discriminate.
    + intros (p & q & Hpq & Hc). destruct Hpq as [|c d p q Hcd Hpq].
      * destruct Hc as [(d & y' & H & _) | (c & x' & d & y' & H1 & H2 & Hlt)]; [discriminate|].
        cbn in H1, H2. injection H1 as -> ->. injection H2 as -> ->. rewrite Hlt. reflexivity.
      * destruct Hc as [(e & y' & H1 & H2) | (e & x' & f & y' & H1 & H2 & Hlt)]; cbn [app] in H1, H2; injection H1 as -> ->; injection H2 as -> ->;
          rewrite Hcd; apply IH; exists p, q; (split; [exact Hpq|]); [left; eauto | right; eauto 8].
Qed.

Lemma slice_cmp_eq {A} (cmp : A -> A -> comparison) x : forall y, slice_cmp cmp x y = Eq <-> Forall2 (fun a b => cmp a b = Eq) x y.
Proof.
  induction x as [|a x IH]; intros [|b y]; cbn [slice_cmp].
  - split; [constructor | reflexivity].
  - split; [discriminate | intros H; inversion H].
  - split; [discriminate | intros H; inversion H].
  - destruct (cmp a b) eqn:E.
    + rewrite IH. split; [intros H; constructor; assumption | intros H; inversion H; assumption].
    + split; [discriminate | intros H; inversion H; congruence].
    + split; [discriminate | intros H; inversion H; congruence].
Qed.

Lemma slice_cmp_opp {A} (cmp : A -> A -> comparison) : (forall a b, cmp b a = CompOpp (cmp a b)) ->
  forall x y, slice_cmp cmp y x = CompOpp (slice_cmp cmp x y).
Proof.
  intros Hopp. induction x as [|a x IH]; intros [|b y]; cbn [slice_cmp]; try reflexivity.
  rewrite (Hopp a b). destruct (cmp a b); cbn [CompOpp]; [apply IH | reflexivity | reflexivity].
Qed.

Lemma slice_cmp_trans {A} (cmp : A -> A -> comparison) : TotalOrder cmp ->
  forall x y z, slice_cmp cmp x y = Lt -> slice_cmp cmp y z = Lt -> slice_cmp cmp x z = Lt.
Proof.
  intros (Heq & Hopp & Htr). induction x as [|a x IH]; intros [|b y] [|c z]; cbn [slice_cmp]; try discriminate; try reflexivity.
  intros H1 H2. destruct (cmp a b) eqn:E1; [| |discriminate].
  - apply Heq in E1. subst b. destruct (cmp a c); [eauto | reflexivity | discriminate].
  - destruct (cmp b c) eqn:E2; [| |discriminate].
    + apply Heq in E2. subst c. rewrite E1. reflexivity.
    + rewrite (Htr _ _ _ E1 E2). reflexivity.
Qed.

Lemma C52_cmp_lemma : forall n m A (cmp : A -> A -> comparison) (s s' : sslice A) x y,
  Reachable n s -> Reachable m s' -> ss_as_slice s = Done x -> ss_as_slice s' = Done y -> (forall a b, cmp b a = CompOpp (cmp a b)) ->
  exists c, ss_cmp cmp s s' = Done c /\
    (c = Eq <-> Forall2 (fun a b => cmp a b = Eq) x y) /\
    (c = Lt <-> LexLess (fun a b => cmp a b = Eq) (fun a b => cmp a b = Lt) x y) /\
    (c = Gt <-> LexLess (fun a b => cmp a b = Eq) (fun a b => cmp a b = Lt) y x).
Proof.
  intros n m A cmp s s' x y _ _ Hx Hy Hopp. unfold ss_cmp. rewrite Hx, Hy. cbn. eexists. split; [reflexivity|].
  split; [apply slice_cmp_eq|]. split; [apply slice_cmp_lt|].
  rewrite <- slice_cmp_lt, (slice_cmp_opp _ Hopp x y). destruct (slice_cmp cmp x y); cbn [CompOpp]; split; congruence.
Qed.

Lemma C52_total_lemma : forall A (cmp : A -> A -> comparison), TotalOrder cmp -> TotalOrder (slice_cmp cmp).
Proof.
  intros A cmp Ht. split; [|split].
  - intros x y. rewrite slice_cmp_eq. rewrite <- Forall2_eq. destruct Ht as (Heq & _).
    split; (intros H; induction H; constructor; [apply Heq; assumption | assumption]).
  - intros x y. apply slice_cmp_opp. apply Ht.
  - intros x y z. apply slice_cmp_trans. exact Ht.
Qed.

(* the partial order of items decides as long as they are comparable *)
Lemma C52_partial_cmp_lemma : forall n m A (pcmp : A -> A -> option comparison) (s s' : sslice A) x y,
  Reachable n s -> Reachable m s' -> ss_as_slice s = Done x -> ss_as_slice s' = Done y ->
  exists c, ss_partial_cmp pcmp s s' = Done c /\ ss_partial_cmp_slice pcmp s y = Done c /\
    forall cmp, (forall a b, In a x -> In b y -> pcmp a b = Some (cmp a b)) -> c = Some (slice_cmp cmp x y).
Proof.
  intros n m A pcmp s s' x y _ _ Hx Hy. unfold ss_partial_cmp, ss_partial_cmp_slice. rewrite Hx, Hy. cbn. eexists. split; [reflexivity|].
  split; [reflexivity|]. clear. intros cmp. revert y. induction x as [|a x IH]; intros [|b y] H; cbn [slice_partial_cmp slice_cmp]; try reflexivity.
  rewrite H by (left; reflexivity). destruct (cmp a b); [|reflexivity|reflexivity].
  apply IH. intros c d Hc Hd. apply H; right; assumption.
Qed.

Lemma C52_hash_lemma : forall n m A B (eq : A -> B -> bool) (hash : A -> list hash_call) (hash' : B -> list hash_call) s s',
  @Reachable n A s -> @Reachable m B s' -> (forall a b, eq a b = true -> hash a = hash' b) ->
  ss_eq eq s s' = Done true -> exists h, ss_hash hash s = Done h /\ ss_hash hash' s' = Done h.
Proof.
  intros n m A B eq hash hash' s s' Hr Hr' Hh He.
  destruct (reachable_shape Hr) as (x & Hs). destruct (reachable_shape Hr') as (y & Hs').
  unfold ss_eq in He. unfold ss_hash. rewrite (shape_slice Hs), (shape_slice Hs') in *. cbn in *. injection He as He.
  apply slice_eq_spec in He. eexists. split; [reflexivity|]. f_equal. clear - He Hh.
  induction He as [|a b x y Hab Hxy IH]; [reflexivity|]. cbn [flat_map]. rewrite IH, (Hh _ _ Hab). reflexivity.
Qed.

Lemma C53_lemma : forall n A (hash : A -> list hash_call) (s : sslice A) items, Reachable n s -> ss_as_slice s = Done items ->
  ss_hash hash s = Done (flat_map hash items).
Proof. intros n A hash s items _ Hi. unfold ss_hash. rewrite Hi. reflexivity. Qed.

Lemma C53_refutation : forall n A (hash : A -> list hash_call) (s : sslice A) items, Reachable n s -> ss_as_slice s = Done items ->
  exists h, ss_hash hash s = Done h /\ slice_hash (flat_map hash) items = HUsize (length items) :: h /\ h <> slice_hash (flat_map hash) items.
Proof.
  intros n A hash s items _ Hi. unfold ss_hash. rewrite Hi. cbn. eexists. split; [reflexivity|]. split; [reflexivity|].
  unfold slice_hash. intros H. apply (f_equal (@length hash_call)) in H. cbn [length] in H. lia.
Qed.

(* C54: nothing undefined, apart from the two refuted calls *)
Definition defined {A} (o : out A) : Prop := forall u, o <> Undefined u.

Lemma clone_into_defined {A} (cl : A -> option A) data : forall buf, defined (clone_into cl buf data).
Proof.
  induction data as [|x data IH]; intros [|o buf] u; cbn [clone_into]; try discriminate.
  destruct (cl x); [|discriminate]. specialize (IH buf). destruct (clone_into cl buf data); try discriminate.
  exfalso. apply (IH u0). reflexivity.
Qed.

Lemma C54_lemma : forall n A (s : sslice A), Reachable n s ->
  ss_length s <= ss_capacity s /\ ss_capacity s = n /\
  (forall u, ss_as_slice s <> Undefined u) /\
  (forall cl u, ss_clone cl s <> Undefined u) /\
  (forall u, ss_each_ref s <> Undefined u) /\
  (forall k u, ss_index s k <> Undefined u) /\
  (forall a b u, ss_index_range s a b <> Undefined u) /\
  (forall k x u, ss_index_set s k x <> Undefined u) /\
  (forall hash u, ss_hash hash s <> Undefined u) /\
  (forall data u, length data <= ss_capacity s -> ss_copy_from_slice s data <> Undefined u) /\
  (forall size granted u, (0 < size)%N -> 0 < ss_length s -> ss_into_boxed_slice size granted s <> Undefined u).
Proof.
  intros n A s Hr. destruct (reachable_shape Hr) as (items & Hs). destruct (shape_len Hs) as (Hl & Hc & Hn).
  split; [lia|]. split; [exact Hc|]. split; [rewrite (shape_slice Hs); discriminate|].
  split; [|split; [|split; [|split; [|split; [|split; [|split]]]]]].
  - intros cl u H. destruct (@clone_panics _ cl _ _ _ Hs) as [(copies & Hcl) | Hp]; [|congruence].
    destruct (@clone_shape _ _ _ _ _ _ Hs Hcl) as (s' & H' & _). congruence.
  - intros u H. destruct (each_ref_shape Hs) as (s' & H' & _). congruence.
  - intros k u. unfold ss_index. rewrite (shape_slice Hs). cbn. destruct (nth_error items k); discriminate.
  - intros a b u. unfold ss_index_range. rewrite (shape_slice Hs). cbn. destruct (_ && _); discriminate.
  - intros k x u H. destruct (Nat.ltb_spec k (length items)) as [Hk|Hk].
    + destruct (@set_shape _ _ _ _ _ x Hs Hk) as (s' & H' & _). congruence.
    + unfold ss_index_set in H. unfold ss_length in Hl. rewrite Hl in H.
      replace (k <? length items) with false in H by (symmetry; apply Nat.ltb_ge; exact Hk). discriminate.
  - intros hash u. unfold ss_hash. rewrite (shape_slice Hs). discriminate.
  - intros data u Hd H. rewrite Hc in Hd. destruct (@copy_shape _ _ _ _ data Hs Hd) as (s' & H' & _). congruence.
  - intros size granted u Hz Hp. unfold ss_into_boxed_slice. unfold ss_length in *. 
    replace ((size * N.of_nat (ss_len s) =? 0)%N) with false by (symmetry; apply N.eqb_neq; lia).
    destruct granted; [|discriminate]. fold (ss_as_slice s). rewrite (shape_slice Hs). discriminate.
Qed.

Lemma C54_make_lemma : forall A (cl : A -> option A) n data u, ss_new cl n data <> Undefined u.
Proof.
  intros A cl n data u. unfold ss_new. destruct (n <? length data); [discriminate|].
  pose proof (clone_into_defined cl data (uninit A n)) as H. destruct (clone_into cl (uninit A n) data); try discriminate.
  exfalso. apply (H u0). reflexivity.
Qed.

Lemma C54_refutation : forall n A (s : sslice A) data, Reachable n s -> n < length data -> ss_copy_from_slice s data = Undefined UOutOfBounds.
Proof.
  intros n A s data Hr Hd. destruct (reachable_shape Hr) as (items & Hs). destruct (shape_len Hs) as (_ & Hc & _).
  unfold ss_copy_from_slice, mem_copy. unfold ss_capacity in Hc. rewrite Hc.
  replace (length data <=? n) with false by (symmetry; apply Nat.leb_gt; exact Hd). reflexivity.
Qed.
