(* C55, C57-C59: the lemmas behind the theorems about SizedIter and about ownership. *)
From Coq Require Import Lia Permutation.
From Verif Require Import Base BaseFacts Streams Types Decode Mem SizedSlice SizedIter SizedStr SpecContainers SizedSliceProofs Owned.

Definition ishape {A} (n : nat) (rest : list A) (i : siter A) : Prop :=
  exists pre post, i = SIter (pre ++ map Some rest ++ post) (length pre) (length rest) /\ length pre + length rest + length post = n.

Lemma ishape_slice {A} n (rest : list A) i : ishape n rest i -> it_as_slice i = Done rest.
Proof. intros (pre & post & -> & _). unfold it_as_slice. cbn. apply mem_slice_mid. reflexivity. Qed.

Lemma ishape_into {A} n (items : list A) s : shape n items s -> ishape n items (ss_into_iter s).
Proof. intros (rest & -> & H). exists [], rest. split; [reflexivity | cbn; lia]. Qed.

(* one call of next or next_back *)
Definition deque1 {A} (e : end_of) (items : list A) : option A * list A :=
  match e, items, rev items with
  | Front, x :: r, _ => (Some x, r)
  | Back, _, x :: r => (Some x, rev r)
  | _, _, _ => (None, [])
  end.

Lemma ishape_step {A} n (rest : list A) i e : ishape n rest i ->
  exists i', it_step e i = Done (fst (deque1 e rest), i') /\ ishape n (snd (deque1 e rest)) i'.
Proof.
  intros (pre & post & -> & Hn). destruct e; cbn [it_step deque1].
  - unfold it_next. cbn [it_len it_buf it_pos]. destruct rest as [|x rest]; cbn [length Nat.eqb].
    + eexists. split; [reflexivity|]. exists pre, post. auto.
    + cbn [map app]. rewrite mem_read_mid by reflexivity. cbn [omap obind fst snd]. eexists. split; [reflexivity|].
      exists (pre ++ [Some x]), post. rewrite app_length, <- app_assoc. cbn [app length] in *.
      replace (S (length rest) - 1) with (length rest) by lia. split; [reflexivity | lia].
  - unfold it_next_back. cbn [it_len it_buf it_pos]. destruct (rev rest) as [|x r] eqn:E.
    + apply (f_equal (@rev A)) in E. rewrite rev_involutive in E. subst rest. cbn. eexists. split; [reflexivity|]. exists pre, post. auto.
    + apply (f_equal (@rev A)) in E. rewrite rev_involutive in E. cbn [rev] in E. subst rest.
      rewrite app_length. cbn [length]. replace (length (rev r) + 1 =? 0) with false by (symmetry; apply Nat.eqb_neq; lia).
      rewrite map_app. cbn [map]. rewrite <- !app_assoc. cbn [app]. rewrite (app_assoc pre). rewrite mem_read_mid by (rewrite app_length, map_length; lia).
      cbn [omap obind]. replace (match rev r ++ [x] with [] => (Some x, rev r) | _ :: _ => (Some x, rev r) end) with (Some x, rev r)
        by (destruct (rev r ++ [x]); reflexivity).
      cbn [fst snd]. eexists. split; [reflexivity|].
      exists pre, (Some x :: post). rewrite <- app_assoc. replace (length (rev r) + 1 - 1) with (length (rev r)) by lia.
      rewrite app_length in Hn. cbn [app length] in *. split; [reflexivity | lia].
Qed.

Lemma ishape_nth {A} n (rest : list A) i ch k r dropped i' : ishape n rest i -> it_nth ch i k = Done (r, dropped, i') ->
  (length rest < k /\ r = None /\ dropped = [] /\ i' = i) \/
  (1 <= k <= length rest /\ dropped = firstn (k - 1) rest /\ ishape n (skipn k rest) i' /\ exists x, r = Some x /\ nth_error (it_buf i) k = Some (Some x)).
Proof.
  intros (pre & post & -> & Hn). unfold it_nth. cbn [it_len it_buf it_pos].
  destruct (Nat.ltb_spec (length rest) k) as [Hk|Hk].
  - intros H. injection H as <- <- <-. left. auto.
  - destruct (Nat.eqb_spec (length pre + k) 0) as [H0|H0]; [destruct ch; discriminate|].
    destruct (Nat.ltb_spec (length pre + k - 1) (length pre)) as [Hr|Hr]; [discriminate|].
    destruct (Nat.ltb_spec (length (pre ++ map Some rest ++ post)) (length pre + k - 1)) as [Hb|Hb]; [discriminate|].
    destruct k as [|k]; [lia|].
    replace (length pre + S k - 1 - length pre) with k by lia.
    assert (Hm : mem_slice (pre ++ map Some rest ++ post) (length pre) k = Done (firstn k rest)).
    { assert (Hf : rest = firstn k rest ++ skipn k rest) by (symmetry; apply firstn_skipn).
      pose proof (@mem_slice_mid A (firstn k rest) pre (map Some (skipn k rest) ++ post) (length pre) eq_refl) as H.
      rewrite firstn_length, Nat.min_l in H by lia. rewrite app_assoc with (l := map Some (firstn k rest)) in H.
      rewrite <- map_app, <- Hf in H. exact H. }
    rewrite Hm. cbn [obind omap]. unfold mem_read. destruct (nth_error (pre ++ map Some rest ++ post) (S k)) as [[x|]|] eqn:E; try discriminate.
    intros H. apply (f_equal (fun o => match o with Done z => Some z | _ => None end)) in H. cbn [omap obind] in H.
    injection H as H1 H2 H3. subst r dropped i'. right. split; [lia|]. split; [f_equal; lia|]. split; [|eauto].
    exists (pre ++ map Some (firstn (S k) rest)), post.
    rewrite app_length, map_length, skipn_length, firstn_length, Nat.min_l by lia. split; [|lia]. f_equal.
    rewrite <- app_assoc. f_equal. rewrite app_assoc, <- map_app, firstn_skipn. reflexivity.
Qed.

Lemma ishape_clone {A} (cl : A -> option A) n rest copies i : ishape n rest i -> Clones cl rest copies ->
  exists i', it_clone cl i = Done i' /\ ishape n copies i'.
Proof.
  intros (pre & post & -> & Hn) Hc. unfold it_clone. cbn [it_len it_buf it_pos].
  assert (Hu : uninit A (length (pre ++ map Some rest ++ post)) = uninit A (length pre) ++ uninit A (length rest + length post)).
  { rewrite <- uninit_app. rewrite !app_length, map_length. reflexivity. }
  rewrite Hu.
  rewrite (@clone_loop_mid _ _ _ _ Hc pre post (uninit A (length pre)) (uninit A (length rest + length post)) (length pre) (length rest));
    [| reflexivity | rewrite uninit_length; reflexivity | reflexivity | rewrite uninit_length; lia].
  cbn. eexists. split; [reflexivity|]. exists (uninit A (length pre)), (skipn (length rest) (uninit A (length rest + length post))).
  rewrite (clones_length Hc), skipn_length, !uninit_length. split; [reflexivity | lia].
Qed.

Lemma ishape_clone_panics {A} (cl : A -> option A) n rest i : ishape n rest i ->
  (exists copies, Clones cl rest copies) \/ it_clone cl i = Panics PUser.
Proof.
  intros (pre & post & -> & Hn). unfold it_clone. cbn [it_len it_buf it_pos].
  assert (Hu : uninit A (length (pre ++ map Some rest ++ post)) = uninit A (length pre) ++ uninit A (length rest + length post)).
  { rewrite <- uninit_app. rewrite !app_length, map_length. reflexivity. }
  rewrite Hu.
  destruct (@clone_loop_panics A cl rest pre post (uninit A (length pre)) (uninit A (length rest + length post)) (length pre) (length rest)) as [Hc|Hp];
    [reflexivity | rewrite uninit_length; reflexivity | reflexivity | rewrite uninit_length; lia | left; exact Hc |].
  right. rewrite Hp. reflexivity.
Qed.

Lemma ishape_edit {A} (f : list A -> list A) n rest i : ishape n rest i -> length (f rest) = length rest ->
  exists i', it_edit f i = Done i' /\ ishape n (f rest) i'.
Proof.
  intros (pre & post & -> & Hn) Hf. unfold it_edit, mem_edit. cbn [it_len it_buf it_pos]. rewrite mem_slice_mid by reflexivity. cbn [omap obind].
  eexists. split; [reflexivity|]. exists pre, post. rewrite Hf. split; [|exact Hn]. f_equal.
  rewrite firstn_app, firstn_all, Nat.sub_diag, app_nil_r. f_equal. f_equal.
  rewrite app_assoc, skipn_app, app_length, map_length, Nat.sub_diag, skipn_all2 by (rewrite app_length, map_length; lia). reflexivity.
Qed.

Lemma iter_reachable_shape n A (i : siter A) : IterReachable n i -> exists rest, ishape n rest i.
Proof.
  induction 1 as [s Hs | i e r i' _ IH H | i ch k r dropped i' _ IH H | cl i i' _ IH H | f i i' _ IH Hf H].
  - destruct (reachable_shape Hs) as (items & Hi). exists items. apply ishape_into. exact Hi.
  - destruct IH as (rest & Hi). destruct (@ishape_step _ _ _ _ e Hi) as (i2 & H2 & Hs2). rewrite H in H2. injection H2 as _ ->. eauto.
  - destruct IH as (rest & Hi). destruct (@ishape_nth _ _ _ _ _ _ _ _ _ Hi H) as [(_ & _ & _ & ->) | (_ & _ & Hs & _)]; eauto.
  - destruct IH as (rest & Hi). destruct (@ishape_clone_panics _ cl _ _ _ Hi) as [(copies & Hc) | Hp]; [|congruence].
    destruct (@ishape_clone _ _ _ _ _ _ Hi Hc) as (i2 & H2 & Hs2). rewrite H in H2. injection H2 as ->. eauto.
  - destruct IH as (rest & Hi). destruct (@ishape_edit _ f _ _ _ Hi (Hf rest)) as (i2 & H2 & Hs2). rewrite H in H2. injection H2 as ->. eauto.
Qed.

Lemma ishape_run {A} n es : forall (rest : list A) i, ishape n rest i ->
  exists i', it_run es i = Done (fst (deque es rest), i') /\ ishape n (snd (deque es rest)) i'.
Proof.
  induction es as [|e es IH]; intros rest i Hi.
  - exists i. auto.
  - destruct (@ishape_step _ _ _ _ e Hi) as (i1 & H1 & Hs1). destruct (IH _ _ Hs1) as (i2 & H2 & Hs2).
    exists i2. cbn [it_run]. rewrite H1. cbn [obind]. rewrite H2. cbn [omap obind].
    assert (Hd : deque (e :: es) rest = (fst (deque1 e rest) :: fst (deque es (snd (deque1 e rest))), snd (deque es (snd (deque1 e rest))))).
    { clear. destruct e; cbn [deque deque1].
      - destruct rest as [|x r]; cbn [fst snd]; match goal with |- (let (_, _) := ?d in _) = _ => destruct d end; reflexivity.
      - destruct (rev rest) as [|x r] eqn:E.
        + destruct rest; cbn [fst snd]; match goal with |- (let (_, _) := ?d in _) = _ => destruct d end; reflexivity.
        + replace (match rest with [] => (Some x, rev r) | _ :: _ => (Some x, rev r) end) with (Some x, rev r) by (destruct rest; reflexivity).
          cbn [fst snd]. match goal with |- (let (_, _) := ?d in _) = _ => destruct d end; reflexivity. }
    rewrite Hd. cbn [fst snd]. split; [reflexivity | exact Hs2].
Qed.

Lemma C57_lemma : forall n A (i : siter A), IterReachable n i ->
  exists rest, it_as_slice i = Done rest /\
    forall es, exists i', it_run es i = Done (fst (deque es rest), i') /\ it_as_slice i' = Done (snd (deque es rest)).
Proof.
  intros n A i Hr. destruct (iter_reachable_shape _ _ _ Hr) as (rest & Hi). exists rest. split; [exact (ishape_slice _ _ _ Hi)|].
  intros es. destruct (@ishape_run _ _ es _ _ Hi) as (i' & H & Hs). exists i'. split; [exact H | exact (ishape_slice _ _ _ Hs)].
Qed.

Lemma deque_once {A} es : forall (items : list A),
  taken true es (fst (deque es items)) ++ snd (deque es items) ++ rev (taken false es (fst (deque es items))) = items.
Proof.
  induction es as [|e es IH]; intros items; cbn [deque].
  - cbn. rewrite app_nil_r. reflexivity.
  - destruct e.
    + destruct items as [|x r].
      * specialize (IH []). destruct (deque es []) as [rs l]. cbn in *. exact IH.
      * specialize (IH r). destruct (deque es r) as [rs l]. cbn in *. f_equal. exact IH.
    + destruct (rev items) as [|x r] eqn:E.
      * specialize (IH []). destruct (deque es []) as [rs l]. cbn in *. rewrite IH.
        apply (f_equal (@rev A)) in E. rewrite rev_involutive in E. symmetry. exact E.
      * specialize (IH (rev r)). destruct (deque es (rev r)) as [rs l]. cbn in *.
        apply (f_equal (@rev A)) in E. rewrite rev_involutive in E. cbn [rev] in E. rewrite E, <- IH, <- !app_assoc. reflexivity.
Qed.

Lemma C57_once_lemma : forall n A (s : sslice A) items es rs i, Reachable n s -> ss_as_slice s = Done items ->
  it_run es (ss_into_iter s) = Done (rs, i) ->
  exists left, it_as_slice i = Done left /\ taken true es rs ++ left ++ rev (taken false es rs) = items.
Proof.
  intros n A s items es rs i Hr Hi H. destruct (reachable_shape Hr) as (items' & Hs). pose proof (shape_unique Hs Hi) as ->.
  destruct (@ishape_run _ _ es _ _ (ishape_into _ _ _ Hs)) as (i' & H' & Hs'). rewrite H in H'. injection H' as -> ->.
  exists (snd (deque es items')). split; [exact (ishape_slice _ _ _ Hs') | apply deque_once].
Qed.

(* nothing left: None, and still nothing left *)
Lemma C57_fused_lemma : forall n A (i : siter A) e r i', IterReachable n i -> it_step e i = Done (r, i') -> 
  (r = None <-> it_as_slice i = Done []) /\ (r = None -> it_as_slice i' = Done []).
Proof.
  intros n A i e r i' Hr H. destruct (iter_reachable_shape _ _ _ Hr) as (rest & Hi). destruct (@ishape_step _ _ _ _ e Hi) as (i2 & H2 & Hs2).
  rewrite H in H2. injection H2 as -> ->. rewrite (ishape_slice _ _ _ Hi), (ishape_slice _ _ _ Hs2).
  destruct e; cbn [deque1].
  - destruct rest as [|x rest]; cbn; (split; [split|]); intros; congruence.
  - destruct rest as [|x rest]; [cbn; (split; [split|]); intros; congruence|].
    destruct (rev (x :: rest)) as [|y r] eqn:E.
    + apply (f_equal (@length A)) in E. rewrite rev_length in E. discriminate.
    + cbn. split; [split|]; intros; congruence.
Qed.

Lemma C59_lemma : forall n A (i : siter A) cl rest copies, IterReachable n i -> it_as_slice i = Done rest -> Clones cl rest copies ->
  exists j, it_clone cl i = Done j /\ it_as_slice j = Done copies /\
    forall es, exists j', it_run es j = Done (fst (deque es copies), j') /\ it_as_slice j' = Done (snd (deque es copies)).
Proof.
  intros n A i cl rest copies Hr Hi Hc. destruct (iter_reachable_shape _ _ _ Hr) as (rest' & Hs).
  rewrite (ishape_slice _ _ _ Hs) in Hi. injection Hi as ->. destruct (@ishape_clone _ _ _ _ _ _ Hs Hc) as (j & Hj & Hsj).
  exists j. split; [exact Hj|]. split; [exact (ishape_slice _ _ _ Hsj)|].
  intros es. destruct (@ishape_run _ _ es _ _ Hsj) as (j' & H & Hs'). exists j'. split; [exact H | exact (ishape_slice _ _ _ Hs')].
Qed.

(* C58 *)
Lemma C58_size_hint_lemma : forall n A (s : sslice A) es rs i left, Reachable n s -> Forall (fun e => e = Back) es ->
  it_run es (ss_into_iter s) = Done (rs, i) -> it_as_slice i = Done left -> it_size_hint i = Done (length left).
Proof.
  intros n A s es rs i left Hr Hb H Hl. destruct (reachable_shape Hr) as (items & Hs).
  assert (G : forall es, Forall (fun e => e = Back) es -> forall i rs j, it_pos i = 0 -> it_run es i = Done (rs, j) -> @it_pos A j = 0).
  { clear. induction 1 as [|e es -> _ IH]; cbn [it_run]; intros i rs j Hp H.
    - injection H as _ <-. exact Hp.
    - cbn [it_step] in H. unfold it_next_back in H. destruct (it_len i =? 0).
      + cbn in H. destruct (it_run es i) as [[rs' j']| |] eqn:E; try discriminate. cbn in H. injection H as <- <-. eapply IH; [|exact E]. exact Hp.
      + destruct (mem_read (it_buf i) (it_pos i + it_len i - 1)) as [x| |]; try discriminate. cbn [omap obind] in H.
        destruct (it_run es _) as [[rs' j']| |] eqn:E in H; try discriminate. cbn in H. injection H as <- <-. eapply IH; [|exact E]. exact Hp. }
  assert (Hp : it_pos i = 0) by (eapply (G es Hb); [|exact H]; reflexivity).
  destruct (@ishape_run _ _ es _ _ (ishape_into _ _ _ Hs)) as (i' & H' & Hs'). rewrite H in H'. injection H' as -> ->.
  rewrite (ishape_slice _ _ _ Hs') in Hl. injection Hl as <-.
  destruct Hs' as (pre & post & Hi & _). unfold it_size_hint. rewrite Hp. rewrite Hi. cbn [it_len it_pos].
  replace (length (snd (deque es items)) <? 0) with false by (symmetry; apply Nat.ltb_ge; lia). rewrite Nat.sub_0_r. reflexivity.
Qed.

Lemma C58_nth_lemma : forall n A (s : sslice A) items checks k, Reachable n s -> ss_as_slice s = Done items -> 1 <= k < length items ->
  exists x dropped i', nth_error items k = Some x /\ it_nth checks (ss_into_iter s) k = Done (Some x, dropped, i').
Proof.
  intros n A s items ch k Hr Hi Hk. destruct (reachable_shape Hr) as (items' & Hs). pose proof (shape_unique Hs Hi) as ->.
  destruct Hs as (rest & -> & Hn). destruct (nth_error items' k) as [x|] eqn:E; [|apply nth_error_None in E; lia].
  exists x, (firstn (k - 1) items'). unfold it_nth, ss_into_iter. cbn [it_len it_buf it_pos ss_buf ss_len].
  replace (length items' <? k) with false by (symmetry; apply Nat.ltb_ge; lia).
  replace (0 + k =? 0) with false by (symmetry; apply Nat.eqb_neq; lia).
  replace (0 + k - 1 <? 0) with false by (symmetry; apply Nat.ltb_ge; lia).
  rewrite app_length, map_length. replace (length items' + length rest <? 0 + k - 1) with false by (symmetry; apply Nat.ltb_ge; lia).
  replace (0 + k - 1 - 0) with (k - 1) by lia.
  assert (Hm : mem_slice (map Some items' ++ rest) 0 (k - 1) = Done (firstn (k - 1) items')).
  { pose proof (@mem_slice_mid A (firstn (k - 1) items') [] (map Some (skipn (k - 1) items') ++ rest) 0 eq_refl) as H.
    rewrite firstn_length, Nat.min_l in H by lia. cbn [app] in H. rewrite app_assoc, <- map_app, firstn_skipn in H. exact H. }
  rewrite Hm. cbn [obind]. unfold mem_read. rewrite nth_error_app1 by (rewrite map_length; lia).
  erewrite map_nth_error by exact E. cbn. eexists. split; reflexivity.
Qed.

Lemma run_state {A} es : forall (i : siter A) rs j, it_run es i = Done (rs, j) ->
  it_buf j = it_buf i /\ it_pos j = it_pos i + length (taken true es rs).
Proof.
  induction es as [|e es IH]; cbn [it_run]; intros i rs j H.
  - injection H as <- <-. cbn. split; [reflexivity | lia].
  - destruct (it_step e i) as [[r i1]| |] eqn:E; try discriminate. cbn [obind] in H.
    destruct (it_run es i1) as [[rs' j']| |] eqn:E'; try discriminate. cbn in H. injection H as <- <-.
    destruct (IH _ _ _ E') as [H1 H2]. destruct e; cbn [it_step] in E; unfold it_next, it_next_back in E; destruct (it_len i =? 0).
    + injection E as <- <-. cbn [taken]. auto.
    + destruct (mem_read (it_buf i) (it_pos i)) as [x| |]; try discriminate. injection E as <- <-. cbn [it_buf it_pos taken length] in *. split; [exact H1 | lia].
    + injection E as <- <-. cbn [taken]. auto.
    + destruct (mem_read (it_buf i) (it_pos i + it_len i - 1)) as [x| |]; try discriminate. injection E as <- <-. cbn [it_buf it_pos taken length] in *. auto.
Qed.
Lemma C58_exact_lemma : forall n A (s : sslice A) items es rs i left checks k, Reachable n s -> ss_as_slice s = Done items ->
  it_run es (ss_into_iter s) = Done (rs, i) -> it_as_slice i = Done left ->
  let f := length (taken true es rs) in
  it_size_hint i = (if f <=? length left then Done (length left - f) else Undefined UUnderflow) /\
  (length left < k -> it_nth checks i k = Done (None, [], i)) /\
  (k = 0 -> f = 0 -> it_nth checks i k = if checks then Panics PArith else Undefined UOutOfBounds) /\
  (k = 0 -> 0 < f -> it_nth checks i k = Undefined URange) /\
  (forall x, 1 <= k <= length left -> nth_error items k = Some x ->
     exists i', it_nth checks i k = Done (Some x, firstn (k - 1) left, i') /\ it_as_slice i' = Done (skipn k left)).
Proof.
  intros n A s items es rs i left ch k Hr Hi H Hl f. destruct (reachable_shape Hr) as (items' & Hs). pose proof (shape_unique Hs Hi) as ->.
  destruct (@ishape_run _ _ es _ _ (ishape_into _ _ _ Hs)) as (i' & H' & Hs'). rewrite H in H'. injection H' as -> <-.
  destruct (run_state _ _ _ _ H) as [Hb Hp]. change (it_pos (ss_into_iter s)) with 0 in Hp. cbn [Nat.add] in Hp. fold f in Hp.
  rewrite (ishape_slice _ _ _ Hs') in Hl. injection Hl as El. rewrite El in *. clear El.
  destruct Hs as (rest & -> & Hn). cbn [ss_into_iter ss_buf it_buf] in Hb.
  destruct Hs' as (pre & post & -> & Hlen). cbn [it_buf it_pos] in Hb, Hp.
  unfold it_size_hint, it_nth. cbn [it_buf it_pos it_len]. rewrite Hp. split; [|split; [|split; [|split]]].
  - destruct (Nat.ltb_spec (length left) f), (Nat.leb_spec f (length left)); try lia; reflexivity.
  - intros Hk. apply Nat.ltb_lt in Hk. rewrite Hk. reflexivity.
  - intros -> ->. reflexivity.
  - intros -> Hf. destruct (Nat.ltb_spec (length left) 0); [lia|]. destruct (Nat.eqb_spec (f + 0) 0); [lia|]. destruct (Nat.ltb_spec (f + 0 - 1) f); [reflexivity | lia].
  - intros x Hk Hx. destruct (Nat.ltb_spec (length left) k); [lia|]. destruct (Nat.eqb_spec (f + k) 0); [lia|]. destruct (Nat.ltb_spec (f + k - 1) f); [lia|].
    rewrite !app_length, map_length. destruct (Nat.ltb_spec (length pre + (length left + length post)) (f + k - 1)); [lia|].
    replace (f + k - 1 - f) with (k - 1) by lia.
    assert (Hm : mem_slice (pre ++ map Some left ++ post) f (k - 1) = Done (firstn (k - 1) left)).
    { pose proof (@mem_slice_mid A (firstn (k - 1) left) pre (map Some (skipn (k - 1) left) ++ post) f (eq_sym Hp)) as E.
      rewrite firstn_length, Nat.min_l in E by lia. rewrite (app_assoc (map Some _) (map Some _) post), <- map_app, firstn_skipn in E. exact E. }
    rewrite Hm. cbn [obind]. unfold mem_read. rewrite Hb. rewrite nth_error_app1 by (rewrite map_length; apply nth_error_Some; congruence).
    erewrite map_nth_error by exact Hx. cbn [omap obind]. eexists. split; [reflexivity|]. rewrite <- Hb. unfold it_as_slice. cbn [it_buf it_pos it_len].
    pose proof (@mem_slice_mid A (skipn k left) (pre ++ map Some (firstn k left)) post (f + k)) as E.
    rewrite skipn_length, app_length, map_length, firstn_length in E. rewrite <- (E ltac:(lia)). f_equal.
    rewrite <- app_assoc. f_equal. rewrite app_assoc, <- map_app, firstn_skipn. reflexivity.
Qed.

Lemma C58_refutation :
  (* nth returns an item that next then returns again *)
  (exists (s : sslice nat) checks i' i'', Reachable 3 s /\ ss_as_slice s = Done [10; 11; 12] /\
     it_nth checks (ss_into_iter s) 1 = Done (Some 11, [], i') /\ it_next i' = Done (Some 11, i'')) /\
  (* after a call of next it returns the wrong item *)
  (exists (s : sslice nat) checks i dropped i', Reachable 3 s /\ ss_as_slice s = Done [10; 11; 12] /\
     it_next (ss_into_iter s) = Done (Some 10, i) /\ it_nth checks i 1 = Done (Some 11, dropped, i') /\ it_as_slice i = Done [11; 12]) /\
  (* beyond the end it consumes nothing *)
  (exists (s : sslice nat) checks, Reachable 3 s /\ ss_as_slice s = Done [10; 11; 12] /\
     it_nth checks (ss_into_iter s) 4 = Done (None, [], ss_into_iter s)) /\
  (* nth(0) is a panic or undefined, and so is nth(len) *)
  (forall n A (s : sslice A), Reachable n s ->
     it_nth true (ss_into_iter s) 0 = Panics PArith /\ it_nth false (ss_into_iter s) 0 = Undefined UOutOfBounds) /\
  (exists (s : sslice nat) checks, Reachable 4 s /\ ss_as_slice s = Done [10; 11; 12] /\
     it_nth checks (ss_into_iter s) 3 = Undefined UUninit) /\
  (* size_hint is wrong after a call of next, and undefined after more than half *)
  (exists (s : sslice nat) i, Reachable 3 s /\ ss_as_slice s = Done [10; 11; 12] /\
     it_next (ss_into_iter s) = Done (Some 10, i) /\ it_as_slice i = Done [11; 12] /\ it_size_hint i = Done 1) /\
  (exists (s : sslice nat) es rs i, Reachable 3 s /\ ss_as_slice s = Done [10; 11; 12] /\
     it_run es (ss_into_iter s) = Done (rs, i) /\ it_as_slice i = Done [12] /\ it_size_hint i = Undefined UUnderflow).
Proof.
  assert (R : Reachable 3 (ss_from_array [10; 11; 12])) by (constructor; reflexivity).
  split; [|split; [|split; [|split; [|split; [|split]]]]].
  - exists (ss_from_array [10; 11; 12]), true. eexists. eexists. split; [exact R|]. split; [reflexivity|]. split; reflexivity.
  - exists (ss_from_array [10; 11; 12]), true. eexists. eexists. eexists. split; [exact R|]. split; [reflexivity|]. split; [reflexivity|]. split; reflexivity.
  - exists (ss_from_array [10; 11; 12]), true. split; [exact R|]. split; reflexivity.
  - intros n A s _. unfold it_nth, ss_into_iter. cbn [it_len it_pos]. replace (ss_len s <? 0) with false by (symmetry; apply Nat.ltb_ge; lia).
    split; reflexivity.
  - exists (fst (ss_from_iter list_next 4 [10; 11; 12])), true.
    split; [eapply (@R_from_iter _ _ _ list_next [10; 11; 12]); reflexivity|]. split; reflexivity.
  - exists (ss_from_array [10; 11; 12]). eexists. split; [exact R|]. split; [reflexivity|]. split; [reflexivity|]. split; reflexivity.
  - exists (ss_from_array [10; 11; 12]), [Front; Front]. eexists. eexists. split; [exact R|]. split; [reflexivity|]. split; [reflexivity|]. split; reflexivity.
Qed.

(* ---- C55 *)

(* what a variable still owns *)
Definition held {A} (h : holder A) : out (list A) :=
  match h with
  | HArray items | HVec items => Done items
  | HSlice s => ss_as_slice s
  | HIter i => it_as_slice i
  | HGone => Done []
  end.

Definition hshape {A} (n : nat) (items : list A) (h : holder A) : Prop :=
  match h with
  | HArray l | HVec l => l = items
  | HSlice s => shape n items s
  | HIter i => ishape n items i
  | HGone => items = []
  end.

Definition gentle (op : own_op) : Prop := match op with OFrom | ONth _ => False | _ => True end.

Lemma deque1_perm {A} e (items : list A) :
  Permutation (match fst (deque1 e items) with Some x => [x] | None => [] end ++ snd (deque1 e items)) items.
Proof.
  destruct e; cbn [deque1].
  - destruct items; cbn; reflexivity.
  - destruct (rev items) as [|x r] eqn:E.
    + apply (f_equal (@rev A)) in E. rewrite rev_involutive in E. subst. reflexivity.
    + apply (f_equal (@rev A)) in E. rewrite rev_involutive in E. cbn [rev] in E. subst.
      replace (match rev r ++ [x] with [] => (Some x, rev r) | _ :: _ => (Some x, rev r) end) with (Some x, rev r)
        by (destruct (rev r ++ [x]); reflexivity). cbn. apply Permutation_cons_append.
Qed.

Lemma own_step_perm {A} ch size op n (items : list A) h es h' : gentle op -> hshape n items h -> own_step ch size op h = Done (es, h') ->
  exists items' lost, hshape n items' h' /\ Permutation (map ev_item es ++ items' ++ lost) items /\
    (op <> ODrop \/ (exists l, h = HVec l) \/ (exists l, h = HArray l) -> lost = []).
Proof.
  intros Hg Hs H.
  assert (Hsame : es = [] -> hshape n items h' -> exists items' lost, hshape n items' h' /\ Permutation (map ev_item es ++ items' ++ lost) items /\
    (op <> ODrop \/ (exists l, h = HVec l) \/ (exists l, h = HArray l) -> lost = [])).
  { intros -> Hh. exists items, []. split; [exact Hh|]. split; [cbn; rewrite app_nil_r; reflexivity | auto]. }
  assert (Hdone : es = map Dropped items -> h' = HGone -> exists items' lost, hshape n items' h' /\ Permutation (map ev_item es ++ items' ++ lost) items /\
    (op <> ODrop \/ (exists l, h = HVec l) \/ (exists l, h = HArray l) -> lost = [])).
  { intros -> ->. exists [], []. split; [reflexivity|]. split; [|auto]. rewrite map_map. cbn. rewrite map_id, app_nil_r. reflexivity. }
  assert (Hlost : es = [] -> h' = HGone -> op = ODrop -> (forall l, h <> HVec l) -> (forall l, h <> HArray l) ->
    exists items' lost, hshape n items' h' /\ Permutation (map ev_item es ++ items' ++ lost) items /\
    (op <> ODrop \/ (exists l, h = HVec l) \/ (exists l, h = HArray l) -> lost = [])).
  { intros -> -> -> H1 H2. exists [], items. split; [reflexivity|]. split; [reflexivity|].
    intros [H3 | [[l H3] | [l H3]]]; [congruence | exfalso; eapply H1; exact H3 | exfalso; eapply H2; exact H3]. }
  destruct op; cbn [gentle] in Hg; try contradiction; destruct h; cbn [own_step] in H;
    try (injection H as <- <-; apply Hsame; [reflexivity | exact Hs]).
  - injection H as <- <-. apply Hsame; [reflexivity|]. cbn. apply ishape_into. exact Hs.
  - cbn [hshape] in Hs. destruct (ss_into_boxed_slice size true s) as [l| |] eqn:E; try discriminate. cbn in H. injection H as <- <-.
    apply Hsame; [reflexivity|]. unfold ss_into_boxed_slice in E. destruct ((size * N.of_nat (ss_len s) =? 0)%N); [discriminate|].
    fold (ss_as_slice s) in E. rewrite (shape_slice Hs) in E. injection E as <-. reflexivity.
  - cbn [hshape] in Hs. destruct (@ishape_step _ _ _ _ e Hs) as (i1 & H1 & Hs1). rewrite H1 in H. cbn [omap obind] in H.
    apply (f_equal (fun o => match o with Done z => Some z | _ => None end)) in H. injection H as H2 H3. subst es h'.
    exists (snd (deque1 e items)), []. split; [exact Hs1|]. rewrite app_nil_r. split; [|auto].
    etransitivity; [|apply (deque1_perm e)]. destruct (fst (deque1 e items)); reflexivity.
  - injection H as <- <-. cbn [hshape] in Hs. subst. apply Hdone; reflexivity.
  - injection H as <- <-. apply Hlost; try reflexivity; intros; discriminate.
  - injection H as <- <-. apply Hlost; try reflexivity; intros; discriminate.
  - injection H as <- <-. cbn [hshape] in Hs. subst. apply Hdone; reflexivity.
Qed.

Lemma own_run_perm {A} ch size ops : forall n (items : list A) h es h', Forall gentle ops -> hshape n items h -> own_run ch size ops h = Done (es, h') ->
  exists items' lost, hshape n items' h' /\ Permutation (map ev_item es ++ items' ++ lost) items.
Proof.
  induction ops as [|op ops IH]; intros n items h es h' Hg Hs H.
  - cbn in H. injection H as <- <-. exists items, []. cbn. rewrite app_nil_r. split; [exact Hs | reflexivity].
  - inversion Hg as [|? ? Hg1 Hg2]; subst. cbn [own_run] in H. destruct (own_step ch size op h) as [[es1 h1]| |] eqn:E1; try discriminate.
    cbn [obind] in H. destruct (own_run ch size ops h1) as [[es2 h2]| |] eqn:E2; try discriminate. cbn in H. injection H as <- <-.
    destruct (@own_step_perm _ _ _ _ _ _ _ _ _ Hg1 Hs E1) as (items1 & lost1 & Hs1 & Hp1 & _).
    destruct (IH _ _ _ _ _ Hg2 Hs1 E2) as (items2 & lost2 & Hs2 & Hp2). exists items2, (lost2 ++ lost1). split; [exact Hs2|].
    rewrite map_app, <- app_assoc, <- Hp1. apply Permutation_app_head. rewrite <- Hp2, <- !app_assoc. reflexivity.
Qed.

(* at most once: what is handed out or dropped is part of what was put in *)
Lemma C55_at_most_once_lemma : forall n A (s : sslice A) items checks size ops es h, Reachable n s -> ss_as_slice s = Done items ->
  Forall (fun op => forall k, op <> ONth k) ops -> own_run checks size ops (HSlice s) = Done (es, h) ->
  exists rest, Permutation (map ev_item es ++ rest) items.
Proof.
  intros n A s items ch size ops es h Hr Hi Hg H. destruct (reachable_shape Hr) as (items' & Hs). pose proof (shape_unique Hs Hi) as ->.
  assert (G : forall ops h es h', Forall (fun op => forall k, op <> ONth k) ops -> (forall l, h <> @HArray A l) ->
    own_run ch size ops h = Done (es, h') -> exists ops', Forall gentle ops' /\ own_run ch size ops' h = Done (es, h')).
  { clear. induction ops as [|op ops IH]; intros h es h' Hg Hh H.
    - exists []. split; [constructor | exact H].
    - inversion Hg as [|? ? Hg1 Hg2]; subst. cbn [own_run] in H. destruct (own_step ch size op h) as [[es1 h1]| |] eqn:E1; try discriminate.
      cbn [obind] in H. destruct (own_run ch size ops h1) as [[es2 h2]| |] eqn:E2; try discriminate. cbn in H. injection H as <- <-.
      assert (Hh1 : forall l, h1 <> HArray l).
      { intros l ->. destruct op, h; cbn [own_step] in E1; try discriminate; try (eapply Hh; reflexivity);
          try (injection E1 as _ E1; eapply Hh; exact E1).
        - destruct (ss_into_boxed_slice size true s); discriminate.
        - destruct (it_step e i) as [[r i']| |]; discriminate.
        - destruct (it_nth ch i n) as [[[r d] i']| |]; discriminate. }
      destruct (IH _ _ _ Hg2 Hh1 E2) as (ops' & Hops & Hrun).
      assert (K : gentle op -> exists ops', Forall gentle ops' /\ own_run ch size ops' h = Done (es1 ++ es2, h2)).
      { intros Hgo. exists (op :: ops'). split; [constructor; assumption|]. cbn [own_run]. rewrite E1. cbn [obind]. rewrite Hrun. reflexivity. }
      destruct op; try (exact (K I)).
      + assert (Hsame : es1 = [] /\ h1 = h). { destruct h; cbn in E1; try (injection E1 as <- <-; auto). exfalso. eapply Hh. reflexivity. }
        destruct Hsame as [-> ->]. exists ops'. split; [exact Hops|]. rewrite Hrun. reflexivity.
      + exfalso. eapply Hg1. reflexivity. }
  destruct (G ops (HSlice s) es h Hg ltac:(intros l Hl; discriminate Hl) H) as (ops' & Hops & Hrun).
  destruct (@own_run_perm _ ch size ops' n items' (HSlice s) es h Hops Hs Hrun) as (items2 & lost & _ & Hp). exists (items2 ++ lost). exact Hp.
Qed.

(* exactly once, for a slice turned into a vector *)
Lemma C55_into_vec_lemma : forall n A (s : sslice A) items checks size, Reachable n s -> ss_as_slice s = Done items -> items <> [] -> (0 < size)%N ->
  own_run checks size [OIntoVec; ODrop] (HSlice s) = Done (map Dropped items, HGone).
Proof.
  intros n A s items ch size Hr Hi Hne Hz. destruct (reachable_shape Hr) as (items' & Hs). pose proof (shape_unique Hs Hi) as ->.
  cbn [own_run own_step]. unfold ss_into_boxed_slice. destruct (shape_len Hs) as (Hl & _ & _). unfold ss_length in Hl.
  replace ((size * N.of_nat (ss_len s) =? 0)%N) with false.
  - fold (ss_as_slice s). rewrite Hi. cbn. rewrite app_nil_r. reflexivity.
  - symmetry. apply N.eqb_neq. rewrite Hl. destruct items'; [congruence|]. cbn [length]. lia.
Qed.

(* and for one that is iterated to the end, from whichever ends *)
Lemma C55_iterated_lemma : forall n A (s : sslice A) items checks size ends, Reachable n s -> ss_as_slice s = Done items ->
  length items <= length ends ->
  exists es h, own_run checks size (OIntoIter :: map ONext ends ++ [ODrop]) (HSlice s) = Done (es, h) /\ Permutation es (map Given items).
Proof.
  intros n A s items ch size ends Hr Hi He. destruct (reachable_shape Hr) as (items' & Hs). pose proof (shape_unique Hs Hi) as ->.
  cbn [own_run own_step obind].
  assert (G : forall ends items (i : siter A), ishape n items i -> length items <= length ends ->
    exists es h, own_run ch size (map ONext ends ++ [ODrop]) (HIter i) = Done (es, h) /\ Permutation es (map Given items)).
  { clear. induction ends as [|e ends IH]; intros items i Hi Hl.
    - destruct items; [|cbn in Hl; lia]. exists [], HGone. split; [reflexivity | constructor].
    - destruct (@ishape_step _ _ _ _ e Hi) as (i1 & H1 & Hs1).
      assert (Hp := deque1_perm e items). assert (Hl1 : length (snd (deque1 e items)) <= length ends).
      { apply Permutation_length in Hp. rewrite app_length in Hp. cbn [length] in Hl.
        destruct items as [|x items]; [destruct e; cbn; lia|].
        assert (Hsome : exists y, fst (deque1 e (x :: items)) = Some y).
        { destruct e; cbn [deque1]; [eexists; reflexivity|]. destruct (rev (x :: items)) eqn:E; [|eexists; reflexivity].
          apply (f_equal (@length A)) in E. rewrite rev_length in E. discriminate. }
        destruct Hsome as (y & Hy). rewrite Hy in Hp. cbn [length] in *. lia. }
      destruct (IH _ _ Hs1 Hl1) as (es & h & Hrun & Hperm). cbn [map app own_run own_step]. rewrite H1. cbn [omap obind]. rewrite Hrun. cbn [omap obind].
      eexists. exists h. split; [reflexivity|]. rewrite Hperm. rewrite <- (Permutation_map Given Hp), map_app.
      destruct (fst (deque1 e items)); reflexivity. }
  destruct (G ends items' (ss_into_iter s) (ishape_into _ _ _ Hs) He) as (es & h & Hrun & Hp).
  rewrite Hrun. cbn. exists es, h. auto.
Qed.

Lemma C55_refutation :
  (* an item that is never dropped *)
  (exists s : sslice nat, Reachable 1 s /\ ss_as_slice s = Done [7] /\ own_run true 8 [ODrop] (HSlice s) = Done ([], HGone)) /\
  (exists s : sslice nat, Reachable 2 s /\ ss_as_slice s = Done [7; 8] /\ own_run true 8 [OIntoIter; ONext Front; ODrop] (HSlice s) = Done ([Given 7], HGone)) /\
  (* items dropped twice *)
  (forall A (items : list A) checks size, items <> [] -> (0 < size)%N ->
     own_run checks size [OFrom; OIntoVec; ODrop] (HArray items) = Done (map Dropped items ++ map Dropped items, HGone)) /\
  (* an item given twice *)
  (exists s : sslice nat, Reachable 2 s /\ ss_as_slice s = Done [7; 8] /\
     own_run true 8 [OIntoIter; ONth 1; ONext Front; ODrop] (HSlice s) = Done ([Given 8; Given 8], HGone)).
Proof.
  split; [|split; [|split]].
  - exists (fst (ss_from_iter list_next 1 [7])). split; [eapply (@R_from_iter _ _ _ list_next [7]); reflexivity|]. split; reflexivity.
  - exists (fst (ss_from_iter list_next 2 [7; 8])). split; [eapply (@R_from_iter _ _ _ list_next [7; 8]); reflexivity|]. split; reflexivity.
  - intros A items ch size Hne Hz. cbn [own_run own_step obind omap].
    assert (E : ss_into_boxed_slice size true (ss_from_array items) = Done items).
    { unfold ss_into_boxed_slice, ss_from_array. cbn [ss_len ss_buf].
      replace ((size * N.of_nat (length items) =? 0)%N) with false.
      - pose proof (@mem_slice_mid A items [] [] 0 eq_refl) as H. cbn [app] in H. rewrite app_nil_r in H. exact H.
      - symmetry. apply N.eqb_neq. destruct items; [congruence|]. cbn [length]. lia. }
    rewrite E. cbn. rewrite app_nil_r. reflexivity.
  - exists (fst (ss_from_iter list_next 2 [7; 8])). split; [eapply (@R_from_iter _ _ _ list_next [7; 8]); reflexivity|]. split; reflexivity.
Qed.
