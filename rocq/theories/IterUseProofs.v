(* Proofs of C105 and C106. *)
From Coq Require Import Lia.
From Verif Require Import Base Mem SizedSlice SizedIter SpecContainers SizedSliceProofs SizedIterProofs IterUse.

Lemma next_nil {A} n (i : siter A) : ishape n [] i -> it_next i = Done (None, i).
Proof. intros (pre & post & -> & _). reflexivity. Qed.

Lemma next_cons {A} n (x : A) rest i : ishape n (x :: rest) i ->
  it_next i = Done (Some x, SIter (it_buf i) (it_pos i + 1) (length rest)) /\ ishape n rest (SIter (it_buf i) (it_pos i + 1) (length rest)).
Proof.
  intros Hi. destruct (@ishape_step _ _ _ _ Front Hi) as (i' & H & Hs). cbn in H, Hs.
  assert (E : i' = SIter (it_buf i) (it_pos i + 1) (length rest)); [|subst; auto].
  destruct Hi as (pre & post & -> & Hn). unfold it_next in H. cbn [it_len it_buf it_pos length Nat.eqb map app] in *.
  rewrite mem_read_mid in H by reflexivity. cbn in H. injection H as <-. rewrite Nat.sub_0_r. reflexivity.
Qed.

(* ---- every loop has at most one outcome *)
Lemma loops_det {St A} (next : stepper St A) st o1 : Loops next st o1 -> forall o2, Loops next st o2 -> o1 = o2.
Proof.
  induction 1 as [st st1 E | st x st1 o E _ IH | st p E | st u E]; intros o2 H2; inversion H2 as [? ? E2 | ? ? ? ? E2 H3 | ? ? E2 | ? ? E2];
    subst; rewrite E in E2; try discriminate; try congruence.
  injection E2 as <- <-. rewrite (IH _ H3). reflexivity.
Qed.

Lemma loops_iff {St A} (next : stepper St A) st o : Loops next st o -> forall o', Loops next st o' <-> o' = o.
Proof. intros H o'. split; [intros H'; exact (loops_det _ _ _ H' _ H) | intros ->; exact H]. Qed.

Lemma loops_done {St A} (next : stepper St A) (P : list A -> St -> Prop) :
  (forall st, P [] st -> exists st', next st = Done (None, st')) ->
  (forall x rest st, P (x :: rest) st -> exists st', next st = Done (Some x, st') /\ P rest st') ->
  forall rest st, P rest st -> Loops next st (Done rest).
Proof.
  intros Hn Hc rest. induction rest as [|x rest IH]; intros st Hst.
  - destruct (Hn _ Hst) as (st' & E). exact (L_end _ _ E).
  - destruct (Hc _ _ _ Hst) as (st' & E & Hst'). change (Done (x :: rest)) with (omap (cons x) (Done rest)). exact (L_item _ E (IH _ Hst')).
Qed.

Lemma loops_next {A} n (rest : list A) i : ishape n rest i -> Loops it_next i (Done rest).
Proof.
  intros Hi. refine (loops_done it_next (ishape n) _ _ rest i Hi).
  - intros st Hst. eexists. exact (next_nil _ _ Hst).
  - intros x r st Hst. destruct (next_cons _ _ _ _ Hst) as (E & Hs). eauto.
Qed.

Lemma loops_back {A} n (rest : list A) i : ishape n rest i -> Loops it_next_back i (Done (rev rest)).
Proof.
  intros Hi. refine (loops_done it_next_back (fun l j => ishape n (rev l) j) _ _ (rev rest) i _).
  - intros st Hst. destruct (@ishape_step _ _ _ _ Back Hst) as (i' & E & _). cbn in E. eauto.
  - intros x r st Hst. destruct (@ishape_step _ _ _ _ Back Hst) as (i' & E & Hs). cbn [rev deque1 it_step] in E, Hs. rewrite rev_app_distr in E, Hs.
    cbn [rev app] in E, Hs. rewrite rev_involutive in E, Hs. exists i'.
    destruct (rev r ++ [x]); cbn [fst snd] in E, Hs; auto.
  - rewrite rev_involutive. exact Hi.
Qed.

Lemma loops_take {A} n (rest : list A) k i : ishape n rest i -> Loops take_next (k, i) (Done (firstn k rest)).
Proof.
  revert rest i. induction k as [|k IH]; intros rest i Hi; [exact (L_end take_next (0, i) eq_refl)|].
  destruct rest as [|x rest]; cbn [firstn].
  - eapply (L_end take_next (S k, i)). cbn [take_next]. rewrite (next_nil _ _ Hi). reflexivity.
  - destruct (next_cons _ _ _ _ Hi) as (E & Hs). change (Done (x :: firstn k rest)) with (omap (cons x) (Done (firstn k rest))).
    eapply (L_item (S k, i)); [cbn [take_next]; rewrite E; reflexivity | exact (IH _ _ Hs)].
Qed.

Lemma fill_from_shape {A} n m : forall (rest : list A) i, ishape n rest i ->
  exists tail i', fill_from m i = Done (map Some (firstn m rest) ++ tail, length (firstn m rest), i') /\
    length (firstn m rest) + length tail = m /\ ishape n (skipn m rest) i'.
Proof.
  induction m as [|m IH]; intros rest i Hi; cbn [fill_from].
  - exists [], i. auto.
  - destruct rest as [|x rest].
    + rewrite (next_nil _ _ Hi). cbn [obind]. exists (uninit A (S m)), i. split; [reflexivity|]. split; [apply repeat_length | exact Hi].
    + destruct (next_cons _ _ _ _ Hi) as (E & Hs). rewrite E. cbn [obind]. destruct (IH _ _ Hs) as (tail & i' & E' & Hl & Hs'). rewrite E'.
      cbn [omap obind firstn map app length skipn]. exists tail, i'. split; [reflexivity|]. split; [lia | exact Hs'].
Qed.

(* ---- C105 *)
Lemma C105_loop_lemma : forall n A (i : siter A) rest, IterReachable n i -> it_as_slice i = Done rest -> forall o, Loops it_next i o <-> o = Done rest.
Proof.
  intros n A i rest Hr Hi. destruct (iter_reachable_shape _ _ _ Hr) as (rest' & Hs). rewrite (ishape_slice _ _ _ Hs) in Hi. injection Hi as ->.
  apply loops_iff. exact (loops_next _ _ _ Hs).
Qed.

Lemma C105_rev_lemma : forall n A (i : siter A) rest, IterReachable n i -> it_as_slice i = Done rest ->
  forall o, Loops it_next_back i o <-> o = Done (rev rest).
Proof.
  intros n A i rest Hr Hi. destruct (iter_reachable_shape _ _ _ Hr) as (rest' & Hs). rewrite (ishape_slice _ _ _ Hs) in Hi. injection Hi as ->.
  apply loops_iff. exact (loops_back _ _ _ Hs).
Qed.

Lemma C105_take_lemma : forall n A (i : siter A) rest k, IterReachable n i -> it_as_slice i = Done rest ->
  forall o, Loops take_next (k, i) o <-> o = Done (firstn k rest).
Proof.
  intros n A i rest k Hr Hi. destruct (iter_reachable_shape _ _ _ Hr) as (rest' & Hs). rewrite (ishape_slice _ _ _ Hs) in Hi. injection Hi as ->.
  apply loops_iff. exact (loops_take _ _ _ _ Hs).
Qed.

Lemma C105_collect_lemma : forall n A (i : siter A) rest m, IterReachable n i -> it_as_slice i = Done rest ->
  exists s i', ss_collect m i = Done (s, i') /\ ss_capacity s = m /\ ss_as_slice s = Done (firstn m rest) /\ it_as_slice i' = Done (skipn m rest).
Proof.
  intros n A i rest m Hr Hi. destruct (iter_reachable_shape _ _ _ Hr) as (rest' & Hs). rewrite (ishape_slice _ _ _ Hs) in Hi. injection Hi as ->.
  destruct (fill_from_shape n m _ _ Hs) as (tail & i' & E & Hl & Hs'). unfold ss_collect. rewrite E. cbn [omap obind]. eexists. exists i'. split; [reflexivity|].
  assert (Hsh : shape m (firstn m rest) (SSlice (map Some (firstn m rest) ++ tail) (length (firstn m rest)))) by (exists tail; auto).
  destruct (shape_len Hsh) as (_ & Hc & _). split; [exact Hc|]. split; [exact (shape_slice Hsh) | exact (ishape_slice _ _ _ Hs')].
Qed.

(* ---- C106: collect *)
Lemma extends_sound {A} size acc cap (i : siter A) o : Extends size acc cap i o -> forall n rest ys, ishape n rest i -> o = Done ys -> ys = acc ++ rest.
Proof.
  induction 1 as [acc cap i i' E | acc cap i x i' o E Hc _ IH | acc cap i x i' lower o E Hz Hc Hh _ IH | acc cap i x i' u E Hz Hc Hh | |];
    intros n rest ys Hi Ho; try discriminate.
  - injection Ho as ->. destruct rest as [|x rest]; [symmetry; apply app_nil_r|]. rewrite (proj1 (next_cons _ _ _ _ Hi)) in E. discriminate.
  - destruct rest as [|y rest]; [rewrite (next_nil _ _ Hi) in E; discriminate|]. destruct (next_cons _ _ _ _ Hi) as (E' & Hs). rewrite E in E'.
    injection E' as -> ->. rewrite (IH _ _ _ Hs Ho), <- app_assoc. reflexivity.
  - destruct rest as [|y rest]; [rewrite (next_nil _ _ Hi) in E; discriminate|]. destruct (next_cons _ _ _ _ Hi) as (E' & Hs). rewrite E in E'.
    injection E' as -> ->. rewrite (IH _ _ _ Hs Ho), <- app_assoc. reflexivity.
Qed.

Lemma extends_det {A} size acc cap (i : siter A) o : Extends size acc cap i o -> forall o', Extends size acc cap i o' -> o = o'.
Proof.
  induction 1 as [acc cap i i' E | acc cap i x i' o E Hc _ IH | acc cap i x i' lower o E Hz Hc Hh _ IH | acc cap i x i' u E Hz Hc Hh | acc cap i p E | acc cap i u E];
    intros o' H'; inversion H'; subst;
    repeat match goal with H1 : it_next i = _, H2 : it_next i = _ |- _ => rewrite H1 in H2; clear H1 end; try congruence;
    repeat match goal with H : Done _ = Done _ |- _ => injection H as; subst end; try (exfalso; tauto); try congruence; eauto.
  replace lower0 with lower in * by congruence. eauto.
Qed.

Lemma extends_room {A} size n (rest : list A) : forall acc cap i, ishape n rest i -> size = 0%N \/ length acc + length rest <= cap ->
  Extends size acc cap i (Done (acc ++ rest)).
Proof.
  induction rest as [|x rest IH]; intros acc cap i Hi Hc.
  - rewrite app_nil_r. exact (X_end _ _ _ _ (next_nil _ _ Hi)).
  - destruct (next_cons _ _ _ _ Hi) as (E & Hs). eapply X_room; [exact E | destruct Hc; [left; assumption | right; cbn [length] in *; lia]|].
    replace (acc ++ x :: rest) with ((acc ++ [x]) ++ rest) by (rewrite <- app_assoc; reflexivity). apply IH; [exact Hs|].
    rewrite app_length. cbn [length] in *. destruct Hc; [left; assumption | right; lia].
Qed.

Lemma extends_full {A} size n (rest : list A) : forall acc cap i, ishape n rest i -> size <> 0%N -> rest <> [] -> cap + 1 = length acc + length rest ->
  Extends size acc cap i (Undefined UUnderflow).
Proof.
  induction rest as [|x rest IH]; intros acc cap i Hi Hz Hne Hc; [congruence|]. destruct (next_cons _ _ _ _ Hi) as (E & Hs).
  destruct rest as [|y rest].
  - eapply X_hint; [exact E | exact Hz | cbn in Hc; lia|]. unfold it_size_hint. cbn [it_len it_pos length].
    replace (0 <? it_pos i + 1) with true by (symmetry; apply Nat.ltb_lt; lia). reflexivity.
  - eapply X_room; [exact E | right; cbn [length] in *; lia|]. apply IH; [exact Hs | exact Hz | discriminate|]. rewrite app_length. cbn [length] in *. lia.
Qed.

Lemma collects_det {A} size (i : siter A) o : Collects size i o -> forall o', Collects size i o' -> o = o'.
Proof.
  intros H o' H'. inversion H; subst; inversion H'; subst;
    repeat match goal with H1 : it_next i = _, H2 : it_next i = _ |- _ => rewrite H1 in H2; clear H1 end; try congruence;
    repeat match goal with H : Done _ = Done _ |- _ => injection H as; subst end; try congruence.
  replace lower0 with lower in * by congruence. eauto using extends_det.
Qed.

Lemma collects_iff {A} size (i : siter A) o : Collects size i o -> forall o', Collects size i o' <-> o' = o.
Proof. intros H o'. split; [intros H'; exact (collects_det _ _ _ H' _ H) | intros ->; exact H]. Qed.

Lemma C106_sound_lemma : forall n A (i : siter A) rest size ys, IterReachable n i -> it_as_slice i = Done rest -> Collects size i (Done ys) -> ys = rest.
Proof.
  intros n A i rest size ys Hr Hi H. destruct (iter_reachable_shape _ _ _ Hr) as (rest' & Hs). rewrite (ishape_slice _ _ _ Hs) in Hi. injection Hi as ->.
  inversion H as [? ? E | ? x i' lower o E Hh HX | | |]; subst.
  - destruct rest as [|x rest]; [reflexivity|]. rewrite (proj1 (next_cons _ _ _ _ Hs)) in E. discriminate.
  - destruct rest as [|y rest]; [rewrite (next_nil _ _ Hs) in E; discriminate|]. destruct (next_cons _ _ _ _ Hs) as (E' & Hs'). rewrite E in E'.
    injection E' as -> ->. exact (extends_sound _ _ _ _ _ HX _ _ _ Hs' eq_refl).
Qed.

Lemma collects_fresh {A} n (items : list A) s size : shape n items s ->
  Collects size (ss_into_iter s)
    (if (length items =? 0) || (2 <=? length items) && ((size =? 0)%N || (length items <=? least_capacity size))
     then Done items else Undefined UUnderflow).
Proof.
  intros Hsh. pose proof (ishape_into _ _ _ Hsh) as Hi.
  assert (Hp : it_pos (ss_into_iter s) = 0) by reflexivity.
  destruct items as [|x items]; [eapply C_none; exact (next_nil _ _ Hi)|]. destruct (next_cons _ _ _ _ Hi) as (E & Hs). rewrite Hp in E, Hs.
  cbn [length Nat.eqb orb]. destruct items as [|y items].
  - cbn [length Nat.leb andb]. eapply C_hint; [exact E | reflexivity].
  - cbn [length] in *. change (2 <=? S (S (length items))) with true. cbn [andb].
    assert (Hh : it_size_hint (SIter (it_buf (ss_into_iter s)) (0 + 1) (S (length items))) = Done (length items)).
    { unfold it_size_hint. cbn [it_len it_pos]. cbn. rewrite Nat.sub_0_r. reflexivity. }
    destruct (size =? 0)%N eqn:Ez; [apply N.eqb_eq in Ez; cbn [orb]; eapply C_some; [exact E | exact Hh|]; apply (extends_room size n (y :: items) [x]);
      [exact Hs | left; exact Ez]|]. apply N.eqb_neq in Ez. cbn [orb].
    destruct (S (S (length items)) <=? least_capacity size) eqn:El.
    + apply Nat.leb_le in El. eapply C_some; [exact E | exact Hh|]. apply (extends_room size n (y :: items) [x]); [exact Hs|]. right. cbn [length]. lia.
    + apply Nat.leb_gt in El. eapply C_some; [exact E | exact Hh|]. apply (extends_full size n (y :: items)); [exact Hs | exact Ez | discriminate|]. cbn [length]. lia.
Qed.

Lemma C106_collect_lemma : forall n A (s : sslice A) items size, Reachable n s -> ss_as_slice s = Done items ->
  (length items = 0 \/ 2 <= length items /\ (size = 0%N \/ length items <= (if (size =? 1)%N then 8 else if (size <=? 1024)%N then 4 else 1)) ->
     forall o, Collects size (ss_into_iter s) o <-> o = Done items) /\
  (~ (length items = 0 \/ 2 <= length items /\ (size = 0%N \/ length items <= (if (size =? 1)%N then 8 else if (size <=? 1024)%N then 4 else 1))) ->
     forall o, Collects size (ss_into_iter s) o <-> o = Undefined UUnderflow).
Proof.
  intros n A s items size Hr Hi. destruct (reachable_shape Hr) as (items' & Hs). pose proof (shape_unique Hs Hi) as ->.
  pose proof (collects_fresh n items' s size Hs) as H. fold (least_capacity size).
  assert (Hb : ((length items' =? 0) || (2 <=? length items') && ((size =? 0)%N || (length items' <=? least_capacity size))) = true <->
    (length items' = 0 \/ 2 <= length items' /\ (size = 0%N \/ length items' <= least_capacity size))).
  { rewrite orb_true_iff, andb_true_iff, orb_true_iff, Nat.eqb_eq, Nat.leb_le, N.eqb_eq, Nat.leb_le. reflexivity. }
  destruct ((length items' =? 0) || _) eqn:E; split; intros G; try (apply collects_iff; exact H).
  - exfalso. apply G, Hb. reflexivity.
  - apply Hb in G. congruence.
Qed.

Lemma C106_extend_lemma : forall n A (i : siter A) rest size old cap, IterReachable n i -> it_as_slice i = Done rest ->
  length old + length rest <= cap -> forall o, Extends size old cap i o <-> o = Done (old ++ rest).
Proof.
  intros n A i rest size old cap Hr Hi Hc o. destruct (iter_reachable_shape _ _ _ Hr) as (rest' & Hs). rewrite (ishape_slice _ _ _ Hs) in Hi. injection Hi as ->.
  assert (H : Extends size old cap i (Done (old ++ rest))) by (apply extends_room with (n := n); auto).
  split; [intros H'; exact (extends_det _ _ _ _ _ H' _ H) | intros ->; exact H].
Qed.

(* ---- C106: skip *)
Lemma fresh_nth {A} n (items : list A) s ch k : shape n items s ->
  it_nth ch (ss_into_iter s) k =
    if length items <? k then Done (None, [], ss_into_iter s)
    else if k =? 0 then (if ch then Panics PArith else Undefined UOutOfBounds)
    else omap (fun x => (Some x, firstn (k - 1) items, SIter (ss_buf s) k (length items - k))) (mem_read (ss_buf s) k).
Proof.
  intros (rest & -> & Hn). unfold it_nth, ss_into_iter. cbn [it_len it_buf it_pos ss_buf ss_len Nat.add].
  destruct (length items <? k) eqn:E; [reflexivity|]. apply Nat.ltb_ge in E. destruct k as [|k]; [reflexivity|]. cbn [Nat.eqb].
  replace (S k - 1) with k by lia. cbn [Nat.ltb Nat.leb]. rewrite app_length, map_length, Nat.sub_0_r.
  replace (length items + length rest <? k) with false by (symmetry; apply Nat.ltb_ge; lia).
  assert (Hm : mem_slice (map Some items ++ rest) 0 k = Done (firstn k items)).
  { rewrite <- (firstn_skipn k items) at 1. rewrite map_app, <- app_assoc.
    pose proof (@mem_slice_mid A (firstn k items) [] (map Some (skipn k items) ++ rest) 0 eq_refl) as H. rewrite firstn_length_le in H by lia. exact H. }
  destruct k as [|k]; [cbn [Nat.ltb Nat.leb]; cbn [mem_slice obind firstn]; reflexivity|].
  cbn [Nat.ltb Nat.leb]. replace (length items + length rest <=? k) with false by (symmetry; apply Nat.leb_gt; lia). rewrite Hm. reflexivity.
Qed.

Lemma read_item {A} (items : list A) rest k x : nth_error items k = Some x -> mem_read (map Some items ++ rest) k = Done x.
Proof.
  intros H. unfold mem_read. rewrite nth_error_app1 by (rewrite map_length; apply nth_error_Some; congruence). rewrite nth_error_map, H. reflexivity.
Qed.

Lemma fresh_skipped {A} n (items : list A) s k : shape n items s -> k <= length items ->
  ishape n (skipn k items) (SIter (ss_buf s) k (length items - k)).
Proof.
  intros (rest & -> & Hn) Hk. exists (map Some (firstn k items)), rest. cbn [ss_buf].
  rewrite map_length, firstn_length_le, skipn_length by lia. split; [|lia].
  rewrite app_assoc, <- map_app, firstn_skipn. reflexivity.
Qed.

Lemma loops_skip0 {A} n (rest : list A) ch i : ishape n rest i -> Loops (skip_next ch) (0, i) (Done rest).
Proof.
  intros Hi. refine (loops_done (skip_next ch) (fun l st => fst st = 0 /\ ishape n l (snd st)) _ _ rest (0, i) (conj eq_refl Hi)).
  - intros (k & j) (Hk & Hj). cbn [fst snd] in *. subst. cbn [skip_next]. rewrite (next_nil _ _ Hj). eexists. reflexivity.
  - intros x r (k & j) (Hk & Hj). cbn [fst snd] in *. subst. cbn [skip_next]. destruct (next_cons _ _ _ _ Hj) as (E & Hs). rewrite E.
    eexists. split; [reflexivity|]. split; [reflexivity | exact Hs].
Qed.

Lemma skipn_cons_neq {A} (x : A) k items : x :: skipn k items <> skipn k items.
Proof. intros H. apply (f_equal (@length A)) in H. cbn in H. lia. Qed.

Lemma C106_skip_lemma : forall n A (s : sslice A) items checks k, Reachable n s -> ss_as_slice s = Done items ->
  (Loops (skip_next checks) (k, ss_into_iter s) (Done (skipn k items)) <-> k = 0 \/ length items < k) /\
  (forall x, 0 < k -> nth_error items k = Some x -> forall o, Loops (skip_next checks) (k, ss_into_iter s) o <-> o = Done (x :: skipn k items)).
Proof.
  intros n A s items ch k Hr Hi. destruct (reachable_shape Hr) as (items' & Hs). pose proof (shape_unique Hs Hi) as ->.
  pose proof (fresh_nth n items' s ch k Hs) as En.
  assert (Hmid : forall x, 0 < k -> nth_error items' k = Some x -> Loops (skip_next ch) (k, ss_into_iter s) (Done (x :: skipn k items'))).
  { intros x Hk Hx. assert (Hl : k < length items') by (apply nth_error_Some; congruence).
    replace (length items' <? k) with false in En by (symmetry; apply Nat.ltb_ge; lia). replace (k =? 0) with false in En by (symmetry; apply Nat.eqb_neq; lia).
    destruct (Hs) as (rest & Es & _). assert (Er : mem_read (ss_buf s) k = Done x) by (rewrite Es; apply read_item; exact Hx). rewrite Er in En. cbn in En.
    change (Done (x :: skipn k items')) with (omap (cons x) (Done (skipn k items'))).
    eapply L_item; [destruct k; [lia|]; cbn [skip_next]; rewrite En; reflexivity|].
    eapply loops_skip0. apply fresh_skipped; [exact Hs | lia]. }
  split.
  - split.
    + intros H. destruct k as [|k]; [left; reflexivity|]. right. destruct (Nat.lt_ge_cases (length items') (S k)) as [G|G]; [exact G|]. exfalso.
      destruct (nth_error items' (S k)) as [x|] eqn:Ex.
      * pose proof (loops_det _ _ _ (Hmid x (Nat.lt_0_succ _) eq_refl) _ H) as Heq. injection Heq as Heq. exact (skipn_cons_neq x (S k) items' Heq).
      * apply nth_error_None in Ex. replace (length items' <? S k) with false in En by (symmetry; apply Nat.ltb_ge; lia). cbn [Nat.eqb] in En.
        rewrite skipn_all2 in H by lia. inversion H as [? ? E | ? ? ? o E H1 Ho | |]; subst; cbn [skip_next] in E; rewrite En in E.
        -- destruct (mem_read (ss_buf s) (S k)); cbn in E; discriminate.
        -- destruct o; discriminate.
    + intros [-> | Hk]; [apply (loops_skip0 n); apply ishape_into; exact Hs|]. rewrite skipn_all2 by lia.
      replace (length items' <? k) with true in En by (symmetry; apply Nat.ltb_lt; lia).
      eapply L_end. destruct k; [lia|]. cbn [skip_next]. rewrite En. reflexivity.
  - intros x Hk Hx. apply loops_iff. exact (Hmid x Hk Hx).
Qed.

Lemma skip_folds_det {A} ch k (i : siter A) o : SkipFolds ch k i o -> forall o', SkipFolds ch k i o' -> o = o'.
Proof. intros H o' H'. inversion H; subst; inversion H'; subst; try congruence; [eapply loops_det; eassumption|].
  match goal with H1 : it_nth _ _ _ = _, H2 : it_nth _ _ _ = _ |- _ => rewrite H1 in H2; injection H2 as; subst end. eapply loops_det; eassumption. Qed.

Lemma C106_skip_fold_lemma : forall n A (s : sslice A) items checks k, Reachable n s -> ss_as_slice s = Done items ->
  (k = 0 -> forall o, SkipFolds checks k (ss_into_iter s) o <-> o = Done items) /\
  (k = 1 -> forall o, SkipFolds checks k (ss_into_iter s) o <-> o = if checks then Panics PArith else Undefined UOutOfBounds) /\
  (2 <= k <= length items -> forall o, SkipFolds checks k (ss_into_iter s) o <-> o = Done (skipn (k - 1) items)) /\
  (1 + length items < k -> forall o, SkipFolds checks k (ss_into_iter s) o <-> o = Done []).
Proof.
  intros n A s items ch k Hr Hi. destruct (reachable_shape Hr) as (items' & Hs). pose proof (shape_unique Hs Hi) as ->.
  assert (U : forall o, SkipFolds ch k (ss_into_iter s) o -> forall o', SkipFolds ch k (ss_into_iter s) o' <-> o' = o).
  { intros o H o'. split; [intros H'; exact (skip_folds_det _ _ _ _ H' _ H) | intros ->; exact H]. }
  split; [|split; [|split]].
  - intros ->. apply U. constructor. eapply loops_next, ishape_into, Hs.
  - intros ->. apply U. pose proof (fresh_nth n items' s ch 0 Hs) as En. cbn in En. destruct ch; [apply SF_panics | apply SF_undefined]; exact En.
  - intros Hk. apply U. destruct k as [|k]; [lia|]. replace (S k - 1) with k by lia. pose proof (fresh_nth n items' s ch k Hs) as En.
    destruct (nth_error items' k) as [x|] eqn:Ex; [|apply nth_error_None in Ex; lia].
    replace (length items' <? k) with false in En by (symmetry; apply Nat.ltb_ge; lia). replace (k =? 0) with false in En by (symmetry; apply Nat.eqb_neq; lia).
    destruct (Hs) as (rest & Es & _). assert (Er : mem_read (ss_buf s) k = Done x) by (rewrite Es; apply read_item; exact Ex). rewrite Er in En. cbn in En.
    eapply SF_rest; [exact En|]. eapply loops_next. apply fresh_skipped; [exact Hs | lia].
  - intros Hk. apply U. destruct k as [|k]; [lia|]. pose proof (fresh_nth n items' s ch k Hs) as En.
    replace (length items' <? k) with true in En by (symmetry; apply Nat.ltb_lt; lia). eapply SF_short. exact En.
Qed.

Lemma C106_step_lemma : forall n A (s : sslice A) checks step, Reachable n s ->
  forall o, Loops (step_next checks) (step, true, ss_into_iter s) o <-> o = if checks then Panics PArith else Undefined UOutOfBounds.
Proof.
  intros n A s ch step Hr. destruct (reachable_shape Hr) as (items & Hs). pose proof (fresh_nth n items s ch 0 Hs) as En. cbn [Nat.ltb Nat.leb Nat.eqb] in En.
  apply loops_iff. destruct ch; [apply L_panics | apply L_undefined]; cbn [step_next]; rewrite En; reflexivity.
Qed.

Lemma C106_refutation :
  (exists (s : sslice nat), Reachable 1 s /\ ss_as_slice s = Done [7] /\ Collects 8 (ss_into_iter s) (Undefined UUnderflow)) /\
  (exists (s : sslice nat), Reachable 5 s /\ ss_as_slice s = Done [1; 2; 3; 4; 5] /\ Collects 8 (ss_into_iter s) (Undefined UUnderflow)) /\
  (exists (s : sslice nat) checks, Reachable 3 s /\ ss_as_slice s = Done [10; 11; 12] /\
     Loops (skip_next checks) (1, ss_into_iter s) (Done [11; 11; 12])) /\
  (exists (s : sslice nat) checks, Reachable 3 s /\ ss_as_slice s = Done [10; 11; 12] /\ SkipFolds checks 2 (ss_into_iter s) (Done [11; 12])) /\
  (exists (s : sslice nat) checks, Reachable 3 s /\ ss_as_slice s = Done [10; 11; 12] /\
     Loops (step_next checks) (1, true, ss_into_iter s) (Panics PArith)).
Proof.
  assert (R1 : Reachable 1 (ss_from_array [7])) by (constructor; reflexivity).
  assert (R3 : Reachable 3 (ss_from_array [10; 11; 12])) by (constructor; reflexivity).
  assert (R5 : Reachable 5 (ss_from_array [1; 2; 3; 4; 5])) by (constructor; reflexivity).
  split; [|split; [|split; [|split]]].
  - eexists. split; [exact R1|]. split; [reflexivity|]. apply (proj2 (C106_collect_lemma _ _ _ _ 8%N R1 eq_refl)); [cbn; lia | reflexivity].
  - eexists. split; [exact R5|]. split; [reflexivity|]. apply (proj2 (C106_collect_lemma _ _ _ _ 8%N R5 eq_refl)); [cbn; lia | reflexivity].
  - eexists. exists true. split; [exact R3|]. split; [reflexivity|].
    apply (proj2 (C106_skip_lemma _ _ _ _ true 1 R3 eq_refl) 11); [lia | reflexivity | reflexivity].
  - eexists. exists true. split; [exact R3|]. split; [reflexivity|].
    apply (proj1 (proj2 (proj2 (C106_skip_fold_lemma _ _ _ _ true 2 R3 eq_refl)))); [cbn; lia | reflexivity].
  - eexists. exists true. split; [exact R3|]. split; [reflexivity|]. apply (C106_step_lemma _ _ _ true 1 R3). reflexivity.
Qed.
