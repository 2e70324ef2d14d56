(* C113: changes through mutable views. *)
From Coq Require Import Lia.
From Verif Require Import Base BaseFacts Streams Utf8 Types Encode Decode Mem SizedSlice SizedIter SizedStr Slot SpecContainers SizedSliceProofs SizedIterProofs SizedStrProofs.
Set Implicit Arguments.

(* a sequence of stores can turn the items into any others *)
Lemma stores_reach n A (items' : list A) : forall pre items rest, length items' = length items -> length pre + length items + length rest = n ->
  Reachable n (SSlice (map Some (pre ++ items) ++ rest) (length (pre ++ items))) ->
  Reachable n (SSlice (map Some (pre ++ items') ++ rest) (length (pre ++ items'))).
Proof.
  induction items' as [|x items' IH]; intros pre [|y items] rest Hl Hn Hr; try discriminate; [exact Hr|]. cbn [length] in *.
  replace (pre ++ x :: items') with ((pre ++ [x]) ++ items') by (rewrite <- app_assoc; reflexivity).
  apply (IH (pre ++ [x]) items rest); [lia | rewrite app_length; cbn; lia|].
  apply (R_set (length pre) x Hr). unfold ss_index_set. cbn [ss_len ss_buf].
  replace (length pre <? length (pre ++ y :: items)) with true by (symmetry; apply Nat.ltb_lt; rewrite app_length; cbn; lia).
  rewrite map_app. cbn [map]. rewrite <- !app_assoc. cbn [app]. rewrite mem_write_mid by (rewrite map_length; reflexivity). cbn [omap obind].
  do 2 f_equal; [rewrite map_app; cbn [map]; rewrite <- app_assoc; reflexivity | rewrite !app_length; reflexivity].
Qed.

Lemma C113_slice_lemma : forall n A (s : sslice A) items f, Reachable n s -> ss_as_slice s = Done items -> length (f items) = length items ->
  exists s', ss_edit f s = Done s' /\ Reachable n s' /\ ss_as_slice s' = Done (f items) /\ ss_length s' = ss_length s /\ ss_capacity s' = n /\
    skipn (ss_length s) (ss_buf s') = skipn (ss_length s) (ss_buf s).
Proof.
  intros n A s items f Hr Hs Hf. destruct (reachable_shape Hr) as (items0 & Hi). pose proof (shape_unique Hi Hs). subst items0.
  pose proof Hi as (rest & -> & Hn). unfold ss_edit, mem_edit. cbn [ss_buf ss_len]. unfold ss_as_slice in Hs. cbn [ss_buf ss_len] in Hs. rewrite Hs.
  cbn [omap obind firstn app Nat.add]. rewrite skipn_app, map_length, Nat.sub_diag, skipn_all2 by (rewrite map_length; lia). cbn [app skipn].
  assert (Hsh : shape n (f items) (SSlice (map Some (f items) ++ rest) (length items))).
  { exists rest. rewrite Hf. split; [reflexivity | exact Hn]. }
  eexists. split; [reflexivity|]. split; [|split; [exact (shape_slice Hsh)|]].
  - rewrite <- Hf. apply (stores_reach (f items) [] items rest Hf); [cbn; lia | exact Hr].
  - destruct (shape_len Hsh) as (_ & Hc & _). split; [reflexivity|]. split; [exact Hc|]. unfold ss_length. cbn [ss_len ss_buf].
    rewrite !skipn_app, !map_length, Hf. rewrite (skipn_all2 (map Some items)) by (rewrite map_length; lia).
    rewrite (skipn_all2 (map Some (f items))) by (rewrite map_length; lia). reflexivity.
Qed.

Lemma C113_store_lemma : forall n A (s : sslice A) refs addrs k a x, Reachable n s -> ss_each_ref s = Done refs -> ss_as_slice refs = Done addrs ->
  nth_error addrs k = Some a -> ss_store s a x = ss_index_set s k x /\ exists s', ss_store s a x = Done s' /\ Reachable n s'.
Proof.
  intros n A s refs addrs k a x Hr He Ha Hk. destruct (reachable_shape Hr) as (items & Hi).
  destruct (each_ref_shape Hi) as (r' & Hr' & Hs'). rewrite He in Hr'. injection Hr' as ->. pose proof (shape_unique Hs' Ha). subst addrs.
  assert (Hlt : k < length items).
  { assert (nth_error (seq 0 (length items)) k <> None) as Hne by congruence. apply nth_error_Some in Hne. rewrite seq_length in Hne. exact Hne. }
  rewrite (nth_error_nth' _ 0) in Hk by (rewrite seq_length; exact Hlt). rewrite seq_nth in Hk by exact Hlt. cbn in Hk. injection Hk as <-.
  assert (Heq : ss_store s k x = ss_index_set s k x).
  { unfold ss_index_set, ss_store. destruct (shape_len Hi) as (Hl & _ & _). unfold ss_length in Hl. rewrite Hl.
    replace (k <? length items) with true by (symmetry; apply Nat.ltb_lt; exact Hlt). reflexivity. }
  split; [exact Heq|]. destruct (@set_shape _ _ _ _ k x Hi Hlt) as (s' & Hset & _). exists s'. rewrite Heq. split; [exact Hset|].
  exact (R_set k x Hr Hset).
Qed.

Lemma C113_iter_lemma : forall n A (i : siter A) rest f, IterReachable n i -> it_as_slice i = Done rest -> (forall l, length (f l) = length l) ->
  exists i', it_edit f i = Done i' /\ IterReachable n i' /\ it_as_slice i' = Done (f rest) /\
    (forall es, exists i'', it_run es i' = Done (fst (deque es (f rest)), i'') /\ it_as_slice i'' = Done (snd (deque es (f rest)))).
Proof.
  intros n A i rest f Hr Hs Hf. destruct (@iter_reachable_shape _ _ _ Hr) as (rest0 & Hi).
  pose proof (@ishape_slice _ _ _ _ Hi) as H. rewrite Hs in H. injection H as ->.
  destruct (@ishape_edit _ f _ _ _ Hi (Hf rest0)) as (i' & He & Hi'). exists i'. split; [exact He|]. split; [exact (I_edit f Hr Hf He)|].
  split; [exact (@ishape_slice _ _ _ _ Hi')|]. intros es. destruct (@ishape_run _ _ es _ _ Hi') as (i'' & H1 & H2). exists i''. split; [exact H1 | exact (@ishape_slice _ _ _ _ H2)].
Qed.

Lemma C113_slot_exact_lemma : forall s, slot_length s <= slot_capacity s ->
  (slot_as_slice s = slot_as_mut_slice s <-> slot_is_full s = true) /\
  (slot_as_slice s <> slot_as_mut_slice s -> length (slot_as_slice s) < length (slot_as_mut_slice s)).
Proof.
  intros [buf len]. unfold slot_as_slice, slot_as_mut_slice, slot_is_full, slot_length, slot_capacity. cbn [s_buf s_len]. intros Hl.
  rewrite Nat.eqb_eq, firstn_length, Nat.min_l by exact Hl. split; [split|].
  - intros E. apply (f_equal (@length byte)) in E. rewrite firstn_length, Nat.min_l in E by exact Hl. exact E.
  - intros ->. apply firstn_all.
  - intros Hne. destruct (Nat.eq_dec len (length buf)) as [->|]; [exfalso; apply Hne, firstn_all | lia].
Qed.

Lemma nth_firstn A (l : list A) : forall n k, k < n -> nth_error (firstn n l) k = nth_error l k.
Proof.
  induction l as [|x l IH]; intros [|n] [|k] H; try lia; try reflexivity. cbn [firstn nth_error]. apply IH. lia.
Qed.

Lemma C113_slot_lemma : forall s f, slot_length s <= slot_capacity s -> (forall l, length (f l) = length l) ->
  slot_as_slice (slot_edit f s) = firstn (slot_length s) (f (slot_as_mut_slice s)) /\
  (slot_is_full s = true -> slot_as_slice (slot_edit f s) = f (slot_as_slice s)) /\
  (forall g, (forall l, f l = map g l) -> slot_as_slice (slot_edit f s) = f (slot_as_slice s)) /\
  (forall k b, k < slot_length s -> slot_index (fst (slot_index_set s k b)) k = Ok b).
Proof.
  intros [buf len] f. unfold slot_as_slice, slot_as_mut_slice, slot_is_full, slot_length, slot_capacity, slot_edit, slot_index, slot_index_set, slot_as_slice.
  cbn [s_buf s_len slot_as_mut_slice]. intros Hl Hf. split; [reflexivity|]. split; [|split].
  - rewrite Nat.eqb_eq. intros ->. rewrite <- (Hf buf) at 1. rewrite !firstn_all. reflexivity.
  - intros g Hg. rewrite !Hg. apply firstn_map.
  - intros k b Hk. replace (k <? length buf) with true by (symmetry; apply Nat.ltb_lt; lia). cbn [fst s_buf s_len].
    rewrite nth_firstn by exact Hk. rewrite nth_error_app2 by (rewrite firstn_length; lia).
    rewrite firstn_length, Nat.min_l, Nat.sub_diag by lia. reflexivity.
Qed.

Lemma C113_slot_refutation :
  (forall s k b, slot_length s <= k < slot_capacity s ->
     snd (slot_index_set s k b) = Ok tt /\ slot_index (fst (slot_index_set s k b)) k = Panic PIndex) /\
  (exists s, slot_length s <= slot_capacity s /\ slot_as_slice s = [x01; x02] /\ slot_as_slice (slot_edit (@rev byte) s) = [x00; x02] /\
     slot_as_slice (slot_edit (@rev byte) s) <> rev (slot_as_slice s)).
Proof.
  split.
  - intros [buf len] k b. unfold slot_length, slot_capacity, slot_index, slot_index_set, slot_as_slice. cbn [s_buf s_len]. intros Hk.
    replace (k <? length buf) with true by (symmetry; apply Nat.ltb_lt; lia). cbn [fst snd s_buf s_len]. split; [reflexivity|].
    replace (nth_error _ k) with (@None byte); [reflexivity|]. symmetry. apply nth_error_None. rewrite firstn_length. lia.
  - exists (Slot [x01; x02; x00] 2). split; [cbn; lia|]. split; [reflexivity|]. split; [reflexivity | discriminate].
Qed.

Lemma C113_str_lemma : forall n w s bs f, StrReachable n w s -> st_as_str s = Done bs -> valid_utf8 (f bs) -> length (f bs) = length bs ->
  exists s', st_change s (f bs) = Done s' /\ StrReachable n w s' /\ st_as_str s' = Done (f bs) /\ st_as_bytes s' = Done (f bs) /\
    st_length s' = st_length s /\ st_capacity s' = n.
Proof.
  intros n w s bs f Hr Hs Hv Hf. destruct (@str_reachable_shape _ _ _ Hr) as (bs0 & Ht).
  pose proof (@as_str_done _ _ _ _ Ht) as H. rewrite Hs in H. injection H as <-. destruct (@tshape_len _ _ _ _ Ht) as (Hl & Hc & Hle).
  assert (Hch : exists s', st_change s (f bs) = Done s' /\ shape n (f bs) s').
  { unfold st_change, mem_copy. unfold st_capacity, ss_capacity in Hc. unfold st_length, ss_length in Hl. rewrite Hc.
    replace (length (f bs) <=? n) with true by (symmetry; apply Nat.leb_le; lia). cbn [omap obind]. eexists. split; [reflexivity|].
    exists (skipn (length (f bs)) (ss_buf s)). rewrite skipn_length, Hc. split; [f_equal; congruence | lia]. }
  destruct Hch as (s' & Hs' & Hsh).
  assert (Hr' : StrReachable n w s') by (eapply SR_change; [exact Hr | exact Hv | rewrite Hl; exact Hf | exact Hs']).
  exists s'. split; [exact Hs'|]. split; [exact Hr'|]. destruct (@str_reachable_shape _ _ _ Hr') as (bs1 & Ht1).
  pose proof Ht1 as (Hsh1 & _). assert (bs1 = f bs).
  { pose proof (shape_slice Hsh1) as H1. rewrite (shape_slice Hsh) in H1. congruence. } subst bs1.
  split; [exact (@as_str_done _ _ _ _ Ht1)|]. split; [exact (shape_slice Hsh)|].
  destruct (@tshape_len _ _ _ _ Ht1) as (Hl1 & Hc1 & _). split; [lia | exact Hc1].
Qed.
