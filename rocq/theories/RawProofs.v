(* C109: the lemmas behind the theorems about unsafe functions. *)
From Coq Require Import Lia.
From Verif Require Import Base BaseFacts Streams Utf8 Utf8Facts Types Traits Encode Decode Mem SizedSlice SizedIter SizedStr Slot Raw SpecContainers SpecRaw
  SizedSliceProofs SizedStrProofs SlotProofs.
Set Implicit Arguments.

(* ---- SizedSlice *)

Lemma initialised_items {A} (buf : list (option A)) len : len <= length buf -> Initialised buf len ->
  exists items rest, buf = map Some items ++ rest /\ length items = len.
Proof.
  revert len. induction buf as [|c buf IH]; intros len Hl Hi; cbn [length] in Hl.
  - exists [], []. split; [reflexivity | cbn; lia].
  - destruct len as [|len]; [exists [], (c :: buf); auto|].
    destruct (Hi 0) as [x Hx]; [lia|]. cbn [nth_error] in Hx. injection Hx as ->.
    destruct (IH len) as (items & rest & -> & <-); [lia | intros k Hk; apply (Hi (S k)); lia|]. exists (x :: items), rest. auto.
Qed.
Lemma initialised_shape {A} n (buf : list (option A)) len : length buf = n -> len <= n -> Initialised buf len -> exists items, shape n items (SSlice buf len).
Proof.
  intros Hn Hl Hi. subst n. destruct (initialised_items Hl Hi) as (items & rest & -> & <-). exists items, rest. rewrite app_length, map_length. auto.
Qed.
Lemma shape_initialised {A} n (items : list A) s : shape n items s -> length (ss_buf s) = n /\ ss_len s <= n /\ Initialised (ss_buf s) (ss_len s).
Proof.
  intros (rest & -> & H). cbn [ss_buf ss_len]. rewrite app_length, map_length. repeat split; try lia. intros k Hk.
  rewrite nth_error_app1 by (rewrite map_length; exact Hk). rewrite nth_error_map. destruct (nth_error items k) as [x|] eqn:E; [exists x; reflexivity|].
  apply nth_error_None in E. lia.
Qed.
Lemma debug_fits debug a b : a <= b -> debug && (b <? a) = false.
Proof. intros H. destruct debug; [|reflexivity]. apply Nat.ltb_ge. exact H. Qed.

Lemma ptr_write_done {A} (s : sslice A) k x : k < length (ss_buf s) ->
  ss_ptr_write s k x = Done (SSlice (firstn k (ss_buf s) ++ Some x :: skipn (S k) (ss_buf s)) (ss_len s)).
Proof. intros H. unfold ss_ptr_write, mem_write. apply Nat.ltb_lt in H. rewrite H. reflexivity. Qed.
Lemma nth_update {B} (l : list B) k x j : k < length l -> nth_error (firstn k l ++ x :: skipn (S k) l) j = if j =? k then Some x else nth_error l j.
Proof.
  intros H. assert (Hf : length (firstn k l) = k) by (rewrite firstn_length; lia). destruct (Nat.eqb_spec j k) as [->|Hj].
  - rewrite nth_error_app2 by lia. rewrite Hf, Nat.sub_diag. reflexivity.
  - destruct (Nat.lt_ge_cases j k) as [Hlt|Hge].
    + rewrite nth_error_app1 by lia. rewrite <- (firstn_skipn k l) at 2. rewrite nth_error_app1 by lia. reflexivity.
    + rewrite nth_error_app2 by lia. rewrite Hf. replace (j - k) with (S (j - S k)) by lia. cbn [nth_error].
      rewrite <- (firstn_skipn (S k) l) at 2. assert (Hf' : length (firstn (S k) l) = S k) by (rewrite firstn_length; lia).
      rewrite nth_error_app2 by lia. rewrite Hf'. reflexivity.
Qed.
Lemma update_length {B} (l : list B) k x : k < length l -> length (firstn k l ++ x :: skipn (S k) l) = length l.
Proof. intros H. rewrite app_length. cbn [length]. rewrite firstn_length, skipn_length. lia. Qed.

Lemma write_initialised {A} (buf : list (option A)) len k x : k < length buf -> Initialised buf len ->
  Initialised (firstn k buf ++ Some x :: skipn (S k) buf) len.
Proof.
  intros Hk Hi j Hj. rewrite nth_update by exact Hk. destruct (j =? k); [exists x; reflexivity | apply Hi; exact Hj].
Qed.

Lemma raw_shape debug n A (s : sslice A) : RawReachable debug n s -> exists items, shape n items s.
Proof.
  induction 1 as [A s H | A buf len s Hb Hl Hi H | A s len s' _ [items IH] Hl Hi H | A s k x s' _ [items IH] Hk H | A cl s s' _ [items IH] H |
    A s s' _ [items IH] H | A s data s' _ [items IH] Hl H | A s k x s' _ [items IH] H].
  - exact (reachable_shape H).
  - unfold ss_from_raw_parts in H. rewrite debug_fits in H by lia. injection H as <-. apply initialised_shape; assumption.
  - destruct (shape_initialised IH) as (Hb & _ & _). unfold ss_set_len in H. rewrite debug_fits in H by lia. injection H as <-. apply initialised_shape; assumption.
  - destruct (shape_initialised IH) as (Hb & Hl & Hi). rewrite ptr_write_done in H by lia.
    assert (E : s' = SSlice (firstn k (ss_buf s) ++ Some x :: skipn (S k) (ss_buf s)) (ss_len s)) by congruence. rewrite E.
    apply initialised_shape; [rewrite update_length by lia; exact Hb | exact Hl | apply write_initialised; [lia | exact Hi]].
  - destruct (@clone_inv _ _ _ _ _ _ IH H) as (copies & _ & Hs). eauto.
  - destruct (each_ref_shape IH) as (s2 & E & Hs). rewrite H in E. injection E as ->. eauto.
  - destruct (@copy_inv _ _ _ _ _ _ IH H) as [_ Hs]. eauto.
  - destruct (@set_inv _ _ _ _ _ _ _ IH H) as (Hk & Hs). eauto.
Qed.

Lemma C109_slice_lemma debug n A (s : sslice A) : RawReachable debug n s ->
  exists items, ss_as_slice s = Done items /\ ss_length s = length items /\ ss_capacity s = n /\ length items <= n /\
  exists s0, Reachable n s0 /\ ss_as_slice s0 = Done items.
Proof.
  intros H. destruct (raw_shape H) as [items Hs]. exists items. split; [exact (shape_slice Hs)|]. destruct (shape_len Hs) as (H1 & H2 & H3).
  split; [exact H1|]. split; [exact H2|]. split; [exact H3|].
  assert (Hc : Clones (@Some A) items items) by (clear; induction items; constructor; auto).
  destruct (@new_shape A (@Some A) n items items H3 Hc) as (s0 & E & Hs0). exists s0. split; [exact (R_new _ _ _ E) | exact (shape_slice Hs0)].
Qed.

Lemma read_items {A} (items : list A) rest len k x : length items = len -> k < len ->
  (nth_error items k = Some x <-> mem_read (map Some items ++ rest) k = Done x).
Proof.
  intros Hl Hk. unfold mem_read. rewrite nth_error_app1 by (rewrite map_length; lia). rewrite nth_error_map.
  destruct (nth_error items k) as [y|] eqn:E; cbn [option_map]; [split; intros [= ->]; reflexivity | apply nth_error_None in E; lia].
Qed.

Lemma C109_parts_lemma debug A (buf : list (option A)) len : len <= length buf -> Initialised buf len ->
  exists s items, ss_from_raw_parts debug buf len = Done s /\ ss_into_raw_parts s = (buf, len) /\ ss_as_slice s = Done items /\ length items = len /\
  forall k x, k < len -> (nth_error items k = Some x <-> nth_error buf k = Some (Some x)).
Proof.
  intros Hl Hi. unfold ss_from_raw_parts. rewrite debug_fits by exact Hl. destruct (initialised_items Hl Hi) as (items & rest & -> & <-).
  eexists. exists items. split; [reflexivity|]. split; [reflexivity|]. split.
  - apply (@shape_slice A (length (map Some items ++ rest))). exists rest. rewrite app_length, map_length. auto.
  - split; [reflexivity|]. intros k x Hk. rewrite nth_error_app1 by (rewrite map_length; exact Hk). rewrite nth_error_map.
    destruct (nth_error items k) as [y|] eqn:E; cbn [option_map]; [split; intros [= ->]; reflexivity | apply nth_error_None in E; lia].
Qed.

Lemma C109_calls_lemma debug n A (s : sslice A) : RawReachable debug n s ->
  (let (buf, len) := ss_into_raw_parts s in length buf = n /\ len <= n /\ Initialised buf len /\ ss_from_raw_parts debug buf len = Done s) /\
  (forall len, len <= n -> Initialised (ss_buf s) len -> exists s' items', ss_set_len debug s len = Done s' /\ ss_as_slice s' = Done items' /\ length items' = len /\
     forall k x, k < len -> (nth_error items' k = Some x <-> ss_ptr_read s k = Done x)) /\
  (forall k x, k < n -> exists s', ss_ptr_write s k x = Done s' /\ ss_length s' = ss_length s /\
     forall j, ss_ptr_read s' j = if j =? k then Done x else ss_ptr_read s j).
Proof.
  intros H. destruct (raw_shape H) as [items Hs]. destruct (shape_initialised Hs) as (Hb & Hl & Hi). unfold ss_into_raw_parts. split; [|split].
  - split; [exact Hb|]. split; [exact Hl|]. split; [exact Hi|]. unfold ss_from_raw_parts. rewrite debug_fits by lia. destruct s; reflexivity.
  - intros len Hlen Hin. unfold ss_set_len, ss_ptr_read. rewrite debug_fits by lia. rewrite <- Hb in Hlen. destruct (initialised_items Hlen Hin) as (items' & rest & E & El).
    eexists. exists items'. split; [reflexivity|]. split; [|split; [exact El|]].
    + apply (@shape_slice A (length (ss_buf s))). exists rest. rewrite E, app_length, map_length. split; [f_equal; congruence | lia].
    + intros k x Hk. rewrite E. apply read_items with (len := len); assumption.
  - intros k x Hk. rewrite ptr_write_done by lia. eexists. split; [reflexivity|]. split; [reflexivity|]. intros j. unfold ss_ptr_read, mem_read. cbn [ss_buf].
    rewrite nth_update by lia. destruct (j =? k); reflexivity.
Qed.

Lemma C109_needed_lemma A (buf : list (option A)) len : (exists items, ss_as_slice (SSlice buf len) = Done items) <-> len <= length buf /\ Initialised buf len.
Proof.
  split.
  - unfold ss_as_slice. cbn [ss_buf ss_len]. intros [items H].
    assert (G : forall m k its, mem_slice buf k m = Done its -> forall j, j < m -> exists x, nth_error buf (k + j) = Some (Some x)).
    { induction m as [|m IH]; intros k its E j Hj; [lia|]. cbn [mem_slice] in E. unfold mem_read in E.
      destruct (nth_error buf k) as [[x|]|] eqn:En; try discriminate. cbn [obind omap] in E. unfold omap, obind in E.
      destruct (mem_slice buf (S k) m) as [its'| |] eqn:E2; try discriminate. destruct j as [|j]; [exists x; rewrite Nat.add_0_r; exact En|].
      destruct (IH _ _ E2 j) as [y Hy]; [lia|]. exists y. rewrite <- Hy. f_equal. lia. }
    specialize (G _ _ _ H). cbn [Nat.add] in G. split; [|exact G].
    destruct (Nat.le_gt_cases len (length buf)) as [|Hgt]; [assumption|]. destruct (G (length buf) Hgt) as [x Hx].
    assert (nth_error buf (length buf) = None) by (apply nth_error_None; lia). congruence.
  - intros [Hl Hi]. destruct (initialised_shape (n := length buf) eq_refl Hl Hi) as [items Hs]. exists items. exact (shape_slice Hs).
Qed.

(* nothing depends on what is behind the items *)
Lemma mem_slice_read {A} (a b : list (option A)) len : forall k, (forall j, j < len -> mem_read a (k + j) = mem_read b (k + j)) -> mem_slice a k len = mem_slice b k len.
Proof.
  induction len as [|len IH]; intros k H; [reflexivity|]. cbn [mem_slice]. pose proof (H 0) as H0. rewrite Nat.add_0_r in H0. rewrite H0 by lia.
  rewrite (IH (S k)); [reflexivity|]. intros j Hj. specialize (H (S j)). replace (S k + j) with (k + S j) by lia. apply H. lia.
Qed.
Lemma clone_loop_read {A} (cl : A -> option A) (a b : list (option A)) len : forall dst k, (forall j, j < len -> mem_read a (k + j) = mem_read b (k + j)) ->
  clone_loop cl a dst k len = clone_loop cl b dst k len.
Proof.
  induction len as [|len IH]; intros dst k H; [reflexivity|]. cbn [clone_loop]. pose proof (H 0) as H0. rewrite Nat.add_0_r in H0. rewrite H0 by lia.
  unfold obind. destruct (mem_read b k) as [x| |]; try reflexivity. destruct (cl x) as [y|]; [|reflexivity]. destruct (mem_write dst k y) as [dst'| |]; try reflexivity.
  apply IH. intros j Hj. specialize (H (S j)). replace (S k + j) with (k + S j) by lia. apply H. lia.
Qed.
Lemma shape_read {A} n m (items : list A) s s0 j : shape n items s -> shape m items s0 -> j < length items -> mem_read (ss_buf s) j = mem_read (ss_buf s0) j.
Proof.
  intros (rest & -> & _) (rest0 & -> & _) Hj. unfold mem_read. cbn [ss_buf]. rewrite !nth_error_app1 by (rewrite map_length; exact Hj). reflexivity.
Qed.

Lemma C109_same_lemma debug n A (s s0 : sslice A) : RawReachable debug n s -> Reachable n s0 -> ss_as_slice s = ss_as_slice s0 ->
  (forall cl, ss_clone cl s = ss_clone cl s0) /\ ss_each_ref s = ss_each_ref s0 /\ (forall size granted, ss_into_boxed_slice size granted s = ss_into_boxed_slice size granted s0) /\
  (forall k, ss_index s k = ss_index s0 k) /\ (forall a b, ss_index_range s a b = ss_index_range s0 a b) /\ (forall hash, ss_hash hash s = ss_hash hash s0) /\
  (forall f, ss_encode f s = ss_encode f s0) /\ ss_length s = ss_length s0 /\ ss_capacity s = ss_capacity s0.
Proof.
  intros H H0 E. destruct (raw_shape H) as [items Hs]. destruct (reachable_shape H0) as [items0 Hs0]. rewrite (shape_slice Hs), (shape_slice Hs0) in E. injection E as <-.
  destruct (shape_len Hs) as (L1 & L2 & _), (shape_len Hs0) as (M1 & M2 & _). unfold ss_length in L1, M1.
  assert (R : forall j, j < length items -> mem_read (ss_buf s) (0 + j) = mem_read (ss_buf s0) (0 + j)) by (intros j Hj; apply (@shape_read A n n items s s0 j Hs Hs0 Hj)).
  unfold ss_index, ss_index_range, ss_hash, ss_encode. rewrite (shape_slice Hs), (shape_slice Hs0).
  split; [|split; [|split; [|repeat split; try reflexivity; unfold ss_length; congruence]]].
  - intros cl. unfold ss_clone. rewrite L1, M1, L2, M2. rewrite (clone_loop_read cl (ss_buf s) (ss_buf s0)) by exact R. reflexivity.
  - unfold ss_each_ref. rewrite L1, M1, L2, M2. reflexivity.
  - intros size granted. unfold ss_into_boxed_slice. rewrite L1, M1, (mem_slice_read (ss_buf s) (ss_buf s0)) by exact R. reflexivity.
Qed.

(* ---- SizedStr *)

Lemma parts_tshape n buf len : length buf = n -> len <= n -> valid_utf8 (firstn len buf) -> tshape n true (firstn len buf) (SSlice (map Some buf) len).
Proof.
  intros Hn Hl Hv. split; [|split; [exact Hv|]].
  - exists (map Some (skipn len buf)). rewrite <- map_app, firstn_skipn, map_length, firstn_length, skipn_length. split; [f_equal; lia | lia].
  - intros _. apply Forall_forall. intros c Hc. apply in_map_iff in Hc. destruct Hc as (b & <- & _). discriminate.
Qed.
Lemma st_parts_done debug buf len : len <= length buf -> st_from_raw_parts debug buf len = Done (SSlice (map Some buf) len).
Proof. intros H. unfold st_from_raw_parts, ss_from_raw_parts. rewrite map_length, !debug_fits by exact H. reflexivity. Qed.

Lemma raw_str_shape debug n w s : RawStr debug n w s -> exists bs, tshape n w bs s.
Proof.
  induction 1 as [w s H | buf len s Hb Hl Hv H | bs s Hv Hl H | w s k b s' _ [bs IH] Hk H | w s s' _ [bs IH] H | w s bs s' _ [old IH] Hv Hl H].
  - exact (str_reachable_shape _ _ _ H).
  - rewrite st_parts_done in H by lia. injection H as <-. exists (firstn len buf). apply parts_tshape; assumption.
  - unfold st_from_utf8_unchecked in H. rewrite debug_fits in H by exact Hl. destruct (@unchecked_shape n bs Hl Hv) as (s2 & E & Ht & _).
    rewrite H in E. injection E as ->. eauto.
  - destruct IH as (Hs & Hv & Hw). destruct (shape_len Hs) as (L1 & L2 & L3). unfold st_length, ss_length in *. unfold ss_capacity in L2.
    unfold st_ptr_write in H. rewrite ptr_write_done in H by lia.
    assert (E : s' = SSlice (firstn k (ss_buf s) ++ Some b :: skipn (S k) (ss_buf s)) (ss_len s)) by congruence. rewrite E. clear H E.
    exists bs. split; [|split; [exact Hv|]].
    + destruct Hs as (rest & -> & Hr). cbn [ss_buf ss_len] in *.
      exists (firstn (k - length bs) rest ++ Some b :: skipn (S k - length bs) rest). split.
      * f_equal. rewrite firstn_app, skipn_app, map_length, (firstn_all2 (map Some bs)), (skipn_all2 (map Some bs)) by (rewrite map_length; lia). rewrite <- app_assoc. reflexivity.
      * rewrite app_length. cbn [length]. rewrite firstn_length, skipn_length. lia.
    + intros E. specialize (Hw E). cbn [ss_buf]. rewrite <- (firstn_skipn k (ss_buf s)) in Hw. apply Forall_app in Hw. destruct Hw as [W1 W2].
      apply Forall_app. split; [exact W1|]. constructor; [discriminate|].
      replace (skipn (S k) (ss_buf s)) with (skipn 1 (skipn k (ss_buf s))).
      * destruct (skipn k (ss_buf s)); [constructor | inversion W2; assumption].
      * clear. generalize (ss_buf s). induction k as [|k IH]; intros l; [reflexivity|]. destruct l; [reflexivity|]. cbn [skipn] in *. apply IH.
  - destruct IH as (Hs & Hv & _). destruct (@clone_inv _ _ _ _ _ _ Hs H) as (copies & Hc & Hs').
    assert (copies = bs). { clear - Hc. induction Hc; [reflexivity|]. congruence. } subst copies.
    exists bs. split; [exact Hs'|]. split; [exact Hv | discriminate].
  - destruct IH as (Hs & _ & Hi). destruct (shape_len Hs) as (Hlen & Hcap & Hle). unfold st_length in Hl. rewrite Hlen in Hl.
    unfold st_change, mem_copy in H. unfold ss_capacity in Hcap. rewrite Hcap in H.
    replace (length bs <=? n) with true in H by (symmetry; apply Nat.leb_le; lia). cbn [omap obind] in H. injection H as <-.
    exists bs. split; [|split; [exact Hv|]].
    + exists (skipn (length bs) (ss_buf s)). unfold ss_length in Hlen. rewrite skipn_length, Hcap. split; [f_equal; congruence | lia].
    + intros Hw. cbn [ss_buf]. apply Forall_app. split.
      * apply Forall_forall. intros x Hx. apply in_map_iff in Hx. destruct Hx as (y & <- & _). discriminate.
      * specialize (Hi Hw). rewrite <- (firstn_skipn (length bs) (ss_buf s)) in Hi. apply Forall_app in Hi. apply Hi.
Qed.

Lemma C109_str_lemma debug n w s : RawStr debug n w s ->
  exists x, st_as_str s = Done x /\ valid_utf8 x /\ st_length s = length x /\ st_capacity s = n /\ length x <= n /\
  exists s0, StrReachable n true s0 /\ st_as_str s0 = Done x.
Proof.
  intros H. destruct (raw_str_shape H) as [x Ht]. exists x. split; [exact (as_str_done _ _ _ _ Ht)|]. destruct (tshape_len _ _ _ _ Ht) as (L1 & L2 & L3).
  pose proof Ht as (_ & Hv & _). repeat split; try assumption. destruct (@st_new_spec n x Hv) as [_ H2]. destruct (H2 L3) as (s0 & E & Ht0).
  exists s0. split; [eapply SR_new; eassumption | exact (as_str_done _ _ _ _ Ht0)].
Qed.

Lemma C109_str_calls_lemma debug n :
  (forall buf len, length buf = n -> len <= n -> valid_utf8 (firstn len buf) ->
     exists s, st_from_raw_parts debug buf len = Done s /\ st_as_str s = Done (firstn len buf) /\ st_into_raw_parts s = Done (buf, len)) /\
  (forall bs, valid_utf8 bs -> length bs <= n -> exists s, st_from_utf8_unchecked debug n bs = Done s /\ st_as_str s = Done bs) /\
  (forall s, RawStr debug n true s -> exists buf len, st_into_raw_parts s = Done (buf, len) /\
     length buf = n /\ len <= n /\ valid_utf8 (firstn len buf) /\ st_from_raw_parts debug buf len = Done s).
Proof.
  assert (R : forall (buf : list byte) len, st_into_raw_parts (SSlice (map Some buf) len) = Done (buf, len)).
  { intros buf len. unfold st_into_raw_parts. cbn [ss_buf ss_len]. rewrite map_length.
    pose proof (@mem_slice_mid byte buf [] [] 0 eq_refl) as E. cbn [app] in E. rewrite app_nil_r in E. rewrite E. reflexivity. }
  split; [|split].
  - intros buf len Hn Hl Hv. rewrite st_parts_done by lia. eexists. split; [reflexivity|]. split; [|apply R].
    exact (as_str_done _ _ _ _ (@parts_tshape n buf len Hn Hl Hv)).
  - intros bs Hv Hl. unfold st_from_utf8_unchecked. rewrite debug_fits by exact Hl. destruct (@unchecked_shape n bs Hl Hv) as (s & E & Ht & _).
    exists s. split; [exact E | exact (as_str_done _ _ _ _ Ht)].
  - intros s H. destruct (raw_str_shape H) as (x & Hs & Hv & Hw). specialize (Hw eq_refl). destruct (@mem_slice_init (ss_buf s) Hw) as [buf Hb].
    destruct (shape_len Hs) as (L1 & L2 & L3). unfold ss_length in L1. unfold ss_capacity in L2. rewrite Hb, map_length in L2.
    exists buf, (ss_len s). destruct s as [b l]. cbn [ss_buf ss_len] in *. subst b. split; [apply R|]. split; [exact L2|]. split; [lia|].
    split; [|apply st_parts_done; lia].
    destruct Hs as (rest & E & Hr). injection E as E El. assert (Hx : firstn l buf = x); [|rewrite Hx; exact Hv].
    assert (Hm : map Some (firstn l buf) = map Some x).
    { rewrite <- firstn_map, E, firstn_app, map_length, El, Nat.sub_diag, firstn_O, app_nil_r. apply firstn_all2. rewrite map_length. lia. }
    clear - Hm. revert Hm. generalize (firstn l buf). induction x as [|a x IH]; intros [|b y] H; try discriminate; [reflexivity|].
    cbn [map] in H. injection H as -> H. f_equal. apply IH, H.
Qed.

Lemma C109_refutation : forall n bs, valid_utf8 bs -> n < length bs ->
  st_from_utf8_unchecked true n bs = Panics PAssert /\ st_from_utf8_unchecked false n bs = Undefined UOutOfBounds.
Proof.
  intros n bs _ H. unfold st_from_utf8_unchecked, st_unchecked, mem_copy. rewrite repeat_length.
  replace (n <? length bs) with true by (symmetry; apply Nat.ltb_lt; exact H). replace (length bs <=? n) with false by (symmetry; apply Nat.leb_gt; exact H). split; reflexivity.
Qed.

(* ---- Slot *)

Lemma raw_slot debug checks t s : RawSlot debug checks t s -> slot_length s <= slot_capacity s.
Proof.
  induction 1 as [cap | mem len Hl | s op s' r _ IH H | s len s' _ IH Hl H | s k b s' _ IH Hk H].
  - unfold slot_with_capacity, slot_length. cbn [s_len]. lia.
  - unfold slot_from_raw_parts, slot_length, slot_capacity. cbn [s_len s_buf]. exact Hl.
  - assert (W : slot_wf (slot_capacity s) s) by (split; [exact IH | reflexivity]). pose proof (@step_wf checks t _ s op s' r W H) as [W1 W2]. exact W1.
  - unfold slot_set_len_unchecked in H. rewrite debug_fits in H by exact Hl. injection H as <-. exact Hl.
  - unfold slot_ptr_write in H. unfold slot_capacity in *. apply Nat.ltb_lt in Hk as Hk'. rewrite Hk' in H.
    assert (E : s' = Slot (firstn k (s_buf s) ++ b :: skipn (S k) (s_buf s)) (s_len s)) by congruence. rewrite E.
    unfold slot_length in *. cbn [s_buf s_len]. rewrite update_length by exact Hk. exact IH.
Qed.
Lemma slot_view_done s : slot_length s <= slot_capacity s -> slot_view s = Done (slot_as_slice s).
Proof.
  unfold slot_view, slot_as_slice, slot_length, slot_capacity. intros H. rewrite <- (firstn_skipn (s_len s) (s_buf s)) at 1. rewrite map_app.
  pose proof (@mem_slice_mid byte (firstn (s_len s) (s_buf s)) [] (map Some (skipn (s_len s) (s_buf s))) 0 eq_refl) as E. cbn [app] in E.
  rewrite firstn_length in E. replace (Nat.min (s_len s) (length (s_buf s))) with (s_len s) in E by lia. exact E.
Qed.

Lemma C109_slot_lemma debug checks t s : RawSlot debug checks t s ->
  slot_view s = Done (slot_as_slice s) /\ length (slot_as_slice s) = slot_length s /\ slot_length s <= slot_capacity s /\
  (forall len, len <= slot_capacity s -> exists s', slot_set_len_unchecked debug s len = Done s' /\ slot_set_len s len = (s', Ok tt)) /\
  (forall k b, k < slot_capacity s -> exists s', slot_ptr_write s k b = Done s' /\ slot_index_set s k b = (s', Ok tt)).
Proof.
  intros H. pose proof (raw_slot H) as Hl. split; [exact (slot_view_done _ Hl)|]. split; [unfold slot_as_slice, slot_length, slot_capacity in *; rewrite firstn_length; lia|].
  split; [exact Hl|]. split.
  - intros len Hn. unfold slot_set_len_unchecked, slot_set_len. rewrite debug_fits by exact Hn. apply Nat.leb_le in Hn. rewrite Hn. eauto.
  - intros k b Hk. unfold slot_ptr_write, slot_index_set. unfold slot_capacity in Hk. apply Nat.ltb_lt in Hk. rewrite Hk. eauto.
Qed.

Lemma asserts {A} debug cap len (x : out A) p : (forall q, x <> Panics q) ->
  ((if debug && (cap <? len) then Panics PAssert else x) = Panics p <-> debug = true /\ cap < len /\ p = PAssert).
Proof.
  intros Hx. destruct debug; cbn [andb]; [|split; [intros H; destruct (Hx _ H) | intros (? & _); discriminate]].
  destruct (Nat.ltb_spec cap len); split; try (intros [= <-]; auto; fail); try (intros (_ & _ & ->); reflexivity).
  - intros H'. destruct (Hx _ H').
  - intros (_ & ? & _). lia.
Qed.
Lemma C109_asserted_lemma debug p :
  (forall A (buf : list (option A)) len, ss_from_raw_parts debug buf len = Panics p <-> debug = true /\ length buf < len /\ p = PAssert) /\
  (forall A (s : sslice A) len, ss_set_len debug s len = Panics p <-> debug = true /\ ss_capacity s < len /\ p = PAssert) /\
  (forall buf len, st_from_raw_parts debug buf len = Panics p <-> debug = true /\ length buf < len /\ p = PAssert) /\
  (forall n bs, st_from_utf8_unchecked debug n bs = Panics p <-> debug = true /\ n < length bs /\ p = PAssert) /\
  (forall s len, slot_set_len_unchecked debug s len = Panics p <-> debug = true /\ slot_capacity s < len /\ p = PAssert).
Proof.
  split; [intros; apply asserts; discriminate|]. split; [intros; apply asserts; discriminate|]. split.
  - intros buf len. unfold st_from_raw_parts, ss_from_raw_parts. rewrite map_length. destruct debug; cbn [andb].
    + destruct (Nat.ltb_spec (length buf) len); split; try (intros [= <-]; auto; fail); try (intros (_ & _ & ->); reflexivity); try discriminate. intros (_ & ? & _). lia.
    + split; [discriminate | intros (? & _); discriminate].
  - split; [|intros; apply asserts; discriminate]. intros n bs. apply asserts. intros q.
    unfold st_unchecked, mem_copy. destruct (_ <=? _); discriminate.
Qed.
