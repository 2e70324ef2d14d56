(* Lemmas about SizedSlice, for C49-C54. *)
From Coq Require Import Lia.
From Verif Require Import Base BaseFacts Streams Types Decode Mem SizedSlice SizedIter SizedStr SpecContainers.
Set Implicit Arguments.

(* ---- memory *)

Lemma mem_read_mid {A} (pre : list (option A)) x rest k : k = length pre -> mem_read (pre ++ Some x :: rest) k = Done x.
Proof. intros ->. unfold mem_read. rewrite nth_error_app2, Nat.sub_diag by lia. reflexivity. Qed.

Lemma mem_slice_mid {A} (items : list A) : forall pre rest k, k = length pre ->
  mem_slice (pre ++ map Some items ++ rest) k (length items) = Done items.
Proof.
  induction items as [|x items IH]; intros pre rest k Hk; [reflexivity|].
  cbn [map length mem_slice app]. rewrite mem_read_mid by exact Hk. cbn [obind].
  change (pre ++ Some x :: map Some items ++ rest) with (pre ++ [Some x] ++ map Some items ++ rest). rewrite app_assoc.
  rewrite IH by (rewrite app_length; cbn [length]; lia). reflexivity.
Qed.

Lemma mem_write_mid {A} (pre : list (option A)) o x rest k : k = length pre -> mem_write (pre ++ o :: rest) k x = Done (pre ++ Some x :: rest).
Proof.
  intros ->. unfold mem_write. rewrite app_length. cbn [length]. replace (length pre <? length pre + S (length rest)) with true
    by (symmetry; apply Nat.ltb_lt; lia).
  rewrite firstn_app, Nat.sub_diag, firstn_all, firstn_O, app_nil_r, skipn_app, (skipn_all2 pre) by lia.
  replace (S (length pre) - length pre) with 1 by lia. reflexivity.
Qed.

Lemma uninit_length {A} n : length (uninit A n) = n.
Proof. apply repeat_length. Qed.
Lemma uninit_app {A} a b : uninit A (a + b) = uninit A a ++ uninit A b.
Proof. apply repeat_app. Qed.

(* ---- the shape of every reachable slice *)

Definition shape {A} (n : nat) (items : list A) (s : sslice A) : Prop :=
  exists rest, s = SSlice (map Some items ++ rest) (length items) /\ length items + length rest = n.

Lemma shape_slice {A} n (items : list A) s : shape n items s -> ss_as_slice s = Done items.
Proof. intros (rest & -> & _). exact (@mem_slice_mid A items [] rest 0 eq_refl). Qed.

Lemma shape_len {A} n (items : list A) s : shape n items s -> ss_length s = length items /\ ss_capacity s = n /\ length items <= n.
Proof.
  intros (rest & -> & H). unfold ss_length, ss_capacity. cbn [ss_len ss_buf]. rewrite app_length, map_length. lia.
Qed.

Lemma clone_into_done {A} (cl : A -> option A) data copies : Clones cl data copies -> forall n, length data <= n ->
  clone_into cl (uninit A n) data = Done (map Some copies ++ uninit A (n - length data)).
Proof.
  induction 1 as [|x y data copies Hxy Hd IH]; intros n Hn.
  - destruct n; reflexivity.
  - destruct n as [|n]; [cbn in Hn; lia|]. cbn [uninit repeat clone_into]. rewrite Hxy.
    change (repeat None n) with (uninit A n). rewrite IH by (cbn in Hn; lia). reflexivity.
Qed.

Lemma clone_into_inv {A} (cl : A -> option A) data : forall n buf, length data <= n -> clone_into cl (uninit A n) data = Done buf ->
  exists copies, Clones cl data copies.
Proof.
  induction data as [|x data IH]; intros n buf Hn H.
  - exists []. constructor.
  - destruct n as [|n]; [cbn in Hn; lia|]. cbn [uninit repeat clone_into] in H. destruct (cl x) as [y|] eqn:E; [|discriminate].
    change (repeat None n) with (uninit A n) in H.
    destruct (clone_into cl (uninit A n) data) as [b| |] eqn:E2; try discriminate.
    destruct (IH n b ltac:(cbn in Hn; lia) E2) as (copies & Hc). exists (y :: copies). constructor; assumption.
Qed.

Lemma clones_length {A} (cl : A -> option A) items copies : Clones cl items copies -> length copies = length items.
Proof. induction 1; cbn; congruence. Qed.

Lemma new_shape {A} (cl : A -> option A) n data copies : length data <= n -> Clones cl data copies ->
  exists s, ss_new cl n data = Done (inr s) /\ shape n copies s.
Proof.
  intros Hn Hc. unfold ss_new. replace (n <? length data) with false by (symmetry; apply Nat.ltb_ge; lia).
  rewrite (clone_into_done Hc Hn). cbn. eexists. split; [reflexivity|].
  exists (uninit A (n - length data)). rewrite (clones_length Hc), uninit_length. split; [reflexivity | lia].
Qed.

Lemma new_inv {A} (cl : A -> option A) n data s : ss_new cl n data = Done (inr s) ->
  length data <= n /\ exists copies, Clones cl data copies /\ shape n copies s.
Proof.
  intros H. unfold ss_new in H. destruct (Nat.ltb_spec n (length data)) as [Hl|Hl]; [discriminate|]. split; [exact Hl|].
  destruct (clone_into cl (uninit A n) data) as [b| |] eqn:E; try discriminate.
  destruct (@clone_into_inv _ _ _ _ _ Hl E) as (copies & Hc). exists copies. split; [exact Hc|].
  rewrite (clone_into_done Hc Hl) in E. injection E as <-. cbn in H. injection H as <-.
  exists (uninit A (n - length data)). rewrite (clones_length Hc), uninit_length. split; [reflexivity | lia].
Qed.

Lemma fill_spec {St A} (next : iterator St A) n : forall st buf len st', fill next n st = (buf, len, st') ->
  exists items rest, buf = map Some items ++ rest /\ len = length items /\ length items + length rest = n /\
    ((length items = n /\ Pulls next st items st') \/
     (length items < n /\ exists st1, Pulls next st items st1 /\ next st1 = (None, st'))).
Proof.
  induction n as [|n IH]; cbn [fill]; intros st buf len st' H.
  - injection H as <- <- <-. exists [], []. repeat split; auto. left. split; [reflexivity | constructor].
  - destruct (next st) as [[x|] st1] eqn:E.
    + destruct (fill next n st1) as [[b l] st2] eqn:E2. injection H as <- <- <-.
      destruct (IH _ _ _ _ E2) as (items & rest & -> & -> & Hl & Hp). exists (x :: items), rest.
      split; [reflexivity|]. split; [reflexivity|]. split; [cbn; lia|].
      destruct Hp as [[Hn Hp] | (Hn & st3 & Hp & Hnone)].
      * left. split; [cbn; lia | econstructor; eassumption].
      * right. split; [cbn; lia|]. exists st3. split; [econstructor; eassumption | exact Hnone].
    + injection H as <- <- <-. exists [], (uninit A (S n)). split; [reflexivity|]. split; [reflexivity|].
      split; [rewrite uninit_length; reflexivity|]. right. split; [cbn; lia|]. exists st. split; [constructor | exact E].
Qed.

Lemma dec_cells_shape {A} (f : D A) n : forall k i i' buf, dec_cells f (uninit A n) k i = (i', Ok buf) ->
  exists items, buf = map Some items /\ length items = n /\ dec_items f n k i = (i', Ok items).
Proof.
  induction n as [|n IH]; cbn [uninit repeat dec_cells dec_items]; intros k i i' buf H.
  - cbv [dok] in *. injection H as <- <-. exists []. auto.
  - unfold dbind in *. destruct (dmap_err (DItem k) f i) as [i1 [x|e|p]]; try discriminate.
    unfold dmap in *. change (repeat None n) with (uninit A n) in H. unfold dbind in *.
    destruct (dec_cells f (uninit A n) (S k) i1) as [i2 [b|e|p]] eqn:E; try discriminate.
    injection H as <- <-. destruct (IH _ _ _ _ E) as (items & -> & Hl & Hd). exists (x :: items). rewrite Hd.
    cbn. auto.
Qed.

Lemma dec_cells_fail {A} (f : D A) n : forall k i i' r, dec_cells f (uninit A n) k i = (i', r) -> (forall b, r <> Ok b) ->
  exists r', dec_items f n k i = (i', r') /\ match r, r' with Err e, Err e' => e = e' | Panic p, Panic p' => p = p' | _, _ => False end.
Proof.
  induction n as [|n IH]; cbn [uninit repeat dec_cells dec_items]; intros k i i' r H Hr.
  - cbv [dok] in *. injection H as <- <-. exfalso. eapply Hr; reflexivity.
  - unfold dbind in *. destruct (dmap_err (DItem k) f i) as [i1 [x|e|p]].
    + unfold dmap, dbind in *. change (repeat None n) with (uninit A n) in H.
      destruct (dec_cells f (uninit A n) (S k) i1) as [i2 [b|e|p]] eqn:E; injection H as <- <-.
      * exfalso. eapply Hr. reflexivity.
      * destruct (IH _ _ _ _ E ltac:(discriminate)) as (r' & -> & Hm). destruct r'; try contradiction. eexists. split; [reflexivity | exact Hm].
      * destruct (IH _ _ _ _ E ltac:(discriminate)) as (r' & -> & Hm). destruct r'; try contradiction. eexists. split; [reflexivity | exact Hm].
    + injection H as <- <-. eexists. split; [reflexivity | reflexivity].
    + injection H as <- <-. eexists. split; [reflexivity | reflexivity].
Qed.

Lemma ss_decode_shape {A} (f : D A) n i i' s : ss_decode f n i = (i', Ok s) ->
  exists i1 len items, dec_usize i = (i1, Ok len) /\ Z.to_nat len <= n /\ dec_items f n 0 i1 = (i', Ok items) /\
    shape n (firstn (Z.to_nat len) items) s.
Proof.
  unfold ss_decode, dbind. destruct (dec_usize i) as [i1 [len|e|p]] eqn:E; try discriminate.
  destruct (Nat.ltb_spec n (Z.to_nat len)) as [Hl|Hl]; [intros H; discriminate|].
  unfold dmap, dbind. destruct (dec_cells f (uninit A n) 0 i1) as [i2 [buf|e|p]] eqn:E2; try discriminate.
  intros H. injection H as <- <-. destruct (@dec_cells_shape _ _ _ _ _ _ _ E2) as (items & -> & Hn & Hd).
  exists i1, len, items. split; [reflexivity|]. split; [exact Hl|]. split; [exact Hd|].
  exists (map Some (skipn (Z.to_nat len) items)). rewrite <- map_app, firstn_skipn, firstn_length, Nat.min_l, map_length, skipn_length by lia.
  split; [reflexivity | lia].
Qed.

Lemma clone_loop_mid {A} (cl : A -> option A) items copies : Clones cl items copies -> forall pre rest pre' rest' k n,
  k = length pre -> k = length pre' -> n = length items -> length rest' >= length items ->
  clone_loop cl (pre ++ map Some items ++ rest) (pre' ++ rest') k n = Done (pre' ++ map Some copies ++ skipn (length items) rest').
Proof.
  induction 1 as [|x y items copies Hxy Hc IH]; intros pre rest pre' rest' k n Hk Hk' -> Hr.
  - reflexivity.
  - cbn [length clone_loop map app]. rewrite mem_read_mid by exact Hk. cbn [obind]. rewrite Hxy.
    destruct rest' as [|o rest']; [cbn in Hr; lia|]. rewrite mem_write_mid by exact Hk'. cbn [obind].
    change (pre ++ Some x :: map Some items ++ rest) with (pre ++ [Some x] ++ map Some items ++ rest).
    change (pre' ++ Some y :: rest') with (pre' ++ [Some y] ++ rest'). rewrite !app_assoc. rewrite <- (app_assoc (pre ++ [Some x])).
    rewrite IH; [| rewrite app_length; cbn [length]; lia | rewrite app_length; cbn [length]; lia | reflexivity | cbn in Hr; lia].
    cbn [length skipn]. rewrite <- !app_assoc. reflexivity.
Qed.

(* no undefined behaviour even if a clone panics *)
Lemma clone_loop_panics {A} (cl : A -> option A) items : forall pre rest pre' rest' k n,
  k = length pre -> k = length pre' -> n = length items -> length rest' >= length items ->
  (exists copies, Clones cl items copies) \/ clone_loop cl (pre ++ map Some items ++ rest) (pre' ++ rest') k n = Panics PUser.
Proof.
  induction items as [|x items IH]; intros pre rest pre' rest' k n Hk Hk' -> Hr.
  - left. exists []. constructor.
  - cbn [length clone_loop map app]. rewrite mem_read_mid by exact Hk. cbn [obind].
    destruct (cl x) as [y|] eqn:E; [|right; reflexivity].
    destruct rest' as [|o rest']; [cbn in Hr; lia|]. rewrite mem_write_mid by exact Hk'. cbn [obind].
    change (pre ++ Some x :: map Some items ++ rest) with (pre ++ [Some x] ++ map Some items ++ rest).
    change (pre' ++ Some y :: rest') with (pre' ++ [Some y] ++ rest'). rewrite !app_assoc. rewrite <- (app_assoc (pre ++ [Some x])).
    destruct (IH (pre ++ [Some x]) rest (pre' ++ [Some y]) rest' (S k) (length items)) as [(copies & Hc) | Hp];
      [rewrite app_length; cbn [length]; lia | rewrite app_length; cbn [length]; lia | reflexivity | cbn in Hr; lia | |].
    + left. exists (y :: copies). constructor; assumption.
    + right. exact Hp.
Qed.

Lemma clone_shape {A} (cl : A -> option A) n items copies s : shape n items s -> Clones cl items copies ->
  exists s', ss_clone cl s = Done s' /\ shape n copies s'.
Proof.
  intros (rest & -> & Hn) Hc. unfold ss_clone, ss_capacity. cbn [ss_len ss_buf]. rewrite app_length, map_length.
  pose proof (@clone_loop_mid _ _ _ _ Hc [] rest [] (uninit A (length items + length rest)) 0 (length items) eq_refl eq_refl eq_refl) as Hl.
  rewrite uninit_length in Hl. specialize (Hl ltac:(lia)). cbn [app] in Hl. rewrite Hl.
  cbn. eexists. split; [reflexivity|]. exists (skipn (length items) (uninit A (length items + length rest))).
  rewrite (clones_length Hc), skipn_length, uninit_length. split; [reflexivity | lia].
Qed.

Lemma clone_panics {A} (cl : A -> option A) n items s : shape n items s -> (exists copies, Clones cl items copies) \/ ss_clone cl s = Panics PUser.
Proof.
  intros (rest & -> & Hn). unfold ss_clone, ss_capacity. cbn [ss_len ss_buf]. rewrite app_length, map_length.
  destruct (@clone_loop_panics A cl items [] rest [] (uninit A (length items + length rest)) 0 (length items)) as [Hc|Hp];
    [reflexivity | reflexivity | reflexivity | rewrite uninit_length; lia | left; exact Hc |].
  right. cbn [app] in Hp. rewrite Hp. reflexivity.
Qed.

Lemma clone_inv {A} (cl : A -> option A) n items s s' : shape n items s -> ss_clone cl s = Done s' ->
  exists copies, Clones cl items copies /\ shape n copies s'.
Proof.
  intros Hs H. destruct (@clone_panics _ cl _ _ _ Hs) as [(copies & Hc) | Hp]; [|congruence].
  destruct (@clone_shape _ _ _ _ _ _ Hs Hc) as (s2 & H2 & Hs2). exists copies. split; [exact Hc|]. rewrite H in H2. injection H2 as ->. exact Hs2.
Qed.

Lemma addr_loop_spec n : forall k pre rest, k = length pre -> length rest >= n ->
  addr_loop (pre ++ rest) k n = Done (pre ++ map Some (seq k n) ++ skipn n rest).
Proof.
  induction n as [|n IH]; intros k pre rest Hk Hr; [reflexivity|].
  destruct rest as [|o rest]; [cbn in Hr; lia|]. cbn [addr_loop]. rewrite mem_write_mid by exact Hk. cbn [obind].
  change (pre ++ Some k :: rest) with (pre ++ [Some k] ++ rest). rewrite app_assoc.
  rewrite IH; [| rewrite app_length; cbn [length]; lia | cbn in Hr; lia]. rewrite <- app_assoc. reflexivity.
Qed.

Lemma each_ref_shape {A} n (items : list A) s : shape n items s -> exists s', ss_each_ref s = Done s' /\ shape n (seq 0 (length items)) s'.
Proof.
  intros (rest & -> & Hn). unfold ss_each_ref, ss_capacity. cbn [ss_len ss_buf]. rewrite app_length, map_length.
  pose proof (@addr_loop_spec (length items) 0 [] (uninit nat (length items + length rest)) eq_refl) as Hl.
  rewrite uninit_length in Hl. specialize (Hl ltac:(lia)). cbn [app] in Hl. rewrite Hl.
  cbn [app omap obind]. eexists. split; [reflexivity|]. exists (skipn (length items) (uninit nat (length items + length rest))).
  rewrite seq_length, skipn_length, uninit_length. split; [reflexivity | lia].
Qed.

Lemma copy_shape {A} n (items : list A) s data : shape n items s -> length data <= n ->
  exists s', ss_copy_from_slice s data = Done s' /\ shape n data s'.
Proof.
  intros Hs Hd. destruct (shape_len Hs) as (_ & Hc & _). unfold ss_copy_from_slice, mem_copy. unfold ss_capacity in Hc. rewrite Hc.
  replace (length data <=? n) with true by (symmetry; apply Nat.leb_le; exact Hd). cbn. eexists. split; [reflexivity|].
  exists (skipn (length data) (ss_buf s)). rewrite skipn_length, Hc. split; [reflexivity | lia].
Qed.

Lemma copy_inv {A} n (items : list A) s data s' : shape n items s -> ss_copy_from_slice s data = Done s' -> length data <= n /\ shape n data s'.
Proof.
  intros Hs H. destruct (Nat.leb_spec (length data) n) as [Hd|Hd].
  - split; [exact Hd|]. destruct (@copy_shape _ _ _ _ data Hs Hd) as (s2 & H2 & Hs2). rewrite H in H2. injection H2 as ->. exact Hs2.
  - destruct (shape_len Hs) as (_ & Hc & _). unfold ss_copy_from_slice, mem_copy in H. unfold ss_capacity in Hc. rewrite Hc in H.
    replace (length data <=? n) with false in H by (symmetry; apply Nat.leb_gt; exact Hd). discriminate.
Qed.

Lemma set_shape {A} n (items : list A) s k x : shape n items s -> k < length items ->
  exists s', ss_index_set s k x = Done s' /\ shape n (firstn k items ++ x :: skipn (S k) items) s'.
Proof.
  intros (rest & -> & Hn) Hk. unfold ss_index_set. cbn [ss_len ss_buf].
  replace (k <? length items) with true by (symmetry; apply Nat.ltb_lt; exact Hk).
  destruct (nth_error items k) as [y|] eqn:E; [|apply nth_error_None in E; lia].
  destruct (nth_error_split _ _ E) as (p & tl & -> & Hp).
  assert (H1 : firstn k (p ++ y :: tl) = p) by (rewrite <- Hp, firstn_app, Nat.sub_diag, firstn_all, app_nil_r; reflexivity).
  assert (H2 : skipn (S k) (p ++ y :: tl) = tl).
  { change (p ++ y :: tl) with (p ++ [y] ++ tl). rewrite app_assoc.
    replace (S k) with (length (p ++ [y]) + 0) by (rewrite app_length; cbn [length]; lia).
    rewrite skipn_app, skipn_all2 by lia. replace (length (p ++ [y]) + 0 - length (p ++ [y])) with 0 by lia. reflexivity. }
  rewrite H1, H2, map_app, <- app_assoc. cbn [map app]. rewrite mem_write_mid by (rewrite map_length; lia). cbn.
  eexists. split; [reflexivity|]. exists rest. rewrite map_app, !app_length in *. rewrite <- app_assoc. cbn [map app length] in *.
  split; [reflexivity | lia].
Qed.

Lemma set_inv {A} n (items : list A) s k x s' : shape n items s -> ss_index_set s k x = Done s' ->
  k < length items /\ shape n (firstn k items ++ x :: skipn (S k) items) s'.
Proof.
  intros Hs H. destruct (Nat.ltb_spec k (length items)) as [Hk|Hk].
  - split; [exact Hk|]. destruct (@set_shape _ _ _ _ _ x Hs Hk) as (s2 & H2 & Hs2). rewrite H in H2. injection H2 as ->. exact Hs2.
  - destruct (shape_len Hs) as (Hl & _ & _). unfold ss_index_set in H. unfold ss_length in Hl. rewrite Hl in H.
    replace (k <? length items) with false in H by (symmetry; apply Nat.ltb_ge; exact Hk). discriminate.
Qed.

Lemma reachable_shape n A (s : sslice A) : Reachable n s -> exists items, shape n items s.
Proof.
  induction 1 as [A cl data s H | St A next st s st' H | A items H | A | A f i i' s H | A cl s s' _ IH H | A s s' _ IH H
                 | A s data s' _ IH H | A s k x s' _ IH H].
  - destruct (@new_inv _ _ _ _ _ H) as (_ & copies & _ & Hs). eauto.
  - unfold ss_from_iter in H. destruct (fill next n st) as [[buf len] st1] eqn:E. injection H as <- <-.
    destruct (@fill_spec _ _ _ _ _ _ _ _ E) as (items & rest & -> & -> & Hl & _). exists items, rest. auto.
  - exists items, []. unfold ss_from_array. rewrite app_nil_r. split; [reflexivity | cbn; lia].
  - exists [], (uninit A n). split; [reflexivity | apply uninit_length].
  - destruct (@ss_decode_shape _ _ _ _ _ _ H) as (i1 & len & items & _ & _ & _ & Hs). eauto.
  - destruct IH as (items & Hs). destruct (@clone_inv _ _ _ _ _ _ Hs H) as (copies & _ & Hs'). eauto.
  - destruct IH as (items & Hs). destruct (each_ref_shape Hs) as (s2 & H2 & Hs2). rewrite H in H2. injection H2 as ->. eauto.
  - destruct IH as (items & Hs). destruct (@copy_inv _ _ _ _ _ _ Hs H) as (_ & Hs'). eauto.
  - destruct IH as (items & Hs). destruct (@set_inv _ _ _ _ _ _ _ Hs H) as (_ & Hs'). eauto.
Qed.

Lemma shape_unique {A} n (items items' : list A) s : shape n items s -> ss_as_slice s = Done items' -> items' = items.
Proof. intros Hs H. rewrite (shape_slice Hs) in H. injection H as ->. reflexivity. Qed.
