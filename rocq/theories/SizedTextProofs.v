(* C96-C98: the lemmas behind the theorems about lengths, stores into a SizedSlice, and parts of a SizedStr. *)
From Coq Require Import Lia ZifyBool ZifyNat ZifyN.
From Verif Require Import Base BaseFacts Streams Utf8 Utf8Facts Types Encode Decode Mem SizedSlice SizedIter SizedStr Slot SpecContainers SizedSliceProofs ContainerProofs
  SizedStrProofs SlotProofs.
Set Implicit Arguments.

(* ---- C96 *)

Lemma C96_slot_lemma : forall checks t cap ops s rs, slot_run checks t (slot_with_capacity cap) ops = (s, rs) ->
  slot_length s = length (slot_as_slice s) /\
  (slot_is_empty s = true <-> slot_as_slice s = []) /\
  (slot_is_full s = true <-> length (slot_as_slice s) = cap).
Proof.
  intros ch t cap ops s rs H. destruct (C43_lemma _ _ _ _ H) as (_ & Hle & Hc & Hl).
  split; [symmetry; exact Hl|]. unfold slot_is_empty, slot_is_full. rewrite !Nat.eqb_eq, <- Hl, Hc. split; [|reflexivity].
  split; [apply length_zero_iff_nil | intros ->; reflexivity].
Qed.

Lemma C96_slice_lemma : forall n A (s : sslice A) items, Reachable n s -> ss_as_slice s = Done items ->
  ss_length s = length items /\ ss_capacity s = n /\ (ss_is_empty s = true <-> items = []) /\ (ss_is_full s = true <-> length items = n).
Proof.
  intros n A s items Hr Hi. destruct (reachable_shape Hr) as (items' & Hs). pose proof (shape_unique Hs Hi); subst items'.
  destruct (shape_len Hs) as (Hl & Hc & _). split; [exact Hl|]. split; [exact Hc|]. unfold ss_is_empty, ss_is_full. rewrite !Nat.eqb_eq, Hl, Hc.
  split; [|reflexivity]. split; [apply length_zero_iff_nil | intros ->; reflexivity].
Qed.

Lemma C96_str_lemma : forall n w s bs, StrReachable n w s -> st_as_str s = Done bs ->
  st_length s = length bs /\ st_capacity s = n /\ (st_is_empty s = true <-> bs = []) /\ (st_is_full s = true <-> length bs = n).
Proof.
  intros n w s bs Hr Hb. destruct (str_reachable_shape _ _ _ Hr) as (bs' & Ht). rewrite (as_str_done _ _ _ _ Ht) in Hb. injection Hb as ->.
  destruct (tshape_len _ _ _ _ Ht) as (Hl & Hc & _). split; [exact Hl|]. split; [exact Hc|]. unfold st_is_empty, st_is_full, ss_is_empty, ss_is_full.
  fold (st_length s) (st_capacity s). rewrite !Nat.eqb_eq, Hl, Hc.
  split; [|reflexivity]. split; [apply length_zero_iff_nil | intros ->; reflexivity].
Qed.

(* ---- C97 *)

Lemma C97_set_lemma : forall n A (s : sslice A) items k x, Reachable n s -> ss_as_slice s = Done items ->
  match nth_error items k with
  | Some _ => exists s', ss_index_set s k x = Done s' /\ ss_as_slice s' = Done (firstn k items ++ x :: skipn (S k) items) /\ ss_capacity s' = n
  | None => ss_index_set s k x = Panics PIndex
  end.
Proof.
  intros n A s items k x Hr Hi. destruct (reachable_shape Hr) as (items' & Hs). pose proof (shape_unique Hs Hi); subst items'.
  destruct (nth_error items k) eqn:E.
  - assert (Hk : k < length items) by (apply nth_error_Some; congruence).
    destruct Hs as (rest & -> & Hn). unfold ss_index_set. cbn [ss_len ss_buf].
    destruct (Nat.ltb_spec k (length items)) as [_|]; [|lia].
    destruct (nth_error_split _ _ E) as (p & q & -> & Hp).
    rewrite map_app, <- app_assoc. cbn [map app]. rewrite mem_write_mid by (rewrite map_length; symmetry; exact Hp). cbn [omap obind].
    eexists. split; [reflexivity|].
    assert (Hs : shape n (p ++ x :: q) (SSlice (map Some p ++ Some x :: map Some q ++ rest) (length (p ++ a :: q)))).
    { exists rest. split; [|rewrite app_length in *; cbn [length] in *; lia]. rewrite map_app, <- app_assoc. cbn [map app]. f_equal.
      rewrite !app_length. reflexivity. }
    rewrite (shape_slice Hs). split; [|apply (shape_len Hs)]. f_equal.
    subst k. rewrite firstn_app, firstn_all, Nat.sub_diag, firstn_O, app_nil_r, skipn_app, skipn_all2 by lia.
    replace (S (length p) - length p) with 1 by lia. reflexivity.
  - apply nth_error_None in E. destruct (shape_len Hs) as (Hl & _). unfold ss_index_set. unfold ss_length in Hl. rewrite Hl.
    destruct (Nat.ltb_spec k (length items)); [lia | reflexivity].
Qed.

Lemma C97_copy_lemma : forall n A (s : sslice A) data, Reachable n s -> length data <= n ->
  exists s', ss_copy_from_slice s data = Done s' /\ ss_as_slice s' = Done data /\ ss_capacity s' = n.
Proof.
  intros n A s data Hr Hd. destruct (reachable_shape Hr) as (items & Hs). destruct (@copy_shape _ _ _ _ data Hs Hd) as (s' & H & Hs').
  exists s'. split; [exact H|]. split; [exact (shape_slice Hs') | apply (shape_len Hs')].
Qed.

Lemma C97_refutation : exists s data, @Reachable 1 nat s /\ ss_copy_from_slice s data = Undefined UOutOfBounds.
Proof. exists (ss_default nat 1), [7; 8]. split; [constructor | reflexivity]. Qed.

Lemma C97_make_lemma : forall A n,
  (forall items : list A, ss_as_slice (ss_from_array items) = Done items /\ ss_capacity (ss_from_array items) = length items) /\
  ss_as_slice (ss_default A n) = Done [] /\ ss_capacity (ss_default A n) = n.
Proof.
  intros A n. split; [|split].
  - intros items. assert (Hs : shape (length items) items (ss_from_array items)).
    { exists []. rewrite app_nil_r. split; [reflexivity | cbn; lia]. }
    split; [exact (shape_slice Hs) | apply (shape_len Hs)].
  - reflexivity.
  - apply uninit_length.
Qed.

(* ---- C98 *)

(* a character: its first octet, and those that continue it *)
Lemma encode_shape c : is_scalar c = true -> exists f r, encode_utf8 c = f :: r /\ is_cont f = false /\ Forall (fun b => is_cont b = true) r.
Proof.
  intros Hc. unfold is_scalar in Hc. unfold encode_utf8.
  assert (Hlow : forall z, (0 <= z < 64)%Z -> is_cont (z2b (128 + z)) = true).
  { intros z Hz. unfold is_cont, between. rewrite b2z_z2b. rewrite Z.mod_small by lia. lia. }
  assert (Hm : forall z, is_cont (z2b (128 + z mod 64)) = true) by (intros z; apply Hlow; apply Z.mod_pos_bound; lia).
  destruct (Z.ltb_spec c 128) as [H1|H1]; [|destruct (Z.ltb_spec c 2048) as [H2|H2]; [|destruct (Z.ltb_spec c 65536) as [H3|H3]]];
    (eexists; eexists; split; [reflexivity|]; split; [|repeat constructor; apply Hm]); unfold is_cont, between; rewrite b2z_z2b.
  - rewrite Z.mod_small by lia. lia.
  - assert (2 <= c / 64 < 32)%Z by (split; [apply Z.div_le_lower_bound | apply Z.div_lt_upper_bound]; lia). rewrite Z.mod_small by lia. lia.
  - assert (0 <= c / 4096 < 16)%Z by (split; [apply Z.div_le_lower_bound | apply Z.div_lt_upper_bound]; lia). rewrite Z.mod_small by lia. lia.
  - assert (0 <= c / 262144 < 5)%Z by (split; [apply Z.div_le_lower_bound | apply Z.div_lt_upper_bound]; lia). rewrite Z.mod_small by lia. lia.
Qed.

Lemma valid_head b bs : valid_utf8 (b :: bs) -> is_cont b = false.
Proof.
  intros (cs & Hcs & H). destruct Hcs as [|c cs Hc Hcs]; [discriminate|]. cbn [flat_map] in H.
  destruct (encode_shape c Hc) as (f & r & E & Hf & _). rewrite E in H. injection H as -> _. exact Hf.
Qed.

Lemma boundary_of_suffix p q : valid_utf8 q -> is_char_boundary (p ++ q) (length p) = true.
Proof.
  intros Hq. unfold is_char_boundary. destruct q as [|b q].
  - rewrite app_nil_r. destruct (nth_error p (length p)) eqn:E.
    + assert (length p < length p) by (apply nth_error_Some; congruence). lia.
    + rewrite Nat.eqb_refl. apply orb_true_r.
  - rewrite nth_error_app2, Nat.sub_diag by lia. cbn [nth_error]. rewrite (valid_head Hq). apply orb_true_r.
Qed.

Lemma boundary_split cs : Forall (fun c => is_scalar c = true) cs -> forall k, is_char_boundary (flat_map encode_utf8 cs) k = true ->
  exists cs1 cs2, cs = cs1 ++ cs2 /\ length (flat_map encode_utf8 cs1) = k.
Proof.
  induction 1 as [|c cs Hc Hcs IH]; intros k Hk.
  - exists [], []. split; [reflexivity|]. unfold is_char_boundary in Hk. cbn [flat_map] in *. destruct k as [|k]; [reflexivity|]. cbn in Hk. discriminate.
  - destruct (Nat.eqb_spec k 0) as [->|Hk0]; [exists [], (c :: cs); split; reflexivity|].
    destruct (Nat.ltb_spec k (length (encode_utf8 c))) as [Hlt|Hge].
    + exfalso. unfold is_char_boundary in Hk. cbn [flat_map] in Hk. rewrite nth_error_app1 in Hk by exact Hlt.
      destruct (encode_shape c Hc) as (f & r & E & _ & Hr). rewrite E in Hk, Hlt. destruct k as [|k]; [congruence|]. cbn [nth_error] in Hk.
      destruct (nth_error r k) as [b|] eqn:Eb.
      * apply nth_error_In in Eb. rewrite Forall_forall in Hr. rewrite (Hr _ Eb) in Hk. discriminate.
      * apply nth_error_None in Eb. cbn [length] in Hlt. lia.
    + destruct (IH (k - length (encode_utf8 c))) as (cs1 & cs2 & -> & Hl).
      * unfold is_char_boundary in *. cbn [flat_map] in Hk. rewrite nth_error_app2 in Hk by exact Hge. rewrite app_length in Hk.
        replace (k =? 0) with false in Hk by lia. cbn [orb] in Hk.
        destruct (nth_error (flat_map encode_utf8 cs) (k - length (encode_utf8 c))); [rewrite Hk; apply orb_true_r|].
        replace (k - length (encode_utf8 c) =? length (flat_map encode_utf8 cs)) with true by lia. apply orb_true_r.
      * exists (c :: cs1), cs2. split; [reflexivity|]. cbn [flat_map]. rewrite app_length, Hl. lia.
Qed.

Lemma boundary_valid bs k : valid_utf8 bs -> is_char_boundary bs k = true ->
  exists p q, bs = p ++ q /\ length p = k /\ valid_utf8 p /\ valid_utf8 q.
Proof.
  intros (cs & Hcs & ->) Hk. destruct (boundary_split Hcs k Hk) as (cs1 & cs2 & -> & Hl). apply Forall_app in Hcs. destruct Hcs as [H1 H2].
  exists (flat_map encode_utf8 cs1), (flat_map encode_utf8 cs2). split; [apply flat_map_app|]. split; [exact Hl|].
  split; [exists cs1 | exists cs2]; (split; [assumption | reflexivity]).
Qed.

Lemma boundary_app p q k : valid_utf8 q -> length p <= k -> is_char_boundary (p ++ q) k = is_char_boundary q (k - length p).
Proof.
  intros Hq Hk. destruct (Nat.eqb_spec k (length p)) as [->|Hne].
  - rewrite boundary_of_suffix by exact Hq. rewrite Nat.sub_diag. reflexivity.
  - unfold is_char_boundary. rewrite nth_error_app2, app_length by exact Hk.
    replace (k =? 0) with false by lia. replace (k - length p =? 0) with false by lia. cbn [orb].
    destruct (nth_error q (k - length p)); [reflexivity|]. destruct (Nat.eqb_spec (k - length p) (length q)), (Nat.eqb_spec k (length p + length q)); lia.
Qed.

Lemma C98_range_lemma : forall n w s x a b, StrReachable n w s -> st_as_str s = Done x ->
  (forall y, st_index_range s a b = Done y <->
     exists p q, x = p ++ y ++ q /\ length p = a /\ length (p ++ y) = b /\ valid_utf8 p /\ valid_utf8 y /\ valid_utf8 q) /\
  ((forall y, st_index_range s a b <> Done y) -> st_index_range s a b = Panics PIndex).
Proof.
  intros n w s x a b Hr Hx. destruct (C60_lemma _ _ _ Hr) as (x' & Hx' & _ & Hv & _). rewrite Hx in Hx'. injection Hx' as <-.
  unfold st_index_range. rewrite Hx. cbn [obind].
  destruct ((a <=? b) && is_char_boundary x a && is_char_boundary x b) eqn:E.
  - split; [|intros H; exfalso; eapply H; reflexivity].
    apply andb_true_iff in E. destruct E as [E Eb]. apply andb_true_iff in E. destruct E as [Hab Ea]. apply Nat.leb_le in Hab.
    destruct (boundary_valid a Hv Ea) as (p & r & -> & Hp & Hvp & Hvr).
    rewrite boundary_app in Eb by (assumption || lia). destruct (boundary_valid _ Hvr Eb) as (y0 & q & -> & Hy & Hvy & Hvq).
    assert (Hres : firstn (b - a) (skipn a (p ++ y0 ++ q)) = y0).
    { rewrite <- Hp, skipn_app, skipn_all, Nat.sub_diag, skipn_O. cbn [app]. rewrite firstn_app, firstn_all2 by lia.
      replace (b - length p - length y0) with 0 by lia. rewrite firstn_O. apply app_nil_r. }
    rewrite Hres. intros y. split.
    + intros H. injection H as <-. exists p, q. rewrite app_length. repeat split; try assumption. lia.
    + intros (p' & q' & H & Hp' & Hb & _). f_equal.
      assert (He : firstn a (p ++ y0 ++ q) = firstn a (p' ++ y ++ q')) by (rewrite H; reflexivity).
      rewrite <- Hp in He at 1. rewrite <- Hp' in He. rewrite !firstn_app, !firstn_all, !Nat.sub_diag, !firstn_O, !app_nil_r in He. subst p'.
      apply app_inv_head in H. rewrite app_length in Hb.
      assert (Hyl : length y = length y0) by lia.
      assert (He : firstn (length y0) (y0 ++ q) = firstn (length y) (y ++ q')) by (rewrite Hyl, H; reflexivity).
      rewrite !firstn_app, !firstn_all, !Nat.sub_diag, !firstn_O, !app_nil_r in He. exact He.
  - split; [|intros _; reflexivity]. intros y. split; [discriminate|].
    intros (p & q & -> & Hp & Hb & _ & Hvy & Hvq). exfalso. rewrite app_length in Hb.
    apply andb_false_iff in E. destruct E as [E|E]; [apply andb_false_iff in E; destruct E as [E|E]|].
    + lia.
    + rewrite <- Hp, boundary_of_suffix in E by (apply valid_app; assumption). discriminate.
    + rewrite app_assoc in E. replace b with (length (p ++ y)) in E by (rewrite app_length; lia). rewrite boundary_of_suffix in E by exact Hvq. discriminate.
Qed.

(* the characters *)
Lemma indices_char c off r : is_scalar c = true ->
  char_indices_from off (encode_utf8 c ++ r) = omap (cons (off, c)) (char_indices_from (len_utf8 c + off) r).
Proof.
  intros Hc. unfold is_scalar in Hc. unfold encode_utf8, len_utf8.
  destruct (Z.ltb_spec c 128) as [H1|H1]; [|destruct (Z.ltb_spec c 2048) as [H2|H2]; [|destruct (Z.ltb_spec c 65536) as [H3|H3]]]; cbn [app char_indices_from];
    rewrite !b2z_z2b.
  - rewrite Z.mod_small by lia. replace (c <? 128)%Z with true by lia. reflexivity.
  - set (f := (c / 64)%Z). set (t := (c mod 64)%Z).
    assert (Hcf : c = (f * 64 + t)%Z) by (subst f t; pose proof (Z.div_mod c 64); lia).
    assert (Ht : (0 <= t < 64)%Z) by (apply Z.mod_pos_bound; lia). assert (Hf : (2 <= f < 32)%Z) by lia. clearbody f t.
    rewrite !Z.mod_small by lia. replace (192 + f <? 128)%Z with false by lia. replace (192 + f <? 224)%Z with true by lia.
    replace ((192 + f) mod 32)%Z with f by (replace (192 + f)%Z with (f + 6 * 32)%Z by lia; rewrite Z.mod_add, Z.mod_small; lia).
    replace ((128 + t) mod 64)%Z with t by (replace (128 + t)%Z with (t + 2 * 64)%Z by lia; rewrite Z.mod_add, Z.mod_small; lia).
    rewrite Hcf. reflexivity.
  - set (f := (c / 4096)%Z). set (s := (c / 64 mod 64)%Z). set (t := (c mod 64)%Z).
    assert (Hcf : c = (f * 4096 + s * 64 + t)%Z).
    { subst f s t. pose proof (Z.div_mod c 64). pose proof (Z.div_mod (c / 64) 64). rewrite Z.div_div in * by lia. change (64 * 64)%Z with 4096%Z in *. lia. }
    assert (Ht : (0 <= t < 64)%Z) by (apply Z.mod_pos_bound; lia). assert (Hs : (0 <= s < 64)%Z) by (apply Z.mod_pos_bound; lia).
    assert (Hf : (0 <= f < 16)%Z) by lia. clearbody f s t.
    rewrite !Z.mod_small with (b := 256%Z) by lia. replace (224 + f <? 128)%Z with false by lia. replace (224 + f <? 224)%Z with false by lia.
    replace (224 + f <? 240)%Z with true by lia.
    replace ((224 + f) mod 32)%Z with f by (replace (224 + f)%Z with (f + 7 * 32)%Z by lia; rewrite Z.mod_add, Z.mod_small; lia).
    replace ((128 + t) mod 64)%Z with t by (replace (128 + t)%Z with (t + 2 * 64)%Z by lia; rewrite Z.mod_add, Z.mod_small; lia).
    replace ((128 + s) mod 64)%Z with s by (replace (128 + s)%Z with (s + 2 * 64)%Z by lia; rewrite Z.mod_add, Z.mod_small; lia).
    rewrite Hcf. reflexivity.
  - set (f := (c / 262144)%Z). set (s := (c / 4096 mod 64)%Z). set (t := (c / 64 mod 64)%Z). set (u := (c mod 64)%Z).
    assert (Hcf : c = (f * 262144 + s * 4096 + t * 64 + u)%Z).
    { subst f s t u. pose proof (Z.div_mod c 64). pose proof (Z.div_mod (c / 64) 64). pose proof (Z.div_mod (c / 4096) 64). rewrite Z.div_div in * by lia.
      change (64 * 64)%Z with 4096%Z in *. change (4096 * 64)%Z with 262144%Z in *. lia. }
    assert (Ht : (0 <= t < 64)%Z) by (apply Z.mod_pos_bound; lia). assert (Hs : (0 <= s < 64)%Z) by (apply Z.mod_pos_bound; lia).
    assert (Hu : (0 <= u < 64)%Z) by (apply Z.mod_pos_bound; lia).
    assert (Hf : (0 <= f < 5)%Z) by lia. clearbody f s t u.
    rewrite !Z.mod_small with (b := 256%Z) by lia. replace (240 + f <? 128)%Z with false by lia. replace (240 + f <? 224)%Z with false by lia.
    replace (240 + f <? 240)%Z with false by lia.
    replace ((240 + f) mod 8)%Z with f by (replace (240 + f)%Z with (f + 30 * 8)%Z by lia; rewrite Z.mod_add, Z.mod_small; lia).
    replace ((128 + t) mod 64)%Z with t by (replace (128 + t)%Z with (t + 2 * 64)%Z by lia; rewrite Z.mod_add, Z.mod_small; lia).
    replace ((128 + s) mod 64)%Z with s by (replace (128 + s)%Z with (s + 2 * 64)%Z by lia; rewrite Z.mod_add, Z.mod_small; lia).
    replace ((128 + u) mod 64)%Z with u by (replace (128 + u)%Z with (u + 2 * 64)%Z by lia; rewrite Z.mod_add, Z.mod_small; lia).
    rewrite Hcf. reflexivity.
Qed.

(* each character with the number of octets before it *)
Lemma indices_chars cs : Forall (fun c => is_scalar c = true) cs -> forall off, exists l,
  char_indices_from off (flat_map encode_utf8 cs) = Done l /\ map snd l = cs /\
  forall k i c, nth_error l k = Some (i, c) -> i = off + length (flat_map encode_utf8 (firstn k cs)).
Proof.
  induction 1 as [|c cs Hc Hcs IH]; intros off.
  - exists []. split; [reflexivity|]. split; [reflexivity|]. intros [|k]; discriminate.
  - cbn [flat_map]. rewrite indices_char by exact Hc. destruct (IH (len_utf8 c + off)) as (l & Hl & Hm & Hi). rewrite Hl. cbn [omap obind].
    exists ((off, c) :: l). split; [reflexivity|]. split; [cbn; congruence|]. intros [|k] i d H.
    + injection H as -> _. cbn. lia.
    + cbn [nth_error] in H. rewrite (Hi _ _ _ H). cbn [firstn flat_map]. rewrite app_length, len_encode_utf8. lia.
Qed.

Lemma C98_chars_lemma : forall n w s x, StrReachable n w s -> st_as_str s = Done x ->
  exists cs l, st_chars s = Done cs /\ st_char_indices s = Done l /\
    Forall (fun c => is_scalar c = true) cs /\ x = flat_map encode_utf8 cs /\
    map snd l = cs /\ (forall k i c, nth_error l k = Some (i, c) -> i = length (flat_map encode_utf8 (firstn k cs))).
Proof.
  intros n w s x Hr Hx. destruct (C60_lemma _ _ _ Hr) as (x' & Hx' & _ & (cs & Hcs & Hv) & _). rewrite Hx in Hx'. injection Hx' as <-.
  unfold st_chars, st_char_indices. rewrite Hx. cbn [obind]. destruct (indices_chars Hcs 0) as (l & Hl & Hm & Hi). subst x. rewrite Hl. cbn [omap obind].
  exists cs, l. rewrite Hm. repeat split; try assumption.
Qed.
