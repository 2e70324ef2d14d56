(* C60-C64, C71: the lemmas behind the theorems about SizedStr. *)
From Coq Require Import Lia.
From Verif Require Import Base BaseFacts Streams Utf8 Utf8Facts Types Encode Decode DecodeFacts Mem SizedSlice SizedIter SizedStr SpecContainers SizedSliceProofs ContainerProofs.

(* a SizedStr that holds the text [bs]; [w]: no octet of the buffer is uninitialised *)
Definition tshape (n : nat) (w : bool) (bs : list byte) (s : sstr) : Prop :=
  shape n bs s /\ valid_utf8 bs /\ (w = true -> Forall (fun c => c <> None) (ss_buf s)).

Lemma as_str_done n w bs s : tshape n w bs s -> st_as_str s = Done bs.
Proof.
  intros (Hs & Hv & _). unfold st_as_str, st_as_bytes. fold (ss_as_slice s). rewrite (shape_slice Hs). cbn [obind].
  apply from_utf8_valid in Hv. rewrite Hv. reflexivity.
Qed.

Lemma tshape_len n w bs s : tshape n w bs s -> st_length s = length bs /\ st_capacity s = n /\ length bs <= n.
Proof. intros (Hs & _). exact (shape_len Hs). Qed.

Lemma unchecked_shape n bs : length bs <= n -> valid_utf8 bs -> exists s, st_unchecked n bs = Done s /\ tshape n true bs s /\
  ss_buf s = map Some bs ++ repeat (Some x00) (n - length bs).
Proof.
  intros Hn Hv. unfold st_unchecked, mem_copy. rewrite repeat_length.
  replace (length bs <=? n) with true by (symmetry; apply Nat.leb_le; exact Hn). cbn [omap obind]. eexists. split; [reflexivity|].
  assert (Hk : skipn (length bs) (repeat (Some x00) n) = repeat (Some x00) (n - length bs)).
  { replace n with (length bs + (n - length bs)) at 1 by lia. rewrite repeat_app, skipn_app, skipn_all2 by (rewrite repeat_length; lia).
    rewrite repeat_length, Nat.sub_diag. reflexivity. }
  rewrite Hk. split; [|reflexivity]. split; [|split; [exact Hv|]].
  - exists (repeat (Some x00) (n - length bs)). rewrite repeat_length. split; [reflexivity | lia].
  - intros _. apply Forall_app. split.
    + apply Forall_forall. intros x Hx. apply in_map_iff in Hx. destruct Hx as (y & <- & _). discriminate.
    + apply Forall_forall. intros x Hx. apply repeat_spec in Hx. subst. discriminate.
Qed.

Lemma st_new_spec n bs : valid_utf8 bs ->
  (n < length bs -> st_new n bs = Done (inl (SmallBuffer (LengthError n (length bs))))) /\
  (length bs <= n -> exists s, st_new n bs = Done (inr s) /\ tshape n true bs s).
Proof.
  intros Hv. unfold st_new. split; intros Hn.
  - replace (n <? length bs) with true by (symmetry; apply Nat.ltb_lt; exact Hn). reflexivity.
  - replace (n <? length bs) with false by (symmetry; apply Nat.ltb_ge; exact Hn).
    destruct (unchecked_shape _ _ Hn Hv) as (s & Hs & Ht & _). rewrite Hs. exists s. split; [reflexivity | exact Ht].
Qed.

Lemma st_from_utf8_spec n bs :
  (n < length bs -> st_from_utf8 n bs = Done (inl (SmallBuffer (LengthError n (length bs))))) /\
  (length bs <= n -> valid_utf8 bs -> exists s, st_from_utf8 n bs = Done (inr s) /\ tshape n true bs s) /\
  (length bs <= n -> ~ valid_utf8 bs -> exists c k, st_from_utf8 n bs = Done (inl (BadUtf8 c k)) /\ nth_error bs k = Some c /\
     valid_utf8 (firstn k bs) /\ forall m, k < m <= length bs -> ~ valid_utf8 (firstn m bs)).
Proof.
  unfold st_from_utf8. split; [|split].
  - intros Hn. replace (n <? length bs) with true by (symmetry; apply Nat.ltb_lt; exact Hn). reflexivity.
  - intros Hn Hv. replace (n <? length bs) with false by (symmetry; apply Nat.ltb_ge; exact Hn).
    destruct (unchecked_shape _ _ Hn Hv) as (s & Hs & Ht & _). apply from_utf8_valid in Hv. rewrite Hv, Hs. exists s. split; [reflexivity | exact Ht].
  - intros Hn Hv. replace (n <? length bs) with false by (symmetry; apply Nat.ltb_ge; exact Hn).
    destruct (from_utf8 bs) as [k|] eqn:E; [|exfalso; apply Hv; apply from_utf8_valid; exact E].
    destruct (from_utf8_in_bounds _ E) as (c & Hc). rewrite Hc. exists c, k. split; [reflexivity|]. split; [exact Hc|].
    destruct (from_utf8_index _ E) as (_ & H1 & H2). split; [exact H1 | exact H2].
Qed.

(* the loop over characters *)
Lemma chars_loop_spec {St} (next : iterator St Z) fuel : forall n buf len st cs0,
  length buf = n -> len <= n -> firstn len buf = flat_map encode_utf8 cs0 -> n < len + fuel ->
  exists buf' cs st', chars_loop next fuel n buf len st = Done (buf', length (flat_map encode_utf8 (cs0 ++ cs)), st') /\
    length buf' = n /\ length (flat_map encode_utf8 (cs0 ++ cs)) <= n /\
    firstn (length (flat_map encode_utf8 (cs0 ++ cs))) buf' = flat_map encode_utf8 (cs0 ++ cs) /\
    exists st1, Pulls next st cs st1 /\
      (next st1 = (None, st') \/ exists c, next st1 = (Some c, st') /\ n < length (flat_map encode_utf8 (cs0 ++ cs ++ [c]))).
Proof.
  induction fuel as [|fuel IH]; intros n buf len st cs0 Hb Hl Hf Hfuel; [lia|].
  assert (Hlen : len = length (flat_map encode_utf8 cs0)).
  { rewrite <- Hf, firstn_length. lia. }
  cbn [chars_loop]. destruct (next st) as [[c|] st1] eqn:E.
  - destruct (Nat.ltb_spec (n - len) (len_utf8 c)) as [Hs|Hs].
    + exists buf, [], st1. rewrite app_nil_r, <- Hlen. split; [reflexivity|]. split; [exact Hb|]. split; [exact Hl|]. split; [exact Hf|].
      exists st. split; [constructor|]. right. exists c. split; [exact E|].
      rewrite app_nil_l, flat_map_app, app_length, <- Hlen. cbn [flat_map]. rewrite app_nil_r, len_encode_utf8. lia.
    + replace (length buf <? len + len_utf8 c) with false by (symmetry; apply Nat.ltb_ge; lia).
      set (buf1 := firstn len buf ++ encode_utf8 c ++ skipn (len + len_utf8 c) buf).
      assert (Hb1 : length buf1 = n).
      { subst buf1. rewrite !app_length, firstn_length, skipn_length, len_encode_utf8. lia. }
      assert (Hf1 : firstn (len + len_utf8 c) buf1 = flat_map encode_utf8 (cs0 ++ [c])).
      { subst buf1. rewrite Hf, app_assoc, flat_map_app. cbn [flat_map]. rewrite app_nil_r.
        rewrite firstn_app. replace (len + len_utf8 c - length (flat_map encode_utf8 cs0 ++ encode_utf8 c)) with 0
          by (rewrite app_length, len_encode_utf8; lia).
        rewrite firstn_O, app_nil_r. apply firstn_all2. rewrite app_length, len_encode_utf8. lia. }
      pose proof (encode_utf8_nonempty c) as Hne. rewrite len_encode_utf8 in Hne.
      destruct (IH n buf1 (len + len_utf8 c) st1 (cs0 ++ [c]) Hb1 ltac:(lia) Hf1 ltac:(lia)) as (buf' & cs & st' & Hrun & H1 & H2 & H3 & st2 & Hp & Hend).
      exists buf', (c :: cs), st'. rewrite <- app_assoc in *. cbn [app] in *. split; [exact Hrun|]. split; [exact H1|]. split; [exact H2|].
      split; [exact H3|]. exists st2. split; [econstructor; eassumption|].
      destruct Hend as [Hend | (d & Hd & Hn)]; [left; exact Hend | right]. exists d. split; [exact Hd|]. rewrite <- app_assoc in Hn. exact Hn.
  - exists buf, [], st1. rewrite app_nil_r, <- Hlen. split; [reflexivity|]. split; [exact Hb|]. split; [exact Hl|]. split; [exact Hf|].
    exists st. split; [constructor|]. left. exact E.
Qed.

Lemma C62_loop {St} (next : iterator St Z) n st : exists cs s st',
  st_from_iter next n st = Done (s, st') /\ shape n (flat_map encode_utf8 cs) s /\ Forall (fun c => c <> None) (ss_buf s) /\
  exists st1, Pulls next st cs st1 /\
    (next st1 = (None, st') \/ exists c, next st1 = (Some c, st') /\ n < length (flat_map encode_utf8 (cs ++ [c]))).
Proof.
  destruct (@chars_loop_spec St next (S n) n (repeat x00 n) 0 st []) as (buf & cs & st' & H & H1 & H2 & H3 & Hp);
    [apply repeat_length | lia | reflexivity | lia |]. cbn [app] in *.
  exists cs, (SSlice (map Some buf) (length (flat_map encode_utf8 cs))), st'. unfold st_from_iter. rewrite H. cbn [omap obind].
  split; [reflexivity|]. split; [|split; [|exact Hp]].
  - exists (map Some (skipn (length (flat_map encode_utf8 cs)) buf)). rewrite map_length, skipn_length. split; [|lia]. f_equal.
    rewrite <- H3 at 1. rewrite <- map_app, firstn_skipn. reflexivity.
  - cbn [ss_buf]. apply Forall_forall. intros x Hx. apply in_map_iff in Hx. destruct Hx as (y & <- & _). discriminate.
Qed.

Lemma pulls_scalar {St} (next : iterator St Z) : (forall a c b, next a = (Some c, b) -> is_scalar c = true) ->
  forall st cs st', Pulls next st cs st' -> valid_utf8 (flat_map encode_utf8 cs).
Proof.
  intros Hn st cs st' Hp. exists cs. split; [|reflexivity]. induction Hp as [|st c st1 cs st' H Hp IH]; constructor; [|exact IH].
  eapply Hn. exact H.
Qed.

Lemma str_reachable_shape n w s : StrReachable n w s -> exists bs, tshape n w bs s.
Proof.
  induction 1 as [bs s Hv H | c s Hc H | bs s H | St next st0 st1 s Hn H | i i' s H | | w s s' _ IH H | w s bs s' _ IH Hv Hl H].
  - destruct (st_new_spec n bs Hv) as [H1 H2]. destruct (Nat.leb_spec (length bs) n) as [Hle|Hle].
    + destruct (H2 Hle) as (s2 & Hs2 & Ht). rewrite H in Hs2. injection Hs2 as ->. eauto.
    + rewrite (H1 Hle) in H. discriminate.
  - assert (Hv : valid_utf8 (encode_utf8 c)) by (rewrite <- (app_nil_r (encode_utf8 c)); apply valid_cons; [exact Hc | apply valid_nil]).
    unfold st_from_char in H. destruct (st_new_spec n _ Hv) as [H1 H2]. destruct (Nat.leb_spec (length (encode_utf8 c)) n) as [Hle|Hle].
    + destruct (H2 Hle) as (s2 & Hs2 & Ht). rewrite H in Hs2. injection Hs2 as ->. eauto.
    + rewrite (H1 Hle) in H. discriminate.
  - destruct (st_from_utf8_spec n bs) as (H1 & H2 & _). destruct (Nat.leb_spec (length bs) n) as [Hle|Hle]; [|rewrite (H1 Hle) in H; discriminate].
    destruct (from_utf8 bs) as [k|] eqn:E.
    + unfold st_from_utf8 in H. rewrite E in H. destruct (n <? length bs); [discriminate|]. destruct (nth_error bs k); discriminate.
    + apply from_utf8_valid in E. destruct (H2 Hle E) as (s2 & Hs2 & Ht). rewrite H in Hs2. injection Hs2 as ->. eauto.
  - destruct (@C62_loop St next n st0) as (cs & s2 & st2 & H2 & Hs & Hi & st3 & Hp & _). rewrite H in H2. injection H2 as -> ->.
    exists (flat_map encode_utf8 cs). split; [exact Hs|]. split; [eapply pulls_scalar; eassumption | intros _; exact Hi].
  - unfold st_decode, dbind in H. destruct (dec_usize i) as [i1 [len|e|p]]; try discriminate.
    destruct (dread (Z.to_nat len) i1) as [i2 [bs|e|p]]; try discriminate.
    destruct (st_from_utf8 n bs) as [[[c k|e]|s2]| |] eqn:E; try discriminate. injection H as <- <-.
    destruct (st_from_utf8_spec n bs) as (H1 & H2 & _). destruct (Nat.leb_spec (length bs) n) as [Hle|Hle]; [|rewrite (H1 Hle) in E; discriminate].
    destruct (from_utf8 bs) as [k|] eqn:E2.
    + unfold st_from_utf8 in E. rewrite E2 in E. destruct (n <? length bs); [discriminate|]. destruct (nth_error bs k); discriminate.
    + apply from_utf8_valid in E2. destruct (H2 Hle E2) as (s3 & Hs3 & Ht). rewrite E in Hs3. injection Hs3 as ->. eauto.
  - exists []. split; [|split; [apply valid_nil | discriminate]]. exists (uninit byte n). split; [reflexivity | apply uninit_length].
  - destruct IH as (bs & Hs & Hv & _). destruct (@clone_inv _ _ _ _ _ _ Hs H) as (copies & Hc & Hs').
    assert (copies = bs). { clear - Hc. induction Hc; [reflexivity|]. congruence. } subst copies.
    exists bs. split; [exact Hs'|]. split; [exact Hv | discriminate].
  - destruct IH as (old & Hs & _ & Hi). destruct (shape_len Hs) as (Hlen & Hcap & Hle). unfold st_length in Hl. rewrite Hlen in Hl.
    unfold st_change, mem_copy in H. unfold ss_capacity in Hcap. rewrite Hcap in H.
    replace (length bs <=? n) with true in H by (symmetry; apply Nat.leb_le; lia). cbn [omap obind] in H. injection H as <-.
    exists bs. split; [|split; [exact Hv|]].
    + exists (skipn (length bs) (ss_buf s)). unfold ss_length in Hlen. rewrite skipn_length, Hcap. split; [f_equal; congruence | lia].
    + intros Hw. cbn [ss_buf]. apply Forall_app. split.
      * apply Forall_forall. intros x Hx. apply in_map_iff in Hx. destruct Hx as (y & <- & _). discriminate.
      * specialize (Hi Hw). rewrite <- (firstn_skipn (length bs) (ss_buf s)) in Hi. apply Forall_app in Hi. apply Hi.
Qed.

Lemma C60_lemma : forall n w s, StrReachable n w s ->
  exists bs, st_as_str s = Done bs /\ st_as_bytes s = Done bs /\ valid_utf8 bs /\ length bs <= n /\ st_length s = length bs /\ st_capacity s = n.
Proof.
  intros n w s Hr. destruct (str_reachable_shape _ _ _ Hr) as (bs & Ht). exists bs. split; [exact (as_str_done _ _ _ _ Ht)|].
  destruct (tshape_len _ _ _ _ Ht) as (H1 & H2 & H3). destruct Ht as (Hs & Hv & _). split; [exact (shape_slice Hs) | auto].
Qed.

Lemma C61_new_lemma : forall n s, valid_utf8 s ->
  (length s <= n -> exists st, st_new n s = Done (inr st) /\ st_as_str st = Done s /\ st_capacity st = n) /\
  (n < length s -> st_new n s = Done (inl (SmallBuffer (LengthError n (length s))))).
Proof.
  intros n s Hv. destruct (st_new_spec n s Hv) as [H1 H2]. split; [|exact H1].
  intros Hn. destruct (H2 Hn) as (st & Hst & Ht). exists st. split; [exact Hst|]. split; [exact (as_str_done _ _ _ _ Ht) | apply (tshape_len _ _ _ _ Ht)].
Qed.

Lemma C61_char_lemma : forall n c, is_scalar c = true ->
  (len_utf8 c <= n -> exists st, st_from_char n c = Done (inr st) /\ st_as_str st = Done (encode_utf8 c)) /\
  (n < len_utf8 c -> st_from_char n c = Done (inl (SmallBuffer (LengthError n (len_utf8 c))))).
Proof.
  intros n c Hc.
  assert (Hv : valid_utf8 (encode_utf8 c)) by (rewrite <- (app_nil_r (encode_utf8 c)); apply valid_cons; [exact Hc | apply valid_nil]).
  rewrite <- len_encode_utf8. destruct (C61_new_lemma n _ Hv) as [H1 H2]. split; [|exact H2].
  intros Hn. destruct (H1 Hn) as (st & Hst & Hs & _). eauto.
Qed.

Lemma C61_from_utf8_lemma : forall n bs,
  (n < length bs -> st_from_utf8 n bs = Done (inl (SmallBuffer (LengthError n (length bs))))) /\
  (length bs <= n -> valid_utf8 bs -> exists st, st_from_utf8 n bs = Done (inr st) /\ st_as_str st = Done bs /\ st_capacity st = n) /\
  (length bs <= n -> ~ valid_utf8 bs -> exists c k, st_from_utf8 n bs = Done (inl (BadUtf8 c k)) /\ nth_error bs k = Some c /\
     valid_utf8 (firstn k bs) /\ forall m, k < m <= length bs -> ~ valid_utf8 (firstn m bs)).
Proof.
  intros n bs. destruct (st_from_utf8_spec n bs) as (H1 & H2 & H3). split; [exact H1|]. split; [|exact H3].
  intros Hn Hv. destruct (H2 Hn Hv) as (st & Hst & Ht). exists st. split; [exact Hst|]. split; [exact (as_str_done _ _ _ _ Ht) | apply (tshape_len _ _ _ _ Ht)].
Qed.

Lemma C62_lemma : forall St (next : iterator St Z) n st, (forall a c b, next a = (Some c, b) -> is_scalar c = true) ->
  exists s st' cs st1, st_from_iter next n st = Done (s, st') /\ st_as_str s = Done (flat_map encode_utf8 cs) /\
    length (flat_map encode_utf8 cs) <= n /\ Pulls next st cs st1 /\
    (next st1 = (None, st') \/ exists c, next st1 = (Some c, st') /\ n < length (flat_map encode_utf8 (cs ++ [c]))).
Proof.
  intros St next n st Hn. destruct (@C62_loop St next n st) as (cs & s & st' & H & Hs & Hi & st1 & Hp & He).
  exists s, st', cs, st1. split; [exact H|].
  assert (Ht : tshape n true (flat_map encode_utf8 cs) s) by (split; [exact Hs|]; split; [eapply pulls_scalar; eassumption | intros _; exact Hi]).
  split; [exact (as_str_done _ _ _ _ Ht)|]. split; [apply (tshape_len _ _ _ _ Ht)|]. split; [exact Hp | exact He].
Qed.

(* C63: the container agrees with the decoder of values *)
Lemma C63_decode_lemma : forall n i i' r, st_decode n i = (i', r) ->
  match r with
  | Ok o => exists s bs, o = Done s /\ st_as_str s = Done bs /\ decode (TSizedStr n) i = (i', Ok (VStr bs))
  | Err e => decode (TSizedStr n) i = (i', Err e)
  | Panic p => decode (TSizedStr n) i = (i', Panic p)
  end.
Proof.
  intros n i i' r H. cbn [decode]. unfold st_decode, dec_sized_str, dbind, dmap in *.
  destruct (dec_usize i) as [i1 [len|e|p]]; [|injection H as <- <-; reflexivity|injection H as <- <-; reflexivity].
  unfold dbind. destruct (dread (Z.to_nat len) i1) as [i2 [bs|e|p]]; [|injection H as <- <-; reflexivity|injection H as <- <-; reflexivity].
  unfold dlift, sized_from_utf8, check_utf8, st_from_utf8 in *. destruct (Nat.ltb_spec n (length bs)) as [Hl|Hl].
  - injection H as <- <-. reflexivity.
  - destruct (from_utf8 bs) as [k|] eqn:E.
    + destruct (nth_error bs k); injection H as <- <-; reflexivity.
    + apply from_utf8_valid in E. destruct (unchecked_shape _ _ Hl E) as (s & Hs & Ht & _). rewrite Hs in H. cbn in H. injection H as <- <-.
      exists s, bs. split; [reflexivity|]. split; [exact (as_str_done _ _ _ _ Ht) | reflexivity].
Qed.

(* C64 *)
Lemma mem_slice_init buf : Forall (fun c : option byte => c <> None) buf -> exists bs, buf = map Some bs.
Proof.
  induction 1 as [|[b|] buf Hb _ IH]; [exists []; reflexivity | | congruence].
  destruct IH as (bs & ->). exists (b :: bs). reflexivity.
Qed.

Lemma C64_bytes_lemma : forall n w s x, StrReachable n w s -> st_as_str s = Done x ->
  ss_as_slice (st_into_bytes s) = Done x /\ ss_length (st_into_bytes s) = length x /\ ss_capacity (st_into_bytes s) = n.
Proof.
  intros n w s x Hr Hx. destruct (str_reachable_shape _ _ _ Hr) as (bs' & Ht). rewrite (as_str_done _ _ _ _ Ht) in Hx. injection Hx as ->.
  destruct Ht as (Hs & _ & _). unfold st_into_bytes. destruct (shape_len Hs) as (Hl & Hc & _). split; [|split; [exact Hl|exact Hc]].
  apply (shape_slice Hs).
Qed.
Lemma C64_raw_lemma : forall n s bs, StrReachable n true s -> st_as_str s = Done bs ->
  exists buf, st_into_raw_parts s = Done (buf, length bs) /\ length buf = n /\ firstn (length bs) buf = bs.
Proof.
  intros n s bs Hr Hb. destruct (str_reachable_shape _ _ _ Hr) as (bs' & Ht). rewrite (as_str_done _ _ _ _ Ht) in Hb. injection Hb as ->.
  destruct Ht as (Hs & _ & Hi). specialize (Hi eq_refl). destruct (mem_slice_init _ Hi) as (buf & Hbuf).
  destruct (shape_len Hs) as (Hl & Hc & _). unfold ss_length in Hl. unfold ss_capacity in Hc.
  exists buf. unfold st_into_raw_parts. rewrite Hl, Hbuf. rewrite map_length. split.
  - pose proof (@mem_slice_mid byte buf [] [] 0 eq_refl) as H. cbn [app] in H. rewrite app_nil_r in H. rewrite H. reflexivity.
  - split; [rewrite <- Hc, Hbuf, map_length; reflexivity|]. destruct Hs as (rest & -> & _). cbn [ss_buf] in Hbuf.
    apply (f_equal (firstn (length bs))) in Hbuf. rewrite <- (map_length Some bs) in Hbuf at 1.
    rewrite firstn_app, firstn_all, Nat.sub_diag, firstn_O, app_nil_r in Hbuf. rewrite firstn_map in Hbuf.
    symmetry. clear - Hbuf. revert Hbuf. generalize (firstn (length bs) buf). induction bs as [|b bs IH]; intros [|c l] H; cbn in H; try discriminate; [reflexivity|].
    injection H as -> H. f_equal. apply IH. exact H.
Qed.

Lemma C64_string_lemma : forall n w s bs, StrReachable n w s -> st_as_str s = Done bs -> bs <> [] ->
  st_into_boxed_str true s = Done bs /\ st_into_string true s = Done (bs, length bs).
Proof.
  intros n w s bs Hr Hb Hne. destruct (str_reachable_shape _ _ _ Hr) as (bs' & Ht). rewrite (as_str_done _ _ _ _ Ht) in Hb. injection Hb as ->.
  destruct Ht as (Hs & Hv & _). destruct (shape_len Hs) as (Hl & _ & _). unfold ss_length in Hl.
  assert (H : st_into_boxed_str true s = Done bs).
  { unfold st_into_boxed_str, ss_into_boxed_slice. rewrite Hl. replace ((1 * N.of_nat (length bs) =? 0)%N) with false.
    - rewrite <- Hl. fold (ss_as_slice s). rewrite (shape_slice Hs). cbn [obind]. apply from_utf8_valid in Hv. rewrite Hv. reflexivity.
    - symmetry. apply N.eqb_neq. destruct bs; [congruence|]. cbn [length]. lia. }
  split; [exact H|]. unfold st_into_string. rewrite H. reflexivity.
Qed.

Lemma C64_refutation :
  (* an uninitialised octet *)
  (forall n, 0 < n -> StrReachable n false (st_default n) /\ st_into_raw_parts (st_default n) = Undefined UUninit) /\
  (exists s s', StrReachable 2 true s /\ st_clone s = Done s' /\ st_as_str s = Done [x61] /\ st_into_raw_parts s = Done ([x61; x00], 1) /\
     StrReachable 2 false s' /\ st_as_str s' = Done [x61] /\ st_into_raw_parts s' = Undefined UUninit) /\
  (* another capacity *)
  (exists s, StrReachable 2 true s /\ st_into_string true s = Done ([x61], 1)) /\
  (* an allocation of size zero *)
  (forall n, exists s, StrReachable n true s /\ st_as_str s = Done [] /\ st_into_string true s = Undefined UZeroAlloc).
Proof.
  assert (Ha : valid_utf8 [x61]) by (apply from_utf8_valid; reflexivity).
  assert (R : StrReachable 2 true (SSlice [Some x61; Some x00] 1)) by (apply (@SR_new 2 [x61]); [exact Ha | reflexivity]).
  split; [|split; [|split]].
  - intros n Hn. split; [constructor|]. destruct n as [|n]; [lia|]. reflexivity.
  - exists (SSlice [Some x61; Some x00] 1), (SSlice [Some x61; None] 1). split; [exact R|]. split; [reflexivity|]. split; [reflexivity|].
    split; [reflexivity|]. split; [eapply SR_clone; [exact R | reflexivity]|]. split; reflexivity.
  - exists (SSlice [Some x61; Some x00] 1). split; [exact R | reflexivity].
  - intros n. destruct (st_new_spec n [] valid_nil) as [_ H]. destruct (H ltac:(cbn; lia)) as (s & Hs & Ht). exists s.
    split; [apply (@SR_new n []); [apply valid_nil | exact Hs]|]. split; [exact (as_str_done _ _ _ _ Ht)|].
    destruct (tshape_len _ _ _ _ Ht) as (Hl & _). unfold st_length, ss_length in Hl. unfold st_into_string, st_into_boxed_str, ss_into_boxed_slice.
    rewrite Hl. reflexivity.
Qed.

(* C71 *)
Lemma byte_eqb_spec a b : byte_eqb a b = true <-> a = b.
Proof. unfold byte_eqb. rewrite Z.eqb_eq. split; [|congruence]. intros H. rewrite <- (z2b_b2z a), H. apply z2b_b2z. Qed.

Lemma byte_cmp_total : TotalOrder byte_cmp.
Proof.
  unfold byte_cmp. split; [|split].
  - intros a b. rewrite Z.compare_eq_iff. rewrite <- byte_eqb_spec. unfold byte_eqb. rewrite Z.eqb_eq. reflexivity.
  - intros a b. apply Z.compare_antisym.
  - intros a b c. rewrite !Z.compare_lt_iff. apply Z.lt_trans.
Qed.

Lemma C71_eq_lemma : forall n m w w' s s' x y, StrReachable n w s -> StrReachable m w' s' -> st_as_str s = Done x -> st_as_str s' = Done y ->
  exists b, st_eq s s' = Done b /\ st_eq_str s y = Done b /\ (b = true <-> x = y).
Proof.
  intros n m w w' s s' x y _ _ Hx Hy. unfold st_eq, st_eq_str. rewrite Hx, Hy. cbn. eexists. split; [reflexivity|]. split; [reflexivity|].
  clear. rewrite slice_eq_spec, <- Forall2_eq. split; intros H; (induction H; [constructor | constructor; [apply byte_eqb_spec; assumption | assumption]]).
Qed.

Lemma forall2_same (p q : list byte) : Forall2 (fun a b => byte_cmp a b = Eq) p q <-> p = q.
Proof. rewrite <- Forall2_eq. split; intros H; (induction H; [constructor | constructor; [apply (proj1 byte_cmp_total); assumption | assumption]]). Qed.

Lemma C71_cmp_lemma : forall n m w w' s s' x y, StrReachable n w s -> StrReachable m w' s' -> st_as_str s = Done x -> st_as_str s' = Done y ->
  exists c, st_cmp s s' = Done c /\ st_cmp_str s y = Done c /\
    (c = Eq <-> x = y) /\
    (c = Lt <-> LexLess eq (fun a b => (b2z a < b2z b)%Z) x y) /\
    (c = Gt <-> LexLess eq (fun a b => (b2z a < b2z b)%Z) y x).
Proof.
  intros n m w w' s s' x y _ _ Hx Hy. unfold st_cmp, st_cmp_str. rewrite Hx, Hy. cbn. eexists. split; [reflexivity|]. split; [reflexivity|].
  assert (HL : forall x y, LexLess (fun a b => byte_cmp a b = Eq) (fun a b => byte_cmp a b = Lt) x y <-> LexLess eq (fun a b => (b2z a < b2z b)%Z) x y).
  { clear. intros x y. unfold LexLess, byte_cmp.
    split; intros (p & q & Hpq & Hc); exists p, q; (split; [first [apply forall2_same in Hpq; apply Forall2_eq; exact Hpq | apply Forall2_eq in Hpq; apply forall2_same; exact Hpq]|]);
      (destruct Hc as [Hc | (a & x' & b & y' & H1 & H2 & H3)]; [left; exact Hc | right; exists a, x', b, y'; split; [exact H1|]; split; [exact H2|]; apply Z.compare_lt_iff; exact H3]). }
  split; [rewrite slice_cmp_eq; apply forall2_same|].
  rewrite <- !HL, <- !slice_cmp_lt. split; [reflexivity|].
  rewrite (slice_cmp_opp _ (proj1 (proj2 byte_cmp_total)) x y). destruct (slice_cmp byte_cmp x y); cbn [CompOpp]; split; congruence.
Qed.

Lemma C71_hash_lemma : forall n w s x, StrReachable n w s -> st_as_str s = Done x -> st_hash s = Done (str_hash x).
Proof. intros n w s x _ Hx. unfold st_hash. rewrite Hx. reflexivity. Qed.

