(* What containers do to streams, whatever the user's implementations do to them; and that the model of containers of user types is the model of
   containers. *)
From Coq Require Import Lia ZifyBool ZifyNat ZifyN.
From Verif Require Import Base BaseFacts Streams StreamFacts Utf8 Types TypesFacts Traits Encode Decode Slot Spec SpecCalls
  EncodeFacts WireFacts EncodeCases DecodeFacts DecodeLocal EncodeProofs SlotProofs User SpecUser UserProofs.
Set Implicit Arguments.

(* ---- a preorder of outputs that holds between before and after *)
Section Writing.
  Variable R : output -> output -> Prop.
  Hypothesis Rrefl : forall o, R o o.
  Hypothesis Rtrans : forall a b c, R a b -> R b c -> R a c.
  Hypothesis Rwrite : forall o data, R o (fst (output_write o data)).

  Definition Keeps (m : E) : Prop := forall o, R o (fst (m o)).

  Lemma keeps_replay cs r : forall o, R o (fst (replay cs r o)).
  Proof.
    induction cs as [|c cs IH]; intros o; cbn [replay]; [apply Rrefl|].
    pose proof (Rwrite o c) as H. destruct (output_write o c) as [o' [[]|e|p]]; cbn [fst] in *; try exact H. eapply Rtrans; [exact H | apply IH].
  Qed.
  Lemma keeps_trace m : HasTrace m -> Keeps m.
  Proof. intros (cs & r & Ht) o. rewrite (Ht o). apply keeps_replay. Qed.
  Lemma keeps_seq a b : Keeps a -> Keeps b -> Keeps (eseq a b).
  Proof.
    intros Ha Hb o. unfold eseq. specialize (Ha o). destruct (a o) as [o' [[]|e|p]]; cbn [fst] in *; try exact Ha.
    eapply Rtrans; [exact Ha | apply Hb].
  Qed.
  Lemma keeps_map_err f a : Keeps a -> Keeps (emap_err f a).
  Proof. intros Ha o. unfold emap_err. specialize (Ha o). destruct (a o) as [o' [[]|e|p]]; exact Ha. Qed.
  Lemma keeps_items {A} (f : A -> E) wrap l : (forall x, Keeps (f x)) -> forall i, Keeps (enc_items f wrap i l).
  Proof.
    intros Hf. induction l as [|x l IH]; intros i; cbn [enc_items]; [apply keeps_trace, HT_ok|].
    apply keeps_seq; [apply keeps_map_err, Hf | apply IH].
  Qed.
  Lemma keeps_slice {A} (f : A -> E) wrap l : (forall x, Keeps (f x)) -> Keeps (enc_slice f wrap l).
  Proof. intros Hf. apply keeps_seq; [apply keeps_map_err, keeps_trace, (HT_int Usize) | apply keeps_items, Hf]. Qed.
  Lemma keeps_fields fs conv : Forall (fun f => forall v, Keeps (f v)) fs -> forall vs, Keeps (enc_fields fs conv vs).
  Proof.
    induction 1 as [|f fs Hf _ IH]; intros [|v vs]; cbn [enc_fields]; try (apply keeps_trace, HT_ok); try (apply keeps_trace, HT_panic).
    apply keeps_seq; [apply keeps_map_err, Hf | apply IH].
  Qed.

  Lemma keeps_entries fk fv kvs : (forall x, Keeps (fk x)) -> (forall x, Keeps (fv x)) -> Keeps (enc_entries fk fv kvs).
  Proof.
    intros Hk Hv. induction kvs as [|[k v] kvs IH]; cbn [enc_entries]; [apply keeps_trace, HT_ok|].
    apply keeps_seq; [apply Hk | apply keeps_seq; [apply Hv | exact IH]].
  Qed.
  Lemma keeps_keys fk ks : (forall x, Keeps (fk x)) -> Keeps (enc_keys fk ks).
  Proof.
    intros Hk. induction ks as [|k ks IH]; cbn [enc_keys]; [apply keeps_trace, HT_ok|]. apply keeps_seq; [apply Hk | exact IH].
  Qed.

  Variable us : nat -> impl.
  Hypothesis Hus : forall k v, Keeps (u_encode (us k) v).

  Lemma keeps_uencode ch t : forall v, Keeps (uencode ch us t v).
  Proof.
    induction t using uty_ind_strong; intros v; cbn [uencode]; [apply Hus | apply keeps_trace, encode_has_trace | ..];
      destruct v; try (apply keeps_trace, HT_panic);
      try (apply keeps_trace, HT_num); auto using keeps_seq, keeps_map_err, keeps_items, keeps_slice, keeps_entries, keeps_keys.
    all: try (apply keeps_seq; [apply keeps_trace, HT_num | auto using keeps_map_err]).
    all: try (apply keeps_fields, forall_map; assumption).
    - unfold enc_refcell. destruct mut_borrowed; [apply keeps_trace, HT_err | apply keeps_map_err, IHt].
    - destruct (discriminants _) as [ds|]; [|apply keeps_trace, HT_panic]. destruct (nth_error ds i) as [d|]; [|apply keeps_trace, HT_panic].
      destruct (nth_error (map _ vs) i) as [gs|] eqn:Eg; [|apply keeps_trace, HT_panic].
      rewrite nth_error_map in Eg. destruct (nth_error vs i) as [[e ts]|] eqn:Ev; [|discriminate]. cbn [option_map snd] in Eg. injection Eg as <-.
      apply keeps_seq; [apply keeps_map_err, keeps_trace, HT_int|]. apply keeps_fields, forall_map.
      rewrite Forall_forall in H. apply (H _ (nth_error_In _ _ Ev)).
  Qed.
End Writing.

(* ---- the same for inputs *)
Section Reading.
  Variable R : input -> input -> Prop.
  Hypothesis Rrefl : forall o, R o o.
  Hypothesis Rtrans : forall a b c, R a b -> R b c -> R a c.
  Hypothesis Rread : forall i n, R i (fst (input_read i n)).

  Definition KeepsD {A} (m : D A) : Prop := forall i, R i (fst (m i)).

  Lemma kd_ok {A} (a : A) : KeepsD (dok a).
  Proof. intros i. apply Rrefl. Qed.
  Lemma kd_lift {A} (r : res derr A) : KeepsD (dlift r).
  Proof. intros i. apply Rrefl. Qed.
  Lemma kd_error {A} e : KeepsD (@derror A e).
  Proof. intros i. apply Rrefl. Qed.
  Lemma kd_panic {A} e : KeepsD (@dpanic A e).
  Proof. intros i. apply Rrefl. Qed.
  Lemma kd_bind {A B} (m : D A) (k : A -> D B) : KeepsD m -> (forall a, KeepsD (k a)) -> KeepsD (dbind m k).
  Proof.
    intros Hm Hk i. unfold dbind. specialize (Hm i). destruct (m i) as [i' [a|e|p]]; cbn [fst] in *; try exact Hm.
    eapply Rtrans; [exact Hm | apply Hk].
  Qed.
  Lemma kd_read n : KeepsD (dread n).
  Proof. intros i. unfold dread. pose proof (Rread i n) as H. destruct (input_read i n) as [i' [a|e|p]]; exact H. Qed.
  Lemma kd_read_into n : KeepsD (dread_into n).
  Proof. intros i. rewrite dread_into_read. apply kd_read. Qed.
  Lemma kd_map {A B} (f : A -> B) m : KeepsD m -> KeepsD (dmap f m).
  Proof. intros H. apply kd_bind; [exact H | intros a; apply kd_ok]. Qed.
  Lemma kd_map_err {A} f (m : D A) : KeepsD m -> KeepsD (dmap_err f m).
  Proof. intros H i. unfold dmap_err. specialize (H i). destruct (m i) as [i' [a|e|p]]; exact H. Qed.
  Lemma kd_unsigned w : KeepsD (dec_unsigned w).
  Proof. apply kd_map, kd_read_into. Qed.
  Lemma kd_signed w : KeepsD (dec_signed w).
  Proof. apply kd_map, kd_read_into. Qed.
  Lemma kd_int i : KeepsD (dec_int i).
  Proof. destruct i; cbn [dec_int isigned]; first [apply kd_unsigned | apply kd_signed]. Qed.
  Lemma kd_items {A} (f : D A) n : KeepsD f -> forall i, KeepsD (dec_items f n i).
  Proof.
    intros Hf. induction n as [|n IH]; intros i; cbn [dec_items]; [apply kd_ok|].
    apply kd_bind; [apply kd_map_err, Hf | intros x; apply kd_map, IH].
  Qed.
  Lemma kd_fields conv fs : Forall KeepsD fs -> KeepsD (dec_fields conv fs).
  Proof.
    induction 1 as [|f fs Hf _ IH]; cbn [dec_fields]; [apply kd_ok|].
    apply kd_bind; [apply kd_map_err, Hf | intros x; apply kd_map, IH].
  Qed.
  Lemma kd_entries fk fv n : KeepsD fk -> KeepsD fv -> forall i acc, KeepsD (dec_entries fk fv n i acc).
  Proof.
    intros Hk Hv. induction n as [|n IH]; intros i acc; cbn [dec_entries]; [apply kd_ok|].
    apply kd_bind; [apply kd_map_err, Hk | intros x; apply kd_bind; [apply kd_map_err, Hv | intros y; apply IH]].
  Qed.
  Lemma kd_keys fk n : KeepsD fk -> forall i acc, KeepsD (dec_keys fk n i acc).
  Proof.
    intros Hk. induction n as [|n IH]; intros i acc; cbn [dec_keys]; [apply kd_ok|].
    apply kd_bind; [apply kd_map_err, Hk | intros x; apply IH].
  Qed.
  Lemma kd_entries_with insert fk fv n : KeepsD fk -> KeepsD fv -> forall i acc, KeepsD (dec_entries_with insert fk fv n i acc).
  Proof.
    intros Hk Hv. induction n as [|n IH]; intros i acc; cbn [dec_entries_with]; [apply kd_ok|].
    apply kd_bind; [apply kd_map_err, Hk | intros x; apply kd_bind; [apply kd_map_err, Hv | intros y; apply IH]].
  Qed.
  Lemma kd_keys_with insert fk n : KeepsD fk -> forall i acc, KeepsD (dec_keys_with insert fk n i acc).
  Proof.
    intros Hk. induction n as [|n IH]; intros i acc; cbn [dec_keys_with]; [apply kd_ok|].
    apply kd_bind; [apply kd_map_err, Hk | intros x; apply IH].
  Qed.

  Ltac kd := intros; match goal with
    | |- KeepsD (dok _) => apply kd_ok
    | |- KeepsD (dlift _) => apply kd_lift
    | |- KeepsD (derror _) => apply kd_error
    | |- KeepsD (dpanic _) => apply kd_panic
    | |- KeepsD (dread _) => apply kd_read
    | |- KeepsD (dread_into _) => apply kd_read_into
    | |- KeepsD (dec_unsigned _) => apply kd_unsigned
    | |- KeepsD (dec_signed _) => apply kd_signed
    | |- KeepsD (dec_int _) => apply kd_int
    | |- KeepsD dec_u8 => apply kd_unsigned
    | |- KeepsD dec_usize => apply kd_unsigned
    | |- KeepsD dec_bool => apply kd_map, kd_unsigned
    | |- KeepsD dec_ip4 => apply kd_map, kd_unsigned
    | |- KeepsD dec_ip6 => apply kd_map, kd_unsigned
    | |- KeepsD (dmap _ _) => apply kd_map; kd
    | |- KeepsD (dmap_err _ _) => apply kd_map_err; kd
    | |- KeepsD (dbind _ _) => apply kd_bind; kd
    | |- KeepsD (dec_items _ _ _) => apply kd_items; kd
    | |- KeepsD (dec_entries _ _ _ _ _) => apply kd_entries; kd
    | |- KeepsD (dec_keys _ _ _ _) => apply kd_keys; kd
    | |- KeepsD (dec_entries_with _ _ _ _ _ _) => apply kd_entries_with; kd
    | |- KeepsD (dec_keys_with _ _ _ _ _) => apply kd_keys_with; kd
    | |- KeepsD (dec_map_with _ _ _) => unfold dec_map_with; kd
    | |- KeepsD (dec_set_with _ _) => unfold dec_set_with; kd
    | |- KeepsD (dec_vec _) => unfold dec_vec; kd
    | |- KeepsD dec_string => unfold dec_string; kd
    | |- KeepsD (dec_sized_str _) => unfold dec_sized_str; kd
    | |- KeepsD dec_cstring => unfold dec_cstring; kd
    | |- KeepsD (dec_sized_slice _ _) => unfold dec_sized_slice; kd
    | |- KeepsD dec_char => unfold dec_char; kd
    | |- KeepsD (dec_nonzero _) => unfold dec_nonzero; kd
    | |- KeepsD (dec_option _) => unfold dec_option; kd
    | |- KeepsD (dec_result _ _) => unfold dec_result; kd
    | |- KeepsD (dec_sock4 _) => unfold dec_sock4; kd
    | |- KeepsD (dec_sock6 _) => unfold dec_sock6; kd
    | |- KeepsD dec_ip_addr => unfold dec_ip_addr; kd
    | |- KeepsD dec_sock_addr => unfold dec_sock_addr; kd
    | |- KeepsD (dec_bound _) => unfold dec_bound; kd
    | |- KeepsD dec_duration => unfold dec_duration; kd
    | |- KeepsD dec_time => unfold dec_time; kd
    | |- KeepsD (dec_map _ _) => unfold dec_map; kd
    | |- KeepsD (dec_set _) => unfold dec_set; kd
    | |- KeepsD (if ?b then _ else _) => destruct b; kd
    | |- KeepsD (match ?x with Some _ => _ | None => _ end) => destruct x eqn:?; kd
    | |- KeepsD _ => try assumption
    end.

  Lemma kd_nth {X} (f : X -> D val) (vs : list (option Z * list X)) i gs : Forall (fun x => Forall (fun t => KeepsD (f t)) (snd x)) vs ->
    nth_error (map (fun x => map f (snd x)) vs) i = Some gs -> Forall KeepsD gs.
  Proof.
    intros H Eg. rewrite nth_error_map in Eg. destruct (nth_error vs i) as [[e ts]|] eqn:Ev; [|discriminate].
    cbn [option_map snd] in Eg. injection Eg as <-. apply forall_map. rewrite Forall_forall in H. apply (H _ (nth_error_In _ _ Ev)).
  Qed.

  Lemma kd_decode t : KeepsD (decode t).
  Proof.
    assert (H : KeepsD (decode t) /\ match t with TSlice t => KeepsD (decode t) | _ => True end); [|apply H].
    induction t using ty_ind_strong; (split; [|try exact I]); cbn [decode];
      repeat match goal with H : _ /\ _ |- _ => destruct H end; try (kd; fail).
    - apply kd_map, kd_fields, forall_map. apply Forall_impl with (2 := H). intros a Ha. apply Ha.
    - apply kd_map. destruct t; kd.
    - apply kd_map, kd_fields, forall_map. apply Forall_impl with (2 := H). intros a Ha. apply Ha.
    - unfold dec_enum. kd. apply kd_fields. eapply kd_nth; [|eassumption].
      eapply Forall_impl; [|exact H]. intros x Hx. eapply Forall_impl; [|exact Hx]. intros y Hy. apply Hy.
  Qed.

  Variable us : nat -> impl.
  Hypothesis Hus : forall k, KeepsD (u_decode (us k)).

  Lemma kd_udecode t : KeepsD (udecode us t).
  Proof.
    assert (H : KeepsD (udecode us t) /\ match t with USlice t => KeepsD (udecode us t) | _ => True end); [|apply H].
    induction t using uty_ind_strong; (split; [|try exact I]); cbn [udecode];
      repeat match goal with H : _ /\ _ |- _ => destruct H end; try apply Hus; try apply kd_decode; try (kd; fail).
    - apply kd_map, kd_fields, forall_map. apply Forall_impl with (2 := H). intros a Ha. apply Ha.
    - apply kd_map. destruct t; kd.
    - apply kd_map, kd_fields, forall_map. apply Forall_impl with (2 := H). intros a Ha. apply Ha.
    - kd. apply kd_fields. eapply kd_nth; [|eassumption].
      eapply Forall_impl; [|exact H]. intros x Hx. eapply Forall_impl; [|exact Hx]. intros y Hy. apply Hy.
  Qed.
End Reading.

(* ---- C100 *)

Lemma wrote_trans a b c : Wrote a b -> Wrote b c -> Wrote a c.
Proof. intros Ha Hb. induction Hb; [exact Ha|]. eapply Wrote_more; [apply IHHb, Ha | eassumption]. Qed.

Lemma wrote_means o o' : Wrote o o' -> output_position o <= output_capacity o ->
  output_capacity o' = output_capacity o /\ output_position o <= output_position o' <= output_capacity o' /\
  (exists bs, output_as_slice o' = output_as_slice o ++ bs) /\ skipn (o_pos o') (o_buf o') = skipn (o_pos o') (o_buf o).
Proof.
  induction 1 as [o|o o1 data o2 r _ IH Hw]; intros Hb.
  - split; [reflexivity|]. split; [lia|]. split; [exists []; rewrite app_nil_r; reflexivity | reflexivity].
  - destruct (IH Hb) as (Hc & Hp & (bs & Hs) & Hk). destruct (Nat.leb_spec (o_pos o1 + length data) (length (o_buf o1))) as [Hf|Hf].
    + rewrite write_fits in Hw by exact Hf. injection Hw as <- _.
      assert (Hw1 : wf_out o1) by (unfold wf_out; unfold output_position, output_capacity in Hp; lia).
      unfold output_capacity, output_position in *. rewrite append_capacity, append_pos by exact Hf.
      split; [exact Hc|]. split; [lia|]. split; [exists (bs ++ data); rewrite append_slice, Hs, app_assoc by exact Hw1; reflexivity|].
      rewrite append_suffix by exact Hw1. rewrite <- !skipn_plus, Hk. reflexivity.
    + rewrite write_short in Hw by (try (unfold wf_out; unfold output_position, output_capacity in Hp); unfold fits; lia).
      injection Hw as <- _. eauto 6.
Qed.

Lemma C100_output_lemma ch us : (forall k v, OnlyWrites (u_encode (us k) v)) -> forall t v o o' r,
  output_position o <= output_capacity o -> uencode ch us t v o = (o', r) ->
  output_capacity o' = output_capacity o /\ output_position o <= output_position o' <= output_capacity o' /\
  (exists bs, output_as_slice o' = output_as_slice o ++ bs) /\ skipn (o_pos o') (o_buf o') = skipn (o_pos o') (o_buf o).
Proof.
  intros Hus t v o o' r Hb He. apply wrote_means; [|exact Hb]. replace o' with (fst (uencode ch us t v o)) by (rewrite He; reflexivity).
  apply (@keeps_uencode Wrote Wrote_nothing wrote_trans); [|exact Hus].
  intros o1 data. destruct (output_write o1 data) as [o2 q] eqn:E. eapply Wrote_more; [apply Wrote_nothing | exact E].
Qed.

Lemma write_in_bounds o data : output_position o <= output_capacity o ->
  output_position (fst (output_write o data)) <= output_capacity (fst (output_write o data)).
Proof.
  intros Hb. destruct (output_write o data) as [o' r] eqn:E. cbn [fst].
  assert (Hw : Wrote o o') by (eapply Wrote_more; [apply Wrote_nothing | exact E]). apply (wrote_means Hw Hb).
Qed.

Lemma C100_any_lemma ch us : (forall k v o, output_position o <= output_capacity o ->
    output_position (fst (u_encode (us k) v o)) <= output_capacity (fst (u_encode (us k) v o))) ->
  forall t v o o' r, output_position o <= output_capacity o -> uencode ch us t v o = (o', r) -> output_position o' <= output_capacity o'.
Proof.
  intros Hus t v o o' r Hb He. replace o' with (fst (uencode ch us t v o)) by (rewrite He; reflexivity).
  apply (@keeps_uencode (fun o o' => output_position o <= output_capacity o -> output_position o' <= output_capacity o')); auto.
  intros o1 data. apply write_in_bounds.
Qed.

Lemma took_trans a b c : Took a b -> Took b c -> Took a c.
Proof. intros Ha Hb. induction Hb; [exact Ha | eapply Took_more; [apply IHHb, Ha | eassumption] | eapply Took_into; [apply IHHb, Ha | eassumption]]. Qed.
Lemma read_means i n i' r : in_bounds i -> input_read i n = (i', r) ->
  i_buf i' = i_buf i /\ input_position i <= input_position i' <= input_capacity i.
Proof.
  unfold in_bounds, input_position, input_capacity. intros Hb H.
  destruct (Nat.leb_spec (i_pos i + n) (length (i_buf i))) as [Hf|Hf].
  - rewrite read_ok in H by exact Hf. injection H as <- _. cbn [i_buf i_pos]. split; [reflexivity | lia].
  - rewrite read_short in H by assumption. injection H as <- _. split; [reflexivity | lia].
Qed.
Lemma took_means i i' : Took i i' -> in_bounds i -> i_buf i' = i_buf i /\ input_position i <= input_position i' <= input_capacity i.
Proof.
  assert (Hb : forall i i1, in_bounds i -> i_buf i1 = i_buf i /\ input_position i <= input_position i1 <= input_capacity i -> in_bounds i1).
  { unfold in_bounds, input_capacity. intros i0 i1 _ [-> H]. lia. }
  induction 1 as [i|i i1 n i2 r _ IH Hr|i i1 dst i2 dst' r _ IH Hr]; intros Hi.
  - unfold in_bounds in Hi. split; [reflexivity | lia].
  - specialize (IH Hi). destruct (read_means _ (Hb _ _ Hi IH) Hr) as [E1 E2]. destruct IH as [E3 E4].
    unfold input_capacity in *. rewrite E3 in *. split; [exact E1 | lia].
  - specialize (IH Hi). rewrite read_into_read in Hr.
    destruct (input_read i1 (length dst)) as [i3 q] eqn:E. assert (i3 = i2) by (destruct q; congruence). subst i3.
    destruct (read_means _ (Hb _ _ Hi IH) E) as [E1 E2]. destruct IH as [E3 E4].
    unfold input_capacity in *. rewrite E3 in *. split; [exact E1 | lia].
Qed.

Lemma C100_input_lemma us : (forall k, OnlyReads (u_decode (us k))) -> forall t i i' r,
  in_bounds i -> udecode us t i = (i', r) -> i_buf i' = i_buf i /\ input_position i <= input_position i' <= input_capacity i.
Proof.
  intros Hus t i i' r Hb He. apply took_means; [|exact Hb]. replace i' with (fst (udecode us t i)) by (rewrite He; reflexivity).
  apply (@kd_udecode Took Took_nothing took_trans); [|exact Hus].
  intros i1 n. destruct (input_read i1 n) as [i2 q] eqn:E. eapply Took_more; [apply Took_nothing | exact E].
Qed.

Lemma acts_keep acts : forall st, length (o_buf (os_given (fold_left act_step acts st))) = length (o_buf (os_given st)).
Proof.
  assert (Hw : forall o data, length (o_buf (write_to o data)) = length (o_buf o)).
  { intros o data. unfold write_to, output_write. destruct (Nat.ltb_spec (length (o_buf o) - o_pos o) (length data)) as [H|H]; [reflexivity|].
    cbn [fst o_buf]. rewrite !app_length, firstn_length, skipn_length.
    destruct (Nat.le_gt_cases (o_pos o) (length (o_buf o))); [lia|]. replace (length data) with 0 in * by lia. lia. }
  induction acts as [|a acts IH]; intros st; cbn [fold_left]; [reflexivity|]. rewrite IH.
  unfold act_step. destruct a, (os_swapped st); cbn [os_given]; rewrite ?Hw; reflexivity.
Qed.

Lemma C100_slot_lemma s acts r s' q : slot_length s <= slot_capacity s -> slot_write_user s acts r = (s', q) ->
  slot_length s' <= slot_capacity s' /\ slot_capacity s' = slot_capacity s /\ length (slot_as_slice s') = slot_length s'.
Proof.
  intros Hs H. unfold slot_write_user in H.
  set (st := fold_left act_step acts (Outputs (output_new (s_buf s)) (output_new []) false)) in *.
  assert (Hc : length (o_buf (os_given st)) = length (s_buf s)) by (unfold st; rewrite acts_keep; reflexivity).
  assert (G : slot_length s' <= slot_capacity s' /\ slot_capacity s' = slot_capacity s).
  { unfold slot_set_len, slot_length, slot_capacity in *. cbn [s_buf s_len] in H. destruct r as [[]|e|p].
    - destruct (Nat.leb_spec (output_position (os_current st)) (length (o_buf (os_given st)))); injection H as <- _; cbn [s_buf s_len]; lia.
    - injection H as <- _; cbn [s_buf s_len]; lia.
    - injection H as <- _; cbn [s_buf s_len]; lia. }
  destruct G as [G1 G2]. split; [exact G1|]. split; [exact G2|].
  unfold slot_as_slice, slot_length, slot_capacity in *. rewrite firstn_length. lia.
Qed.

Lemma acts_write ds : forall o p b, output_position o <= output_capacity o -> length (concat ds) <= output_remaining o ->
  exists o', fold_left act_step (map AWrite ds) (Outputs o p b) = (if b then fold_left act_step (map AWrite ds) (Outputs o p b) else Outputs o' p b) /\
  output_capacity o' = output_capacity o /\ output_as_slice o' = output_as_slice o ++ concat ds /\ output_position o' = output_position o + length (concat ds).
Proof.
  unfold output_remaining, output_capacity, output_position, output_as_slice.
  induction ds as [|d ds IH]; intros o p b Ho Hl; cbn [map fold_left concat].
  - exists o. rewrite app_nil_r. cbn [length]. split; [destruct b; reflexivity|]. auto.
  - cbn [concat] in Hl. rewrite app_length in Hl.
    assert (Hw : write_to o d = Output (firstn (o_pos o) (o_buf o) ++ d ++ skipn (o_pos o + length d) (o_buf o)) (o_pos o + length d)).
    { unfold write_to, output_write. destruct (Nat.ltb_spec (length (o_buf o) - o_pos o) (length d)); [lia|]. reflexivity. }
    assert (Hc : length (o_buf (write_to o d)) = length (o_buf o)).
    { rewrite Hw. cbn [o_buf]. rewrite !app_length, firstn_length, skipn_length. lia. }
    assert (Hp : o_pos (write_to o d) = o_pos o + length d) by (rewrite Hw; reflexivity).
    assert (Hs : firstn (o_pos (write_to o d)) (o_buf (write_to o d)) = firstn (o_pos o) (o_buf o) ++ d).
    { rewrite Hw. cbn [o_buf o_pos]. rewrite app_assoc. rewrite firstn_app.
      replace (o_pos o + length d - length (firstn (o_pos o) (o_buf o) ++ d)) with 0 by (rewrite app_length, firstn_length; lia).
      rewrite firstn_O, app_nil_r. apply firstn_all2. rewrite app_length, firstn_length. lia. }
    destruct (IH (write_to o d) p b) as (o' & E & Ec & Es & Ep); [lia | lia|]. exists o'. split.
    + destruct b; [reflexivity|]. cbn [act_step os_swapped os_given os_other]. exact E.
    + rewrite Ec, Es, Ep, Hs, Hc, Hp, <- app_assoc, app_length. repeat split. lia.
Qed.

Lemma C100_slot_holds_lemma s ds : length (concat ds) <= slot_capacity s ->
  (exists s', slot_write_user s (map AWrite ds) (Ok tt) = (s', Ok tt) /\ slot_as_slice s' = concat ds /\ slot_capacity s' = slot_capacity s) /\
  (forall acts r, r <> Ok tt -> exists s', slot_write_user s acts r = (s', r) /\ slot_length s' = slot_length s).
Proof.
  intros Hl. split.
  - destruct (@acts_write ds (output_new (s_buf s)) (output_new []) false) as (o' & E & Ec & Es & Ep);
      [unfold output_position, output_new; cbn [o_pos]; lia | unfold output_remaining, output_capacity, output_position, output_new, slot_capacity in *; cbn [o_pos o_buf]; lia|].
    unfold slot_write_user. rewrite E. cbn [os_given os_current os_swapped]. unfold slot_set_len. cbn [s_buf s_len].
    unfold output_capacity, output_position, output_as_slice, output_new, slot_capacity in *. cbn [o_buf o_pos firstn app s_buf] in *.
    destruct (Nat.leb_spec (o_pos o') (length (o_buf o'))); [|lia]. eexists. split; [reflexivity|]. split; [exact Es | exact Ec].
  - intros acts r Hr. unfold slot_write_user. destruct r as [[]|e|p]; [contradiction Hr; reflexivity | |]; eexists; split; reflexivity.
Qed.

(* ---- the model of containers of user types, with standard types for user types, is the model of standard types *)
Definition EqE (a b : E) := forall o, a o = b o.
Definition EqD {A} (a b : D A) := forall i, a i = b i.
Lemma ee_seq a a' b b' : EqE a a' -> EqE b b' -> EqE (eseq a b) (eseq a' b').
Proof. intros Ha Hb o. unfold eseq. rewrite (Ha o). destruct (a' o) as [o' [[]|e|p]]; [apply Hb | reflexivity | reflexivity]. Qed.
Lemma ee_map_err f a a' : EqE a a' -> EqE (emap_err f a) (emap_err f a').
Proof. intros Ha o. unfold emap_err. rewrite (Ha o). reflexivity. Qed.
Lemma ee_refl a : EqE a a.
Proof. intros o. reflexivity. Qed.
Lemma ee_items {A} (f g : A -> E) wrap l : (forall x, EqE (f x) (g x)) -> forall i, EqE (enc_items f wrap i l) (enc_items g wrap i l).
Proof. intros H. induction l as [|x l IH]; intros i; cbn [enc_items]; [apply ee_refl|]. apply ee_seq; [apply ee_map_err, H | apply IH]. Qed.
Lemma ee_slice {A} (f g : A -> E) wrap l : (forall x, EqE (f x) (g x)) -> EqE (enc_slice f wrap l) (enc_slice g wrap l).
Proof. intros H. apply ee_seq; [apply ee_refl | apply ee_items, H]. Qed.
Lemma ee_fields conv fs gs : Forall2 (fun f g => forall v, EqE (f v) (g v)) fs gs -> forall vs, EqE (enc_fields fs conv vs) (enc_fields gs conv vs).
Proof.
  induction 1 as [|f g fs gs Hf _ IH]; intros [|v vs]; cbn [enc_fields]; try apply ee_refl.
  apply ee_seq; [apply ee_map_err, Hf | apply IH].
Qed.
Lemma ed_bind {A B} (m m' : D A) (k k' : A -> D B) : EqD m m' -> (forall a, EqD (k a) (k' a)) -> EqD (dbind m k) (dbind m' k').
Proof. intros Ha Hb o. unfold dbind. rewrite (Ha o). destruct (m' o) as [o' [a|e|p]]; [apply Hb | reflexivity | reflexivity]. Qed.
Lemma ed_refl {A} (a : D A) : EqD a a.
Proof. intros o. reflexivity. Qed.
Lemma ed_map {A B} (f : A -> B) m m' : EqD m m' -> EqD (dmap f m) (dmap f m').
Proof. intros H. apply ed_bind; [exact H | intros a; apply ed_refl]. Qed.
Lemma ed_map_err {A} f (m m' : D A) : EqD m m' -> EqD (dmap_err f m) (dmap_err f m').
Proof. intros Ha o. unfold dmap_err. rewrite (Ha o). reflexivity. Qed.
Lemma ed_items {A} (f g : D A) n : EqD f g -> forall i, EqD (dec_items f n i) (dec_items g n i).
Proof.
  intros H. induction n as [|n IH]; intros i; cbn [dec_items]; [apply ed_refl|].
  apply ed_bind; [apply ed_map_err, H | intros x; apply ed_map, IH].
Qed.
Lemma ed_fields conv fs gs : Forall2 EqD fs gs -> EqD (dec_fields conv fs) (dec_fields conv gs).
Proof.
  induction 1 as [|f g fs gs Hf _ IH]; cbn [dec_fields]; [apply ed_refl|].
  apply ed_bind; [apply ed_map_err, Hf | intros x; apply ed_map, IH].
Qed.
Lemma ed_vec f g : EqD f g -> EqD (dec_vec f) (dec_vec g).
Proof. intros H. apply ed_bind; [apply ed_refl | intros len; apply ed_map, ed_items, H]. Qed.
Lemma ee_entries fk fv gk gv kvs : (forall x, EqE (fk x) (gk x)) -> (forall x, EqE (fv x) (gv x)) -> EqE (enc_entries fk fv kvs) (enc_entries gk gv kvs).
Proof. intros Hk Hv. induction kvs as [|[k v] kvs IH]; cbn [enc_entries]; [apply ee_refl|]. apply ee_seq; [apply Hk | apply ee_seq; [apply Hv | exact IH]]. Qed.
Lemma ee_keys fk gk ks : (forall x, EqE (fk x) (gk x)) -> EqE (enc_keys fk ks) (enc_keys gk ks).
Proof. intros Hk. induction ks as [|k ks IH]; cbn [enc_keys]; [apply ee_refl|]. apply ee_seq; [apply Hk | exact IH]. Qed.
Lemma ed_map_with fk fv gk gv : EqD fk gk -> EqD fv gv -> EqD (dec_map_with map_insert fk fv) (dec_map gk gv).
Proof.
  intros Hk Hv. apply ed_bind; [apply ed_refl | intros len; apply ed_map]. generalize (Z.to_nat len) 0 (@nil (val * val)).
  intros n. induction n as [|n IH]; intros i acc; cbn [dec_entries_with dec_entries]; [apply ed_refl|].
  apply ed_bind; [apply ed_map_err, Hk | intros x; apply ed_bind; [apply ed_map_err, Hv | intros y; apply IH]].
Qed.
Lemma ed_set_with fk gk : EqD fk gk -> EqD (dec_set_with set_insert fk) (dec_set gk).
Proof.
  intros Hk. apply ed_bind; [apply ed_refl | intros len; apply ed_map]. generalize (Z.to_nat len) 0 (@nil val).
  intros n. induction n as [|n IH]; intros i acc; cbn [dec_keys_with dec_keys]; [apply ed_refl|].
  apply ed_bind; [apply ed_map_err, Hk | intros x; apply IH].
Qed.

Section Plain.
  Variable ch : bool.
  Variable f : nat -> ty.
  Let us k := Impl (encode ch (f k)) (decode (f k)).
  Let same (t : uty) := (forall v, EqE (uencode ch us t v) (encode ch (plain f t) v)) /\ EqD (udecode us t) (decode (plain f t)).

  Lemma forall_sames ts : Forall (fun t => plain_conversions f t -> same t) ts -> fold_right and True (map (plain_conversions f) ts) ->
    Forall2 (fun g h => forall v, EqE (g v) (h v)) (map (uencode ch us) ts) (map (encode ch) (map (plain f) ts)) /\
    Forall2 EqD (map (udecode us) ts) (map decode (map (plain f) ts)).
  Proof.
    induction 1 as [|t ts Ht _ IH]; cbn [map fold_right]; intros Hc; [split; constructor|].
    destruct Hc as [H1 H2]. destruct (Ht H1), (IH H2). split; constructor; assumption.
  Qed.

  Lemma forall_same_variants vs :
    Forall (fun x => Forall (fun t => plain_conversions f t -> same t) (snd x)) vs ->
    fold_right and True (map (fun x => fold_right and True (map (plain_conversions f) (snd x))) vs) -> forall i (e : option Z) ts,
    nth_error vs i = Some (e, ts) ->
    Forall2 (fun g h => forall v, EqE (g v) (h v)) (map (uencode ch us) ts) (map (encode ch) (map (plain f) ts)) /\
    Forall2 EqD (map (udecode us) ts) (map decode (map (plain f) ts)).
  Proof.
    induction 1 as [|x vs Hx _ IH]; cbn [map fold_right]; intros Hc [|i] e ts E; cbn [nth_error] in E; try discriminate E; destruct Hc as [H1 H2].
    - injection E as ->. apply forall_sames; assumption.
    - eapply IH; eassumption.
  Qed.

  Ltac ed := intros; match goal with
    | |- EqD ?a ?a => apply ed_refl
    | |- EqD (dmap _ _) (dmap _ _) => apply ed_map; ed
    | |- EqD (dmap_err _ _) (dmap_err _ _) => apply ed_map_err; ed
    | |- EqD (dbind _ _) (dbind _ _) => apply ed_bind; ed
    | |- EqD (dec_items _ _ _) (dec_items _ _ _) => apply ed_items; ed
    | |- EqD (dec_vec _) (dec_vec _) => apply ed_vec; ed
    | |- EqD (dec_map_with _ _ _) _ => apply ed_map_with; ed
    | |- EqD (dec_set_with _ _) _ => apply ed_set_with; ed
    | |- EqD (dec_sized_slice _ _) _ => unfold dec_sized_slice; ed
    | |- EqD (dec_option _) _ => unfold dec_option; ed
    | |- EqD (dec_result _ _) _ => unfold dec_result; ed
    | |- EqD (dec_bound _) _ => unfold dec_bound; ed
    | |- EqD (if ?b then _ else _) _ => destruct b; ed
    | |- EqD (match ?x with Some _ => _ | None => _ end) _ => destruct x eqn:?; ed
    | |- EqD _ _ => assumption
    end.

  Lemma plain_same t : (plain_conversions f t -> same t) /\ (forall u, t = USlice u -> plain_conversions f u -> EqD (udecode us u) (decode (plain f u))).
  Proof.
    induction t using uty_ind_strong; (split; [intros Hc|intros u Eu Hc; try discriminate Eu; try (injection Eu as <-; apply (proj1 IHt), Hc)]);
      cbn [plain_conversions] in Hc.
    all: repeat match goal with H : _ /\ _ |- _ => destruct H end; subst;
      repeat match goal with IH : ?P -> same _, H : ?P |- _ => specialize (IH H) | H : same _ |- _ => destruct H end.
    all: split; [intros v; cbn [uencode plain encode]; destruct v; try apply ee_refl|cbn [udecode plain decode]; try (ed; fail); try apply ed_refl].
    all: auto using ee_seq, ee_refl, ee_map_err, ee_items, ee_slice, ee_entries, ee_keys.
    - apply ee_fields. apply forall_sames; [|assumption]. eapply Forall_impl; [|eassumption]. intros x Hx. apply Hx.
    - apply ed_map, ed_fields. apply forall_sames; [|assumption]. eapply Forall_impl; [|eassumption]. intros x Hx. apply Hx.
    - apply ed_map. destruct t; try (cbn [plain] in *; apply ed_vec; auto; fail); try (destruct (plain f _); try contradiction; assumption).
      all: cbn [plain plain_conversions] in *; assumption.
    - unfold enc_refcell. destruct mut_borrowed; [apply ee_refl | apply ee_map_err, H].
    - apply ee_fields. apply forall_sames; [|assumption]. eapply Forall_impl; [|eassumption]. intros x Hx. apply Hx.
    - apply ed_map, ed_fields. apply forall_sames; [|assumption]. eapply Forall_impl; [|eassumption]. intros x Hx. apply Hx.
    - unfold enc_enum. rewrite map_map. cbn [fst]. destruct (discriminants _) as [ds|]; [|apply ee_refl].
      destruct (nth_error ds i) as [d|]; [|apply ee_refl]. rewrite map_map, !nth_error_map.
      destruct (nth_error vs i) as [[e ts]|] eqn:Ev; cbn [option_map snd]; [|apply ee_refl].
      apply ee_seq; [apply ee_refl|]. apply ee_fields. eapply forall_same_variants; [|eassumption|exact Ev].
      eapply Forall_impl; [|eassumption]. intros x Hx. eapply Forall_impl; [|exact Hx]. intros y Hy. apply Hy.
    - unfold dec_enum. rewrite map_map. cbn [fst]. destruct (discriminants _) as [ds|]; [|apply ed_refl].
      apply ed_bind; [apply ed_refl|]. intros d. destruct (find_disc d ds 0) as [i|]; [|apply ed_refl]. rewrite map_map, !nth_error_map.
      destruct (nth_error vs i) as [[e ts]|] eqn:Ev; cbn [option_map snd]; [|apply ed_refl].
      apply ed_map, ed_fields. eapply forall_same_variants; [|eassumption|exact Ev].
      eapply Forall_impl; [|eassumption]. intros x Hx. eapply Forall_impl; [|exact Hx]. intros y Hy. apply Hy.
  Qed.
End Plain.

Lemma C99_instances_lemma ch f t : plain_conversions f t ->
  (forall v o, uencode ch (fun k => Impl (encode ch (f k)) (decode (f k))) t v o = encode ch (plain f t) v o) /\
  (forall i, udecode (fun k => Impl (encode ch (f k)) (decode (f k))) t i = decode (plain f t) i).
Proof. intros Hc. destruct (proj1 (plain_same ch f t) Hc) as [He Hd]. split; [exact He | exact Hd]. Qed.

(* ---- code that writes, puts another output in place of the one it was given, and writes again *)

Lemma writes_in_turn ds : forall o, o_pos o + length (concat ds) <= length (o_buf o) ->
  fold_left write_to ds o = Output (firstn (o_pos o) (o_buf o) ++ concat ds ++ skipn (o_pos o + length (concat ds)) (o_buf o)) (o_pos o + length (concat ds)).
Proof.
  induction ds as [|d ds IH]; intros [buf pos] H; cbn [fold_left concat o_buf o_pos] in *.
  - cbn [app length]. rewrite Nat.add_0_r, firstn_skipn. reflexivity.
  - rewrite app_length in *. unfold write_to at 2. unfold output_write. cbn [o_buf o_pos]. destruct (Nat.ltb_spec (length buf - pos) (length d)); [lia|].
    cbn [fst]. assert (L : length (firstn pos buf) = pos) by (rewrite firstn_length; lia).
    rewrite IH; cbn [o_buf o_pos].
    + replace (firstn pos buf ++ d ++ skipn (pos + length d) buf) with ((firstn pos buf ++ d) ++ skipn (pos + length d) buf) by (symmetry; apply app_assoc).
      rewrite firstn_app, app_length, L. replace (pos + length d - (pos + length d)) with 0 by lia. rewrite firstn_O, app_nil_r.
      rewrite (firstn_all2 (firstn pos buf ++ d)) by (rewrite app_length; lia).
      rewrite skipn_app, skipn_all2 by (rewrite app_length, L; lia). rewrite app_length, L. cbn [app].
      rewrite skipn_plus, <- !app_assoc. repeat (f_equal; try lia).
    + rewrite !app_length, L, skipn_length. lia.
Qed.
Lemma acts_given ds : forall o p, fold_left act_step (map AWrite ds) (Outputs o p false) = Outputs (fold_left write_to ds o) p false.
Proof. induction ds as [|d ds IH]; intros o p; [reflexivity|]. cbn [map fold_left act_step os_swapped os_given os_other]. apply IH. Qed.
Lemma acts_other ds : forall o p, fold_left act_step (map AWrite ds) (Outputs o p true) = Outputs o (fold_left write_to ds p) true.
Proof. induction ds as [|d ds IH]; intros o p; [reflexivity|]. cbn [map fold_left act_step os_swapped os_given os_other]. apply IH. Qed.

Lemma C100_swapped_lemma s ds buf es : length (concat ds) <= slot_capacity s -> length (concat es) <= length buf ->
  let held := concat ds ++ skipn (length (concat ds)) (s_buf s) in
  slot_write_user s (map AWrite ds ++ [AFresh buf; ASwap] ++ map AWrite es) (Ok tt) =
  if length (concat es) <=? slot_capacity s then (Slot held (length (concat es)), Ok tt) else (Slot held (slot_length s), Panic PAssert).
Proof.
  intros H1 H2 held. unfold slot_write_user, slot_capacity in *. rewrite !fold_left_app, acts_given. cbn [fold_left act_step os_swapped os_given os_other negb].
  rewrite acts_other. unfold os_current. cbn [os_given os_swapped os_other].
  rewrite !writes_in_turn by (cbn [output_new o_buf o_pos]; lia). cbn [output_new o_buf o_pos firstn app Nat.add]. fold held.
  unfold slot_set_len, slot_capacity, output_position. cbn [s_buf o_pos s_len].
  replace (length held) with (length (s_buf s)) by (unfold held; rewrite app_length, skipn_length; lia).
  destruct (_ <=? _); reflexivity.
Qed.
