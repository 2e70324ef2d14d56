(* Proofs of C43-C48, C70. *)
From Coq Require Import Lia ZifyBool ZifyNat ZifyN.
From Verif Require Import Base BaseFacts Streams StreamFacts Utf8 Types TypesFacts Traits Encode Decode Sized Slot Spec SpecCalls SpecDecode SpecValues SpecSize
  EncodeFacts WireFacts EncodeCases RoundTrip EncodeProofs DecodeFacts DecodeProofs ValueProofs SizeProofs ComputeFacts.
Set Implicit Arguments.

Arguments C07_lemma {ch t v o o' r} _ _.
Arguments C08_lemma {ch t v o o' r} _ _ _.
Arguments C09_lemma {ch t v} _.
Arguments C13_lemma {ch t v o o' bs} _ _ _ _ _.
Arguments C15_lemma {t i i' r} _ _ _ j _ _.
Arguments C22_lemma {t i i' r} _ _.
Arguments C35_room_lemma {so ch t n v o} _ _ _ _ _ {o' e} _.

Lemma new_wf buf : output_position (output_new buf) <= output_capacity (output_new buf).
Proof. apply Nat.le_0_l. Qed.

(* a write, in one line: some bytes at the start of the buffer, a length or not *)
Lemma write_cases ch t s v s' r : slot_write ch t s v = (s', r) -> exists bs,
  length bs <= slot_capacity s /\ s_buf s' = bs ++ skipn (length bs) (s_buf s) /\
  ((r = Ok tt /\ s_len s' = length bs /\ Appends (encode ch t v) bs (Ok tt)) \/
   ((exists e, r = Err e /\ Appends (encode ch t v) bs (Err e)) /\ s_len s' = s_len s) \/
   ((exists p, r = Panic p) /\ s_len s' = s_len s)).
Proof.
  unfold slot_write. destruct (encode ch t v (output_new (s_buf s))) as [o q] eqn:E. intros H.
  destruct (C07_lemma (new_wf (s_buf s)) E) as (Hc & Hp & _ & Hr).
  cbn [output_new output_position output_capacity o_buf o_pos] in *.
  assert (Hb : o_buf o = output_as_slice o ++ skipn (length (output_as_slice o)) (s_buf s)).
  { unfold output_as_slice, output_position, output_capacity in *. rewrite firstn_length_le by lia. rewrite <- Hr. symmetry. apply firstn_skipn. }
  assert (Hl : length (output_as_slice o) = o_pos o).
  { unfold output_as_slice, output_position, output_capacity in *. apply firstn_length_le. lia. }
  exists (output_as_slice o). unfold slot_capacity, slot_set_len, output_position, output_capacity in *.
  change (o_buf (output_new (s_buf s))) with (s_buf s) in *.
  assert (Ha : (forall p, q <> Panic p) -> Appends (encode ch t v) (output_as_slice o) q).
  { intros Hn. destruct (C08_lemma (new_wf (s_buf s)) E Hn) as (bs & Hs & Ha). cbn in Hs. rewrite Hs. exact Ha. }
  destruct q as [[]|e|p]; cbn [s_buf s_len] in H.
  - unfold slot_capacity in H. cbn [s_buf] in H. destruct (o_pos o <=? length (o_buf o)) eqn:El; [|lia]. injection H as <- <-. cbn [s_buf s_len].
    split; [lia|]. split; [exact Hb|]. left. split; [reflexivity|]. split; [lia|]. apply Ha. discriminate.
  - injection H as <- <-. cbn [s_buf s_len]. split; [lia|]. split; [exact Hb|]. right; left. split; [|reflexivity]. exists e. split; [reflexivity|]. apply Ha. discriminate.
  - injection H as <- <-. cbn [s_buf s_len]. split; [lia|]. split; [exact Hb|]. right; right. split; [|reflexivity]. exists p. reflexivity.
Qed.
Arguments write_cases {ch t s v s' r} _.

Lemma set_length {A} (b : A) l : forall k, k < length l -> length (firstn k l ++ b :: skipn (S k) l) = length l.
Proof. induction l as [|x l IH]; intros [|k] H; cbn [length] in *; try lia; [reflexivity|]. cbn [firstn skipn app length]. f_equal. apply IH. lia. Qed.

(* ---- C43 *)

Definition slot_wf (cap : nat) (s : slot) : Prop := s_len s <= slot_capacity s /\ slot_capacity s = cap.

Lemma step_wf ch t cap s op s' r : slot_wf cap s -> slot_step ch t s op = (s', r) -> slot_wf cap s'.
Proof.
  intros [Hl Hc] H. destruct op as [v|data|len|k b]; cbn [slot_step] in H.
  - destruct (write_cases H) as (bs & Hb & Hs & Hx). unfold slot_wf, slot_capacity in *. rewrite Hs, app_length, skipn_length.
    destruct Hx as [(_ & -> & _)|[[_ ->]|[_ ->]]]; lia.
  - unfold slot_copy_from_slice, slot_wf, slot_capacity in *. destruct (length data <=? length (s_buf s)) eqn:E; injection H as <- _; [|auto].
    cbn [s_buf s_len]. rewrite app_length, skipn_length. lia.
  - unfold slot_set_len, slot_wf, slot_capacity in *. destruct (len <=? length (s_buf s)) eqn:E; injection H as <- _; cbn [s_buf s_len]; lia.
  - unfold slot_index_set, slot_wf, slot_capacity in *. destruct (k <? length (s_buf s)) eqn:E; apply (f_equal fst) in H; cbn [fst] in H; subst s'; [|auto].
    cbn [s_buf s_len]. rewrite set_length by lia. lia.
Qed.
Arguments step_wf {ch t cap s op s' r} _ _.

Lemma run_wf ch t cap ops : forall s s' rs, slot_wf cap s -> slot_run ch t s ops = (s', rs) -> slot_wf cap s' /\ length rs = length ops.
Proof.
  induction ops as [|op ops IH]; intros s s' rs Hw H; cbn [slot_run] in H.
  - injection H as <- <-. split; [exact Hw | reflexivity].
  - destruct (slot_step ch t s op) as [s1 r] eqn:E1. destruct (slot_run ch t s1 ops) as [s2 rs'] eqn:E2. injection H as <- <-.
    destruct (IH _ _ _ (step_wf Hw E1) E2) as [Hw' Hl]. split; [exact Hw' | cbn [length]; lia].
Qed.
Arguments run_wf {ch t cap ops s s' rs} _ _.

Lemma fresh_wf cap : slot_wf cap (slot_with_capacity cap).
Proof. unfold slot_wf, slot_capacity, slot_with_capacity. cbn [s_buf s_len]. rewrite repeat_length. lia. Qed.

Lemma C43_lemma ch t cap ops s rs : slot_run ch t (slot_with_capacity cap) ops = (s, rs) ->
  length rs = length ops /\ slot_length s <= slot_capacity s /\ slot_capacity s = cap /\ length (slot_as_slice s) = slot_length s.
Proof.
  intros H. destruct (run_wf (fresh_wf cap) H) as [[H1 H2] Hl]. unfold slot_length, slot_as_slice, slot_capacity in *.
  repeat split; try assumption. apply firstn_length_le. exact H1.
Qed.

(* ---- C44 *)

Lemma C44_write_lemma ch t s v s' : slot_write ch t s v = (s', Ok tt) ->
  Appends (encode ch t v) (slot_as_slice s') (Ok tt) /\
  skipn (slot_length s') (s_buf s') = skipn (slot_length s') (s_buf s) /\ slot_capacity s' = slot_capacity s.
Proof.
  intros H. destruct (write_cases H) as (bs & Hb & Hs & [(_ & Hl & Ha)|[[(e & He & _) _]|[(p & Hp) _]]]); [|discriminate|discriminate].
  unfold slot_as_slice, slot_length, slot_capacity in *. rewrite Hl, Hs, firstn_length_app, skipn_length_app. rewrite app_length, skipn_length.
  repeat split; [exact Ha | lia].
Qed.
Arguments C44_write_lemma {ch t s v s'} _.

Lemma C44_succeeds_lemma ch t s v bs : Appends (encode ch t v) bs (Ok tt) ->
  ((exists s', slot_write ch t s v = (s', Ok tt) /\ slot_as_slice s' = bs) <-> length bs <= slot_capacity s).
Proof.
  intros Ha. split.
  - intros (s' & H & <-). destruct (write_cases H) as (b & Hb & Hs & [(_ & Hl & _)|[[(e & He & _) _]|[(p & Hp) _]]]); [|discriminate|discriminate].
    unfold slot_as_slice. rewrite Hl, Hs, firstn_length_app. exact Hb.
  - intros Hl. destruct (Ha (output_new (s_buf s)) (new_wf _)) as (o & Ho & Hs).
    { unfold output_remaining, output_capacity, output_position. cbn. unfold slot_capacity in Hl. lia. }
    cbn in Hs. unfold slot_write. rewrite Ho.
    destruct (C07_lemma (new_wf (s_buf s)) Ho) as (Hc & Hp & _). unfold slot_set_len, slot_capacity, output_position, output_capacity in *. cbn in Hp, Hc |- *.
    destruct (o_pos o <=? length (o_buf o)) eqn:El; [|lia]. eexists. split; [reflexivity|]. exact Hs.
Qed.

Lemma yields_slot t s v : s_len s <= length (s_buf s) -> Yields (decode t) (slot_as_slice s) v -> slot_read t s = Ok v.
Proof.
  intros Hl H. unfold slot_read, input_new. specialize (H [] (skipn (s_len s) (s_buf s))). cbn [app length] in H.
  unfold slot_as_slice in H. rewrite firstn_skipn in H. rewrite H. reflexivity.
Qed.

Lemma write_len ch t s v s' : slot_write ch t s v = (s', Ok tt) -> s_len s' <= length (s_buf s').
Proof.
  intros H. destruct (write_cases H) as (bs & Hb & Hs & [(_ & Hl & Ha)|[[(e & He & _) _]|[(p & Hp) _]]]); [|discriminate|discriminate].
  rewrite Hl, Hs, app_length. lia.
Qed.
Arguments write_len {ch t s v s'} _.

Lemma C44_read_lemma ch t s v s' : wt t v -> RoundTrips t v -> slot_write ch t s v = (s', Ok tt) -> slot_read t s' = Ok (norm v).
Proof.
  intros Hv Hr H. apply yields_slot; [exact (write_len H)|]. destruct (C44_write_lemma H) as [Ha _].
  destruct (Ha (output_new (repeat x00 (length (slot_as_slice s')))) (new_wf _)) as (o & Ho & Hs).
  { unfold output_remaining, output_capacity, output_position. cbn. rewrite repeat_length. lia. }
  exact (C13_lemma Hv Hr (new_wf _) Ho Hs).
Qed.

Lemma C44_read_equal_lemma ch t s v s' : wt t v -> RoundTrips t v -> lossless v = true -> slot_write ch t s v = (s', Ok tt) ->
  exists v', slot_read t s' = Ok v' /\ erase v' = erase v.
Proof. intros Hv Hr Hl H. exists (norm v). split; [eapply C44_read_lemma; eassumption | apply erase_norm; exact Hl]. Qed.

Lemma C44_refutation : exists s v s', wt (THashSet (TInt U8)) v /\ slot_write true (THashSet (TInt U8)) s v = (s', Ok tt) /\
  slot_read (THashSet (TInt U8)) s' = Ok (VSet [VInt 5]) /\ v = VSet [VInt 1; VInt 0; VInt 5].
Proof.
  exists (slot_with_capacity 3), (VSet [VInt 1; VInt 0; VInt 5]). eexists. split; [|split; [vm_compute; reflexivity|split; reflexivity]].
  cbn. split; [repeat constructor; cbn; intuition discriminate | repeat constructor; unfold in_ity; cbn; lia].
Qed.

(* ---- C45 *)

Lemma C45_lemma ch t s v s' r : slot_write ch t s v = (s', r) -> r <> Ok tt ->
  slot_length s' = slot_length s /\ slot_capacity s' = slot_capacity s /\
  exists bs, length bs <= slot_capacity s /\ s_buf s' = bs ++ skipn (length bs) (s_buf s) /\
    forall e, r = Err e -> Appends (encode ch t v) bs (Err e).
Proof.
  intros H Hr. destruct (write_cases H) as (bs & Hb & Hs & [(? & Hl & Ha)|[[(e & He & Ha) Hl]|[(p & Hp) Hl]]]); [congruence| |].
  - unfold slot_length, slot_capacity in *. rewrite Hl, Hs, app_length, skipn_length. split; [reflexivity|]. split; [lia|]. exists bs.
    split; [exact Hb|]. split; [reflexivity|]. intros e' E. rewrite He in E. injection E as <-. exact Ha.
  - unfold slot_length, slot_capacity in *. rewrite Hl, Hs, app_length, skipn_length. split; [reflexivity|]. split; [lia|]. exists bs.
    split; [exact Hb|]. split; [reflexivity|]. intros e' E. congruence.
Qed.

Lemma C45_refutation :
  (exists ch t s v s' e, wt t v /\ slot_write ch t s v = (s', Err e) /\ slot_as_slice s' <> slot_as_slice s) /\
  (exists ch t s v s' p, wt t v /\ slot_write ch t s v = (s', Panic p) /\ slot_as_slice s' <> slot_as_slice s).
Proof.
  split.
  - exists true, (TArray (TInt Usize) 2), (Slot [x07; x07; x07; x07] 4), (VSeq [VInt 1; VInt 65536]). eexists. eexists.
    split; [cbn; split; [reflexivity | repeat constructor; unfold in_ity; cbn; lia]|]. split; [vm_compute; reflexivity | discriminate].
  - exists true, (TArray (TInt U16) 2), (Slot [x07; x07; x07] 3), (VSeq [VInt 1; VInt 2]). eexists. eexists.
    split; [cbn; split; [reflexivity | repeat constructor; unfold in_ity; cbn; lia]|]. split; [vm_compute; reflexivity | discriminate].
Qed.

(* ---- C46 *)

Lemma C46_lemma t s i' r : slot_length s <= slot_capacity s ->
  decode t (input_new (slot_as_slice s)) = (i', r) -> (forall p, r <> Panic p) -> slot_read t s = r.
Proof.
  intros Hl H Hn. unfold slot_read. unfold slot_length, slot_capacity in Hl.
  assert (Hi : in_bounds (input_new (slot_as_slice s))) by apply Nat.le_0_l.
  rewrite (C15_lemma Hi H Hn (input_new (s_buf s))); [reflexivity | apply Nat.le_0_l |].
  destruct (C22_lemma Hi H) as [_ [_ Hp]]. unfold input_position, input_capacity, unread, input_new, slot_as_slice in *. cbn [i_buf i_pos skipn] in *.
  rewrite Nat.sub_0_r. rewrite firstn_firstn. rewrite firstn_length in Hp. f_equal. lia.
Qed.

Lemma C46_refutation : exists t s1 s2 v1 v2, slot_length s1 <= slot_capacity s1 /\ slot_length s2 <= slot_capacity s2 /\
  slot_as_slice s1 = slot_as_slice s2 /\ slot_read t s1 = Ok v1 /\ slot_read t s2 = Ok v2 /\ v1 <> v2.
Proof.
  exists (TInt U16), (Slot [x07; x01] 1), (Slot [x07; x02] 1). eexists. eexists.
  split; [vm_compute; lia|]. split; [vm_compute; lia|]. split; [reflexivity|]. split; [vm_compute; reflexivity|]. split; [vm_compute; reflexivity | discriminate].
Qed.

(* ---- C47 *)

Lemma C47_lemma so ch t s0 ops s rs v s' r : slot_new so t = Some s0 -> slot_run ch t s0 ops = (s, rs) -> SizeOk so t -> wt t v ->
  slot_write ch t s v = (s', r) -> ch = false \/ has_lowest_second v = false -> forall p, r <> Panic p.
Proof.
  unfold slot_new. destruct (max_size so t) as [n|] eqn:Em; cbn [option_map]; [|discriminate]. intros H0. injection H0 as <-. intros Hrun Hso Hv Hw Hch p Hp.
  destruct (run_wf (fresh_wf (N.to_nat n)) Hrun) as [[_ Hc] _]. subst r.
  unfold slot_write in Hw. destruct (encode ch t v (output_new (s_buf s))) as [o q] eqn:E.
  assert (Hq : q = Panic p).
  { destruct q; [|discriminate|congruence].
    destruct (C07_lemma (new_wf (s_buf s)) E) as (Hcap & Hpos & _). unfold slot_set_len, slot_capacity, output_capacity, output_position in *. cbn in *.
    destruct (o_pos o <=? length (o_buf o)) eqn:El; [discriminate|lia]. }
  subst q. destruct (C09_lemma (ch := ch) Hv) as (bs & r & Hr & Hall). destruct (Hall (output_new (s_buf s)) (new_wf _)) as [Hfit Hshort].
  destruct (le_lt_dec (length bs) (output_remaining (output_new (s_buf s)))) as [Hle|Hlt].
  - destruct (Hfit Hle) as (o2 & E2 & _). rewrite E in E2. injection E2 as _ <-.
    destruct Hr as [Hr|[(e & Hr)|(_ & Hc1 & Hc2)]]; [discriminate|discriminate|]. destruct Hch; congruence.
  - destruct (Hshort Hlt) as (o2 & e & E2 & _).
    refine (C35_room_lemma (so := so) Em Hso Hv (new_wf _) _ E2).
    unfold output_remaining, output_capacity, output_position, slot_capacity in *. cbn. rewrite Hc. lia.
Qed.

Lemma C47_refutation :
  (exists t s v s' e, (forall so, slot_new so t = Some s) /\ wt t v /\ slot_write true t s v = (s', Panic (POutput e))) /\
  (forall so, so (TOption (TNonZero U8)) = 1%N -> so TUnit = 0%N -> exists t s v s' e, slot_new so t = Some s /\ wt t v /\
     slot_write true t s v = (s', Panic (POutput e))).
Proof.
  split.
  - exists (TSizedSlice (TInt U8) 1). eexists. exists (VSeq [VInt 7]). eexists. eexists.
    split; [intros so; reflexivity|]. split; [cbn; split; [lia | repeat constructor; unfold in_ity; cbn; lia]|]. vm_compute. reflexivity.
  - intros so H1 H0. exists (TResult (TOption (TNonZero U8)) TUnit), (slot_with_capacity 2), (VOk (VSome (VInt 7))). eexists. eexists.
    split; [unfold slot_new; cbn; rewrite H1, H0; reflexivity|]. split; [cbn; unfold in_ity; cbn; lia|]. vm_compute. reflexivity.
Qed.

(* ---- C48, C70 *)

Lemma C48_copy_lemma s data :
  (length data <= slot_capacity s -> exists s', slot_copy_from_slice s data = (s', Ok tt) /\ slot_as_slice s' = data /\
     slot_length s' = length data /\ slot_capacity s' = slot_capacity s /\ skipn (length data) (s_buf s') = skipn (length data) (s_buf s)) /\
  (slot_capacity s < length data -> slot_copy_from_slice s data = (s, Panic PAssert)).
Proof.
  unfold slot_copy_from_slice, slot_as_slice, slot_length, slot_capacity. split; intros H; destruct (length data <=? length (s_buf s)) eqn:E; try lia; [|reflexivity].
  eexists. split; [reflexivity|]. cbn [s_buf s_len]. rewrite firstn_length_app, skipn_length_app, app_length, skipn_length. repeat split. lia.
Qed.

Lemma C48_set_len_lemma s len :
  (len <= slot_capacity s -> exists s', slot_set_len s len = (s', Ok tt) /\ slot_length s' = len /\ s_buf s' = s_buf s) /\
  (slot_capacity s < len -> slot_set_len s len = (s, Panic PAssert)).
Proof.
  unfold slot_set_len, slot_length. split; intros H; destruct (len <=? slot_capacity s) eqn:E; try lia; [|reflexivity].
  eexists. repeat split.
Qed.

Lemma C48_read_lemma t s data s' i' r : slot_copy_from_slice s data = (s', Ok tt) ->
  decode t (input_new data) = (i', r) -> (forall p, r <> Panic p) -> slot_read t s' = r.
Proof.
  intros H Hd Hn. destruct (C48_copy_lemma s data) as [H1 H2].
  destruct (le_lt_dec (length data) (slot_capacity s)) as [Hle|Hlt].
  - destruct (H1 Hle) as (s2 & E & Hs & Hl & Hc & _). rewrite H in E. injection E as <-.
    apply (@C46_lemma t s' i' r); [lia | rewrite Hs; exact Hd | exact Hn].
  - rewrite (H2 Hlt) in H. discriminate.
Qed.

Lemma C48_refutation : exists t s data s' i' p v, slot_copy_from_slice s data = (s', Ok tt) /\
  decode t (input_new data) = (i', Panic p) /\ slot_read t s' = Ok v.
Proof.
  exists (TInt U16), (slot_with_capacity 2), [x07]. eexists. eexists. eexists. eexists.
  split; [vm_compute; reflexivity|]. split; vm_compute; reflexivity.
Qed.

Lemma C70_index_lemma s k : slot_length s <= slot_capacity s ->
  (k < slot_length s -> exists b, nth_error (slot_as_slice s) k = Some b /\ slot_index s k = Ok b) /\
  (slot_length s <= k -> slot_index s k = Panic PIndex).
Proof.
  intros Hl. unfold slot_index. assert (Hx : length (slot_as_slice s) = slot_length s) by (unfold slot_as_slice; apply firstn_length_le; exact Hl).
  split; intros H; destruct (nth_error (slot_as_slice s) k) as [b|] eqn:E.
  - exists b. split; reflexivity.
  - apply nth_error_None in E. lia.
  - assert (nth_error (slot_as_slice s) k <> None) as Hn by congruence. apply nth_error_Some in Hn. lia.
  - reflexivity.
Qed.

Lemma nth_set {A} (l : list A) k b : k < length l -> forall j, nth_error (firstn k l ++ b :: skipn (S k) l) j = if j =? k then Some b else nth_error l j.
Proof.
  revert k. induction l as [|x l IH]; intros k Hk j; cbn [length] in Hk; [lia|].
  destruct k as [|k]; destruct j as [|j]; try reflexivity. cbn [firstn skipn app nth_error Nat.eqb]. apply IH. lia.
Qed.

Lemma C70_index_set_lemma s k b :
  (k < slot_capacity s -> exists s', slot_index_set s k b = (s', Ok tt) /\ slot_length s' = slot_length s /\ slot_capacity s' = slot_capacity s /\
     forall j, nth_error (s_buf s') j = if j =? k then Some b else nth_error (s_buf s) j) /\
  (slot_capacity s <= k -> slot_index_set s k b = (s, Panic PIndex)).
Proof.
  unfold slot_index_set, slot_length, slot_capacity. split; intros H; destruct (k <? length (s_buf s)) eqn:E; try lia; [|reflexivity].
  eexists. split; [reflexivity|]. cbn [s_buf s_len]. split; [reflexivity|]. split; [|apply nth_set; exact H].
  rewrite set_length by lia. lia.
Qed.

Lemma C70_eq_lemma s bs : slot_eqb s bs = true <-> slot_as_slice s = bs.
Proof. apply bytes_eqb_spec. Qed.
