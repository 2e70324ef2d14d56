(* The lemmas behind C92-C95. *)
From Coq Require Import Lia ZifyBool ZifyNat ZifyN.
From Verif Require Import Base BaseFacts Streams StreamFacts Utf8 Types TypesFacts Traits Encode Decode Spec SpecCalls SpecDecode SpecValues
  StreamProofs DecodeFacts DecodeLocal AcceptFacts ValueProofs ComputeFacts Refutations Recursive SpecRecursive RecursiveFacts RecursiveProofs.
Set Implicit Arguments.

Lemma depth_encode defs k n m v : wt (unroll defs n k) v -> (n <= m)%nat ->
  wt (unroll defs m k) v /\ forall ch o, encode ch (unroll defs m k) v o = encode ch (unroll defs n k) v o.
Proof.
  intros Hv Hm. destruct (unroll_le defs k Hm) as (V & Ee & _). split; [apply V, Hv | intros ch o; apply Ee, Hv].
Qed.
Lemma depth_decode defs k n m i : depth_suffices defs k n i -> (n <= m)%nat -> decode (unroll defs m k) i = decode (unroll defs n k) i.
Proof.
  intros Hd Hm. destruct (unroll_le defs k Hm) as (_ & _ & Dd). destruct (Dd i) as [->|(i' & H)]; [reflexivity|].
  exfalso. apply Hd. rewrite H. reflexivity.
Qed.
Lemma depth_suffices_more defs k n m i : depth_suffices defs k n i -> (n <= m)%nat -> depth_suffices defs k m i.
Proof. intros Hd Hm. unfold depth_suffices. rewrite (depth_decode Hd Hm). exact Hd. Qed.

Lemma yields_more defs k n m bs v : Yields (decode (unroll defs n k)) bs v -> (n <= m)%nat -> Yields (decode (unroll defs m k)) bs v.
Proof.
  intros H Hm pre post. rewrite (@depth_decode defs k n m); [apply H | | exact Hm]. unfold depth_suffices. rewrite H. discriminate.
Qed.
Lemma appends_more defs k n m ch v bs r : wt (unroll defs n k) v -> Appends (encode ch (unroll defs n k) v) bs r -> (n <= m)%nat ->
  Appends (encode ch (unroll defs m k) v) bs r.
Proof.
  intros Hv H Hm o Ho Hl. destruct (@depth_encode _ _ _ _ _ Hv Hm) as [_ He]. destruct (H o Ho Hl) as (o' & E & Hs). exists o'. rewrite He. auto.
Qed.

Lemma recursive_round_trip ch defs k n v o o' bs : wt (unroll defs n k) v -> RoundTrips (unroll defs n k) v -> lossless v = true ->
  output_position o <= output_capacity o -> encode ch (unroll defs n k) v o = (o', Ok tt) -> output_as_slice o' = output_as_slice o ++ bs ->
  exists v', erase v' = erase v /\
    forall m, n <= m -> encode ch (unroll defs m k) v o = (o', Ok tt) /\ Yields (decode (unroll defs m k)) bs v'.
Proof.
  intros Hv Hr Hl Ho He Hs. destruct (@C13_equal_lemma ch _ v o o' bs Hv Hr Hl Ho He Hs) as (v' & Hy & Hev). exists v'. split; [exact Hev|].
  intros m Hm. destruct (@depth_encode _ _ _ _ _ Hv Hm) as [_ Hx]. rewrite Hx. split; [exact He | apply (@yields_more _ _ _ _ _ _ Hy Hm)].
Qed.

Lemma hash_inst env t : (forall k, contains is_hash (env k) = false) -> hash_free t = true -> contains is_hash (inst env t) = false.
Proof.
  intros Hv. induction t using rty_ind_strong; cbn [hash_free inst contains is_hash orb]; intros Hh; auto; try discriminate.
  - apply negb_true_iff, Hh.
  - clear - H Hh. induction H as [|t ts Ht Hts IH]; cbn [map existsb forallb] in *; [reflexivity|].
    apply andb_true_iff in Hh. destruct Hh as [H1 H2]. rewrite (Ht H1). apply IH, H2.
Qed.
Lemma hash_insts env ts : (forall k, contains is_hash (env k) = false) -> forallb hash_free ts = true -> existsb (contains is_hash) (map (inst env) ts) = false.
Proof.
  intros Hv. induction ts as [|t ts IH]; cbn [map existsb forallb]; [reflexivity|]. intros Hh. apply andb_true_iff in Hh. destruct Hh as [H1 H2].
  rewrite (hash_inst env t Hv H1). apply IH, H2.
Qed.
Lemma hash_unroll defs n : (forall k, hash_free_def (defs k) = true) -> forall k, contains is_hash (unroll defs n k) = false.
Proof.
  intros Hd. induction n as [|n IH]; intros k; [reflexivity|]. cbn [unroll]. specialize (Hd k). destruct (defs k) as [ts|r vs];
    cbn [hash_free_def inst_def contains is_hash orb] in *; [apply hash_insts; assumption|].
  induction vs as [|x vs IHv]; cbn [map existsb forallb] in *; [reflexivity|]. apply andb_true_iff in Hd. destruct Hd as [H1 H2].
  cbn [snd]. rewrite (hash_insts _ _ IH H1). apply IHv, H2.
Qed.

Lemma recursive_unambiguous ch defs k n1 n2 v1 v2 b1 s : (forall j, hash_free_def (defs j) = true) ->
  wt (unroll defs n1 k) v1 -> wt (unroll defs n2 k) v2 -> lossless v1 = true -> lossless v2 = true ->
  Appends (encode ch (unroll defs n1 k) v1) b1 (Ok tt) -> Appends (encode ch (unroll defs n2 k) v2) (b1 ++ s) (Ok tt) ->
  s = [] /\ erase v1 = erase v2.
Proof.
  intros Hh H1 H2 L1 L2 A1 A2. set (m := Nat.max n1 n2).
  assert (M1 : n1 <= m) by apply Nat.le_max_l. assert (M2 : n2 <= m) by apply Nat.le_max_r.
  apply (@C17_equal_lemma ch (unroll defs m k) v1 v2 b1 s); try assumption.
  - apply (@depth_encode _ _ _ _ _ H1 M1).
  - apply (@depth_encode _ _ _ _ _ H2 M2).
  - apply hash_unroll, Hh.
  - apply (@appends_more _ _ _ _ _ _ _ _ H1 A1 M1).
  - apply (@appends_more _ _ _ _ _ _ _ _ H2 A2 M2).
Qed.

Lemma depth_bound defs rank top k i : grounded defs rank top -> (forall j, inhabited_def (defs j) = true) -> in_bounds i ->
  depth_suffices defs k (S (length (unread i) * S top + rank k)) i.
Proof.
  intros Hg Hi Hw. apply (@unroll_safe defs rank top Hg Hi _ (S (length (unread i)))).
  - cbn [Nat.mul]. lia.
  - exact Hw.
  - change (unread i) with (rest i). lia.
Qed.
Lemma decode_returns defs rank top k i : grounded defs rank top -> (forall j, inhabited_def (defs j) = true) -> in_bounds i ->
  exists n, forall m, n <= m -> depth_suffices defs k m i /\ decode (unroll defs m k) i = decode (unroll defs n k) i.
Proof.
  intros Hg Hi Hw. exists (S (length (unread i) * S top + rank k)). intros m Hm. pose proof (@depth_bound defs rank top k i Hg Hi Hw) as Hd.
  split; [apply (depth_suffices_more Hd Hm) | apply (depth_decode Hd Hm)].
Qed.

Lemma loop_never_returns n i : ~ depth_suffices loop_defs 0 n i.
Proof.
  intros H. apply H. clear H. assert (E : decode (unroll loop_defs n 0) i = (i, Panic PInfallible)); [|rewrite E; reflexivity].
  induction n as [|n IH]; [reflexivity|]. cbn [unroll loop_defs inst_def map inst decode dec_fields]. unfold dmap, dmap_err, dbind.
  rewrite IH. reflexivity.
Qed.

Fixpoint succ_val (n : nat) : val := match n with O => VEnum 0 [] | S n => VEnum 1 [VWrap (succ_val n)] end.
Definition succ_bytes (n : nat) : list byte := repeat x01 n ++ [x00].

Lemma nat_step n pre post :
  decode (unroll nat_defs (S n) 0) (Input (pre ++ x01 :: post) (length pre)) =
  dmap (VEnum 1) (dec_fields (fun e => DField (into_generic_dec e)) [dmap VWrap (decode (unroll nat_defs n 0))]) (Input ((pre ++ [x01]) ++ post) (length (pre ++ [x01]))).
Proof.
  cbn [unroll nat_defs inst_def map inst decode fst snd]. cbn [discriminants discriminants_from next_discriminant]. unfold dec_enum. cbn [option_map].
  change (0 + 1 <? 2 ^ 128)%Z with true. cbn [option_map]. cbn [dec_int isigned iwidth].
  unfold dec_unsigned, dmap at 1. unfold dbind at 1 2. rewrite dread_into_read.
  rewrite dread_ok.
  - unfold rest. cbn [i_buf i_pos]. rewrite skipn_length_app, app_length. cbn [firstn length]. rewrite <- app_assoc. reflexivity.
  - unfold rest. cbn [i_buf i_pos]. rewrite skipn_length_app. cbn [length]. lia.
  - unfold wf_in. cbn [i_buf i_pos]. rewrite app_length. lia.
Qed.

Lemma nat_deep n : forall pre post, exists i',
  decode (unroll nat_defs n 0) (Input (pre ++ succ_bytes n ++ post) (length pre)) = (i', Panic PInfallible).
Proof.
  induction n as [|n IH]; intros pre post; [eexists; reflexivity|].
  unfold succ_bytes. cbn [repeat app]. rewrite nat_step. destruct (IH (pre ++ [x01]) post) as (i' & H). exists i'.
  unfold succ_bytes in H. cbn [dec_fields]. unfold dmap, dmap_err, dbind. rewrite H. reflexivity.
Qed.
Lemma nat_enough n : forall pre post,
  decode (unroll nat_defs (S n) 0) (Input (pre ++ succ_bytes n ++ post) (length pre)) =
  (Input (pre ++ succ_bytes n ++ post) (length pre + length (succ_bytes n)), Ok (succ_val n)).
Proof.
  induction n as [|n IH]; intros pre post.
  - assert (H : Yields (decode (unroll nat_defs 1 0)) [x00] (VEnum 0 [])) by (apply yields_by_run; vm_compute; reflexivity). apply H.
  - unfold succ_bytes in *. cbn [repeat app]. rewrite nat_step. cbn [dec_fields]. unfold dmap, dmap_err, dbind. rewrite IH.
    unfold dok. cbn [length succ_val]. rewrite !app_length, <- !app_assoc. cbn [length app]. f_equal. f_equal. lia.
Qed.
Lemma depth_unbounded n : exists bs v, length bs = S n /\ ~ depth_suffices nat_defs 0 n (input_new bs) /\
  decode (unroll nat_defs (S n) 0) (input_new bs) = (Input bs (S n), Ok v).
Proof.
  exists (succ_bytes n), (succ_val n). assert (Hl : length (succ_bytes n) = S n) by (unfold succ_bytes; rewrite app_length, repeat_length; cbn [length]; lia).
  split; [exact Hl|]. pose proof (nat_deep n [] []) as (i' & H1). pose proof (nat_enough n [] []) as H2.
  cbn [app length] in *. rewrite app_nil_r in *. cbn [Nat.add] in H2. rewrite Hl in H2. split; [|exact H2].
  intros H. apply H. unfold input_new. rewrite H1. reflexivity.
Qed.

Definition tags_val : val := VTuple [VSet [VInt 1; VInt 0; VInt 5]; VSeq []].
Lemma tags_lost : exists bs, forall m, 2 <= m ->
  wt (unroll tags_defs m 0) tags_val /\ Appends (encode true (unroll tags_defs m 0) tags_val) bs (Ok tt) /\
  forall v, Yields (decode (unroll tags_defs m 0)) bs v -> erase v <> erase tags_val.
Proof.
  exists [x01; x00; x05; x00; x00]. intros m Hm.
  assert (Hw : wt (unroll tags_defs 2 0) tags_val).
  { cbn. split; [|split; [constructor | exact I]]. split; [nodup|]. repeat constructor; vm_compute; congruence. }
  split; [apply (@depth_encode _ _ _ _ _ Hw Hm)|]. split.
  - apply (fun H => @appends_more _ _ _ _ _ _ _ _ Hw H Hm). apply (appends_by_run true 9 _ _); vm_compute; reflexivity.
  - intros v Hy. assert (H2 : Yields (decode (unroll tags_defs 2 0)) [x01; x00; x05; x00; x00] (VTuple [VSet [VInt 5]; VSeq []])) by
      (apply yields_by_run; vm_compute; reflexivity).
    pose proof (@yields_run _ _ _ (@yields_more _ _ _ _ _ _ H2 Hm)) as E1. pose proof (@yields_run _ _ _ Hy) as E2. rewrite E1 in E2. injection E2 as <-.
    vm_compute. congruence.
Qed.
