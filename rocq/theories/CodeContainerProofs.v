(* C56, C63: how SizedSlice and SizedStr are encoded and decoded, of the containers themselves. *)
From Coq Require Import Lia.
From Verif Require Import Base BaseFacts Streams Utf8 Utf8Facts Types Encode Decode DecodeFacts Sized Spec SpecCalls SpecDecode SpecValues
  EncodeProofs WireFacts RoundTrip AcceptFacts DecodeProofs ValueProofs Mem SizedSlice SizedIter SizedStr SpecContainers SizedSliceProofs ContainerProofs SizedStrProofs ComputeFacts.

Local Ltac run n := apply (@appends_by_run _ n); [vm_compute; reflexivity | reflexivity].

Lemma C56_decode_lemma : forall t n i i' r, ss_decode (decode t) n i = (i', r) ->
  match r with
  | Ok s => exists vs, ss_as_slice s = Done vs /\ decode (TSizedSlice t n) i = (i', Ok (VSeq vs))
  | Err e => decode (TSizedSlice t n) i = (i', Err e)
  | Panic p => decode (TSizedSlice t n) i = (i', Panic p)
  end.
Proof.
  intros t n i i' r H. destruct r as [s|e|p].
  - destruct (@ss_decode_shape _ _ _ _ _ _ H) as (i1 & len & items & H1 & Hl & H2 & Hs). exists (firstn (Z.to_nat len) items).
    split; [exact (shape_slice Hs)|]. cbn [decode]. unfold dec_sized_slice, dbind. rewrite H1.
    replace (n <? Z.to_nat len) with false by (symmetry; apply Nat.ltb_ge; exact Hl). unfold dmap, dbind. rewrite H2. reflexivity.
  - unfold ss_decode in H. cbn [decode]. unfold dec_sized_slice, dbind in *. destruct (dec_usize i) as [i1 [len|e1|p1]]; [|injection H as -> ->; reflexivity|discriminate].
    destruct (n <? Z.to_nat len); [injection H as <- <-; reflexivity|]. unfold dmap, dbind in *.
    destruct (dec_cells (decode t) (uninit val n) 0 i1) as [i2 r2] eqn:E. destruct r2 as [b|e2|p2]; try discriminate. injection H as <- <-.
    destruct (@dec_cells_fail _ _ _ _ _ _ _ E ltac:(discriminate)) as (r' & -> & Hr). destruct r'; [contradiction| |contradiction]. subst. reflexivity.
  - unfold ss_decode in H. cbn [decode]. unfold dec_sized_slice, dbind in *. destruct (dec_usize i) as [i1 [len|e1|p1]]; [|discriminate|injection H as -> ->; reflexivity].
    destruct (n <? Z.to_nat len); [discriminate|]. unfold dmap, dbind in *.
    destruct (dec_cells (decode t) (uninit val n) 0 i1) as [i2 r2] eqn:E. destruct r2 as [b|e2|p2]; try discriminate. injection H as <- <-.
    destruct (@dec_cells_fail _ _ _ _ _ _ _ E ltac:(discriminate)) as (r' & -> & Hr). destruct r'; [contradiction|contradiction|]. subst. reflexivity.
Qed.

Lemma C56_encode_lemma : forall checks t n m s vs, Reachable n s -> ss_as_slice s = Done vs ->
  exists e, ss_encode (encode checks t) s = Done e /\ (forall o, e o = encode checks (TSlice t) (VSeq vs) o) /\
    (length vs <= m -> forall o, e o = encode checks (TSizedSlice t m) (VSeq vs) o).
Proof.
  intros checks t n m s vs _ H. unfold ss_encode. rewrite H. cbn [omap obind]. eexists. split; [reflexivity|]. split; reflexivity.
Qed.

Lemma items_yield t vs bss : forall i, Forall2 (fun v b => Yields (decode t) b v) vs bss -> Parses (dec_items (decode t) (length vs) i) (concat bss) vs.
Proof.
  intros i H. revert i. induction H as [|v b vs bss Hv _ IH]; intros i; cbn [length concat].
  - intros pre post. cbn. rewrite Nat.add_0_r. reflexivity.
  - apply P_items_cons; [exact Hv | apply IH].
Qed.

Lemma wire_pieces ch t vs bs : WireItems ch t vs bs -> Forall (wt t) vs -> Forall (RoundTrips t) vs ->
  exists bss, bs = concat bss /\ Forall2 (fun v b => Yields (decode t) b v) (map norm vs) bss.
Proof.
  revert bs. induction vs as [|v vs IH]; intros bs H Hw Hr; inversion H; subst.
  - exists []. split; [reflexivity | constructor].
  - inversion Hw; subst. inversion Hr; subst. match goal with G : WireItems _ _ vs ?y |- _ => destruct (IH y G) as (bss & -> & Hb); [assumption|assumption|] end.
    eexists (_ :: bss). split; [reflexivity|]. cbn [map]. constructor; [|exact Hb]. eapply round_trip; eassumption.
Qed.

Lemma C56_lemma : forall checks t n vs bs ws wss, wt (TSlice t) (VSeq vs) -> RoundTrips (TVec t) (VSeq vs) ->
  Appends (encode checks (TSlice t) (VSeq vs)) bs (Ok tt) ->
  Forall2 (fun w b => Yields (decode t) b w) ws wss -> length vs + length ws = n ->
  forall pre post, exists s,
    ss_decode (decode t) n (Input (pre ++ (bs ++ concat wss) ++ post) (length pre)) =
      (Input (pre ++ (bs ++ concat wss) ++ post) (length pre + length (bs ++ concat wss)), Ok s) /\
    ss_as_slice s = Done (map norm vs) /\ ss_capacity s = n.
Proof.
  intros checks t n vs bs ws wss Hw Hr Ha Hws Hn pre post. apply appends_wire in Ha; [|exact Hw]. inversion Ha; subst.
  match goal with H : WireItems _ _ _ _ |- _ => destruct (wire_pieces _ _ _ _ H Hw Hr) as (bss & -> & Hb) end.
  assert (Hy : Yields (decode (TSizedSlice t (length vs + length ws))) ((lb ++ concat bss) ++ concat wss) (VSeq (map norm vs))).
  { rewrite <- app_assoc, <- concat_app. cbn [decode]. unfold dec_sized_slice. eapply P_bind; [apply P_len; eassumption|]. rewrite Nat2Z.id.
    replace (length vs + length ws <? length vs) with false by (symmetry; apply Nat.ltb_ge; lia).
    replace (VSeq (map norm vs)) with (VSeq (firstn (length vs) (map norm vs ++ ws))).
    - apply (P_map (fun l => VSeq (firstn (length vs) l))). replace (length vs + length ws) with (length (map norm vs ++ ws)) by (rewrite app_length, map_length; reflexivity).
      apply items_yield. apply Forall2_app; assumption.
    - f_equal. rewrite <- (map_length norm vs), firstn_app, firstn_all, Nat.sub_diag, firstn_O, app_nil_r. reflexivity. }
  specialize (Hy pre post).
  destruct (ss_decode (decode t) (length vs + length ws) (Input (pre ++ ((lb ++ concat bss) ++ concat wss) ++ post) (length pre))) as [i' r] eqn:E.
  pose proof (C56_decode_lemma _ _ _ _ _ E) as H. destruct r as [s|e|p].
  - destruct H as (us & G1 & G2). rewrite Hy in G2. injection G2 as <- <-. exists s. split; [reflexivity|]. split; [exact G1|].
    destruct (@ss_decode_shape _ _ _ _ _ _ E) as (i9 & len9 & items9 & _ & _ & _ & Hs). apply (shape_len Hs).
  - rewrite Hy in H. discriminate.
  - rewrite Hy in H. discriminate.
Qed.

Lemma C56_long_lemma : forall checks t n vs bs, wt (TSlice t) (VSeq vs) -> Appends (encode checks (TSlice t) (VSeq vs)) bs (Ok tt) ->
  n < length vs -> exists lb rest, bs = lb ++ rest /\ length lb = 2 /\ Refuses (ss_decode (decode t) n) lb (DLen (DLength n (length vs))).
Proof.
  intros checks t n vs bs Hw Ha Hn. apply appends_wire in Ha; [|exact Hw]. inversion Ha; subst.
  match goal with H : WireLen _ lb |- _ => rename H into Hl end. eexists lb, _. split; [reflexivity|].
  split; [destruct Hl as (_ & Hl & _); exact Hl|]. unfold ss_decode. eapply R_bind_last; [apply P_len; exact Hl|]. rewrite Nat2Z.id.
  replace (n <? length vs) with true by (symmetry; apply Nat.ltb_lt; exact Hn). apply R_error.
Qed.

(* one that is shorter is refused, or read beyond its end *)
Lemma C56_refutation :
  (exists s bs i', Reachable 2 s /\ ss_as_slice s = Done [VInt 7] /\
     Appends (encode true (TSizedSlice (TInt U8) 2) (VSeq [VInt 7])) bs (Ok tt) /\
     ss_decode (decode (TInt U8)) 2 (input_new bs) = (i', Panic (PInput (StreamError 3 3 1)))) /\
  (exists bs i' s, Appends (encode true (TSizedSlice (TInt U8) 2) (VSeq [VInt 7])) bs (Ok tt) /\
     ss_decode (decode (TInt U8)) 2 (input_new (bs ++ [x2a; x2b])) = (i', Ok s) /\ input_position i' = length bs + 1 /\ ss_as_slice s = Done [VInt 7]) /\
  (exists bs i' e, Appends (encode true (TSizedSlice (TNonZero U8) 2) (VSeq [VInt 7])) bs (Ok tt) /\
     ss_decode (decode (TNonZero U8)) 2 (input_new (bs ++ [x00])) = (i', Err e)).
Proof.
  split; [|split].
  - exists (fst (ss_from_iter list_next 2 [VInt 7])), [x01; x00; x07]. eexists. split; [eapply (@R_from_iter _ _ _ list_next [VInt 7]); reflexivity|].
    split; [reflexivity|]. split; [run 9%nat|]. vm_compute. reflexivity.
  - exists [x01; x00; x07]. eexists. eexists. split; [run 9%nat|]. split; [vm_compute; reflexivity|]. split; reflexivity.
  - exists [x01; x00; x07]. eexists. eexists. split; [run 9%nat|]. vm_compute. reflexivity.
Qed.

Lemma C63_encode_lemma : forall checks n m w s x, StrReachable n w s -> st_as_str s = Done x ->
  exists e, st_encode s = Done e /\ (forall o, e o = encode checks TStr (VStr x) o) /\ (forall o, e o = encode checks (TSizedStr m) (VStr x) o).
Proof. intros checks n m w s x _ H. unfold st_encode. rewrite H. cbn [omap obind]. eexists. split; [reflexivity|]. split; reflexivity. Qed.

Lemma C63_lemma : forall checks n x bs, valid_utf8 x -> Appends (encode checks TStr (VStr x)) bs (Ok tt) -> length x <= n ->
  forall pre post, exists s, st_decode n (Input (pre ++ bs ++ post) (length pre)) = (Input (pre ++ bs ++ post) (length pre + length bs), Ok (Done s)) /\
    st_as_str s = Done x /\ st_capacity s = n.
Proof.
  intros checks n x bs Hv Ha Hn pre post.
  assert (Hy : Yields (decode (TSizedStr n)) bs (VStr x)).
  { apply (@C33_lemma checks (TSizedStr n) TStr (fun v => v) (VStr x) bs); [constructor | exact Hv | cbn; exact I | exact Hn | exact Ha]. }
  specialize (Hy pre post). destruct (st_decode n (Input (pre ++ bs ++ post) (length pre))) as [i' r] eqn:E.
  pose proof (C63_decode_lemma _ _ _ _ E) as H. destruct r as [o|e|p].
  - destruct H as (s & y & -> & H1 & H2). rewrite Hy in H2. injection H2 as <- <-. exists s. split; [reflexivity|]. split; [exact H1|].
    assert (R : StrReachable n true s) by (eapply SR_decode; exact E). destruct (C60_lemma _ _ _ R) as (z & _ & _ & _ & _ & _ & H). exact H.
  - rewrite Hy in H. discriminate.
  - rewrite Hy in H. discriminate.
Qed.

Lemma C63_long_lemma : forall checks n x bs, valid_utf8 x -> Appends (encode checks TStr (VStr x)) bs (Ok tt) -> n < length x ->
  Refuses (st_decode n) bs (DLen (DLength n (length x))).
Proof.
  intros checks n x bs Hv Ha Hn pre post. pose proof (@C33_long_lemma checks n x bs Hv Hn Ha pre post) as Hy.
  destruct (st_decode n (Input (pre ++ bs ++ post) (length pre))) as [i' r] eqn:E. pose proof (C63_decode_lemma _ _ _ _ E) as H. destruct r as [o|e|p].
  - destruct H as (s & y & _ & _ & H2). rewrite Hy in H2. discriminate.
  - rewrite Hy in H. injection H as <- <-. reflexivity.
  - rewrite Hy in H. discriminate.
Qed.

(* and no more than the encoding of the text it holds is accepted *)
Lemma C63_exact_lemma : forall n i i' s, in_bounds i -> st_decode n i = (i', Ok (Done s)) ->
  exists x bs post, st_as_str s = Done x /\ (forall checks, Appends (encode checks TStr (VStr x)) bs (Ok tt)) /\
    unread i = bs ++ post /\ i' = Input (i_buf i) (input_position i + length bs).
Proof.
  intros n i i' s Hb H. pose proof (C63_decode_lemma _ _ _ _ H) as (s' & x & Hs & Hx & Hd). injection Hs as <-.
  destruct (@decode_exact (TSizedStr n) i i' (VStr x) I Hb Hd) as (bs & post & H1 & H2 & H3). exists x, bs, post.
  split; [exact Hx|]. split; [|split; [exact H1 | exact H2]]. intros checks. inversion H3; subst.
  apply succeeds_appends, wire_succeeds; [constructor; assumption | assumption].
Qed.
