(* C92-C95: recursive types. *)
From Coq Require Import Lia.
From Verif Require Import Base Streams Types Traits Encode Decode Spec SpecCalls SpecDecode SpecValues ComputeFacts Recursive SpecRecursive SpecPlain RecursiveLemmas PlainProofs.
Set Implicit Arguments.

(* C92: how deep one looks into a recursive definition makes no difference: a value and its encoding stay what they are, and so does every
   result of decoding, once the depth suffices. *)
Theorem C92_encode_depth : forall defs k n m v, wt (unroll defs n k) v -> n <= m ->
  wt (unroll defs m k) v /\ forall checks o, encode checks (unroll defs m k) v o = encode checks (unroll defs n k) v o.
Proof. exact depth_encode. Qed.
Print Assumptions C92_encode_depth.

Theorem C92_decode_depth : forall defs k n m i, depth_suffices defs k n i -> n <= m ->
  decode (unroll defs m k) i = decode (unroll defs n k) i.
Proof. exact depth_decode. Qed.
Print Assumptions C92_decode_depth.

(* A definition that mentions none is the struct or enum that it says, whatever the others are. *)
Theorem C92_plain : forall defs n k,
  (forall ts, defs k = RStruct (map plain_type ts) -> unroll defs (S n) k = TStruct ts) /\
  (forall r vs, defs k = REnum r (map (fun x => (fst x, map plain_type (snd x))) vs) -> unroll defs (S n) k = TEnum r vs).
Proof. exact C92_plain_lemma. Qed.
Print Assumptions C92_plain.
Example C92_plain_case :
  map plain_type [TVec (THashMap (TInt U8) TString); TResult TBool TUnit] = [RVec (RHashMap (RConst (TInt U8)) (RConst TString)); RConst (TResult TBool TUnit)].
Proof. reflexivity. Qed.

Definition two_items : val := VEnum 1 [VInt 7; VWrap (VEnum 1 [VInt 8; VWrap (VEnum 0 [])])].
Example C92_case : wt (unroll list_defs 3 0) two_items /\ ~ wt (unroll list_defs 2 0) two_items /\
  Appends (encode true (unroll list_defs 3 0) two_items) [x01; x07; x01; x08; x00] (Ok tt) /\
  decode (unroll list_defs 3 0) (input_new [x01; x07; x01; x08; x00; xff]) = (Input [x01; x07; x01; x08; x00; xff] 5, Ok two_items).
Proof.
  split; [|split; [|split]].
  - assert (Hn : NoDup [0%Z; 1%Z]) by (repeat constructor; [intros [H|[]]; discriminate | intros []]).
    assert (Hi : Forall (in_ity U8) [0%Z; 1%Z]) by (repeat constructor; vm_compute; congruence).
    cbn. split; [split; assumption|]. split; [vm_compute; split; congruence|]. split; [|exact I].
    split; [split; assumption|]. split; [vm_compute; split; congruence|]. split; [|exact I]. repeat split; assumption.
  - cbn. tauto.
  - apply (appends_by_run true 9 _ _); vm_compute; reflexivity.
  - vm_compute. reflexivity.
Qed.

(* C93: encoding a value of a recursive type and decoding gives an equal value, and encodings are told apart, at any depth of either value. As in
   C13 and C17, hash collections and the values that lose something are excluded. *)
Theorem C93_recursive_round_trip_partial : forall checks defs k n v o o' bs,
  wt (unroll defs n k) v -> RoundTrips (unroll defs n k) v -> lossless v = true ->
  output_position o <= output_capacity o -> encode checks (unroll defs n k) v o = (o', Ok tt) -> output_as_slice o' = output_as_slice o ++ bs ->
  exists v', erase v' = erase v /\
    forall m, n <= m -> encode checks (unroll defs m k) v o = (o', Ok tt) /\ Yields (decode (unroll defs m k)) bs v'.
Proof. exact recursive_round_trip. Qed.
Print Assumptions C93_recursive_round_trip_partial.

Theorem C93_recursive_unambiguous_partial : forall checks defs k n1 n2 v1 v2 b1 s, (forall j, hash_free_def (defs j) = true) ->
  wt (unroll defs n1 k) v1 -> wt (unroll defs n2 k) v2 -> lossless v1 = true -> lossless v2 = true ->
  Appends (encode checks (unroll defs n1 k) v1) b1 (Ok tt) -> Appends (encode checks (unroll defs n2 k) v2) (b1 ++ s) (Ok tt) ->
  s = [] /\ erase v1 = erase v2.
Proof. exact recursive_unambiguous. Qed.
Print Assumptions C93_recursive_unambiguous_partial.

Theorem C93_recursive_round_trip_refuted : exists bs, forall m, 2 <= m ->
  wt (unroll tags_defs m 0) tags_val /\ Appends (encode true (unroll tags_defs m 0) tags_val) bs (Ok tt) /\
  forall v, Yields (decode (unroll tags_defs m 0)) bs v -> erase v <> erase tags_val.
Proof. exact tags_lost. Qed.
Print Assumptions C93_recursive_round_trip_refuted.

(* a directory with a file and an empty directory *)
Definition one_dir : val :=
  VTuple [VTuple [VStr [x61]]; VSeq [VEnum 0 [VInt 5]; VEnum 1 [VWrap (VTuple [VTuple [VStr []]; VSeq []])]]].
Example C93_case : wt (unroll dir_defs 4 0) one_dir /\ RoundTrips (unroll dir_defs 4 0) one_dir /\ lossless one_dir = true /\
  (forall j, hash_free_def (dir_defs j) = true) /\
  Appends (encode true (unroll dir_defs 4 0) one_dir) [x01; x00; x61; x02; x00; x00; x05; x00; x01; x00; x00; x00; x00] (Ok tt).
Proof.
  split; [|split; [|split; [|split]]].
  - cbn. split; [split; [exists [97%Z]; split; [repeat constructor | reflexivity] | exact I]|]. split; [|exact I].
    assert (Hn : NoDup [0%Z; 1%Z]) by (repeat constructor; [intros [H|[]]; discriminate | intros []]).
    assert (Hi : Forall (in_ity U8) [0%Z; 1%Z]) by (repeat constructor; vm_compute; congruence).
    constructor; [|constructor; [|constructor]].
    + split; [split; assumption|]. split; [vm_compute; split; congruence | exact I].
    + split; [split; assumption|]. split; [|exact I]. split; [|split; [constructor | exact I]].
      split; [exists []; split; [constructor | reflexivity] | exact I].
  - cbn. repeat constructor.
  - reflexivity.
  - intros [|[|j]]; reflexivity.
  - apply (appends_by_run true 20 _ _); vm_compute; reflexivity.
Qed.

(* C94: decoding a recursive type comes to an end, provided that every cycle of definitions reads an octet; `struct Loop(Box<Loop>)` has a cycle
   that reads none, and calls itself for ever. *)
Theorem C94_decode_returns_partial : forall defs rank top k i, grounded defs rank top -> (forall j, inhabited_def (defs j) = true) -> in_bounds i ->
  exists n, forall m, n <= m -> depth_suffices defs k m i /\ decode (unroll defs m k) i = decode (unroll defs n k) i.
Proof. exact decode_returns. Qed.
Print Assumptions C94_decode_returns_partial.

Theorem C94_decode_returns_refuted : forall n i, ~ depth_suffices loop_defs 0 n i.
Proof. exact loop_never_returns. Qed.
Print Assumptions C94_decode_returns_refuted.

Example C94_case : grounded dir_defs (fun k => match k with O => 1 | _ => 0 end) 1 /\ (forall j, inhabited_def (dir_defs j) = true) /\
  ~ depth_suffices dir_defs 0 3 (input_new [x01; x00; x61; x01; x00; x01; x00; x00; x00; x00]) /\
  depth_suffices dir_defs 0 4 (input_new [x01; x00; x61; x01; x00; x01; x00; x00; x00; x00]).
Proof.
  split; [|split; [|split]].
  - intros [|[|k]]; cbn; split; try lia; intros j; try contradiction. intros [<-|[]]. lia.
  - intros [|[|j]]; reflexivity.
  - intros H. apply H. vm_compute. reflexivity.
  - vm_compute. discriminate.
Qed.

(* C95: the nesting of calls is limited by the octets of the input, but by nothing else: there is no limit for the type, and a long input makes
   the calls nest as deep as it is long. *)
Theorem C95_depth_partial : forall defs rank top k i, grounded defs rank top -> (forall j, inhabited_def (defs j) = true) -> in_bounds i ->
  depth_suffices defs k (S (length (unread i) * S top + rank k)) i.
Proof. exact depth_bound. Qed.
Print Assumptions C95_depth_partial.

Theorem C95_depth_refuted : forall n, exists bs v, length bs = S n /\ ~ depth_suffices nat_defs 0 n (input_new bs) /\
  decode (unroll nat_defs (S n) 0) (input_new bs) = (Input bs (S n), Ok v).
Proof. exact depth_unbounded. Qed.
Print Assumptions C95_depth_refuted.

Example C95_case : grounded nat_defs (fun _ => 0) 0 /\ (forall j, inhabited_def (nat_defs j) = true) /\
  ~ depth_suffices nat_defs 0 4 (input_new [x01; x01; x01; x01; x00]) /\ depth_suffices nat_defs 0 5 (input_new [x01; x01; x01; x01; x00]).
Proof.
  split; [|split; [|split]].
  - intros k. cbn. split; [lia | contradiction].
  - reflexivity.
  - intros H. apply H. vm_compute. reflexivity.
  - vm_compute. discriminate.
Qed.
