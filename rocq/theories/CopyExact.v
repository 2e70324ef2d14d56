(* The exact forms of C45, C54 and C97. *)
From Coq Require Import Lia.
From Verif Require Import Base Streams Types Encode Decode Slot Spec SpecCalls Mem SizedSlice SpecContainers EncodeProofs EncodeFacts SizedSliceProofs ContainerProofs SizedTextProofs SlotProofs.
Set Implicit Arguments.

Lemma C45_exact_lemma : forall checks t s v s' e bs, slot_length s <= slot_capacity s -> slot_write checks t s v = (s', Err e) ->
  Appends (encode checks t v) bs (Err e) ->
  (slot_as_slice s' = slot_as_slice s <-> firstn (slot_length s) bs = firstn (length bs) (slot_as_slice s)).
Proof.
  intros ch t s v s' e bs Hi H Ha. destruct (@C45_lemma _ _ _ _ _ _ H ltac:(discriminate)) as (Hl & _ & bs' & Hb & Hs & Hf).
  specialize (Hf e eq_refl).
  destruct (@appends_unique _ _ _ _ _ (encode_has_trace ch t v) Hf Ha) as [-> _].
  unfold slot_as_slice, slot_length, slot_capacity in *. rewrite Hs, Hl, firstn_app, firstn_firstn.
  assert (E : firstn (s_len s) (s_buf s) = firstn (Nat.min (length bs) (s_len s)) (s_buf s) ++ firstn (s_len s - length bs) (skipn (length bs) (s_buf s))).
  { rewrite <- (firstn_skipn (length bs) (s_buf s)) at 1. rewrite firstn_app, firstn_firstn, firstn_length_le by exact Hb. f_equal. f_equal. lia. }
  rewrite E at 1. split; [apply app_inv_tail | intros ->; reflexivity].
Qed.

Lemma C97_exact_lemma : forall n A (s : sslice A) data, Reachable n s ->
  ((exists s', ss_copy_from_slice s data = Done s' /\ ss_as_slice s' = Done data /\ ss_capacity s' = n) <-> length data <= n).
Proof.
  intros n A s data Hr. split; [|apply C97_copy_lemma; exact Hr]. intros (s' & E & _). destruct (le_lt_dec (length data) n) as [L|L]; [exact L|].
  rewrite (@C54_refutation n A s data Hr L) in E. discriminate E.
Qed.

Lemma C54_exact_lemma : forall n A (s : sslice A) data, Reachable n s -> ((exists u, ss_copy_from_slice s data = Undefined u) <-> n < length data).
Proof.
  intros n A s data Hr. split.
  - intros (u & E). destruct (le_lt_dec (length data) n) as [L|L]; [|exact L]. destruct (@C97_copy_lemma n A s data Hr L) as (s' & E' & _). congruence.
  - intros L. eexists. exact (@C54_refutation n A s data Hr L).
Qed.
