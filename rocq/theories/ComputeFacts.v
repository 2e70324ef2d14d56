(* Concrete cases by computation: one run settles the call in every context. *)
From Coq Require Import Lia ZifyBool ZifyNat ZifyN.
From Verif Require Import Base BaseFacts Streams StreamFacts Utf8 Types Traits Encode Decode Spec SpecCalls SpecDecode
  EncodeFacts EncodeProofs DecodeFacts DecodeLocal DecodeProofs.
Set Implicit Arguments.

Definition ran_out (r : res eerr unit) : bool := match r with Panic (POutput _) => true | _ => false end.

(* one run into a buffer that is large enough *)
Definition run_encode (ch : bool) (n : nat) (t : ty) (v : val) : list byte * res eerr unit :=
  let (o, r) := encode ch t v (output_new (repeat x00 n)) in (output_as_slice o, r).

Lemma appends_by_run ch n t v bs r : run_encode ch n t v = (bs, r) -> ran_out r = false -> Appends (encode ch t v) bs r.
Proof.
  intros H Hr. unfold run_encode in H. destruct (encode ch t v (output_new (repeat x00 n))) as [o q] eqn:E.
  injection H as <- ->. destruct (encode_has_trace ch t v) as (cs & q & Ht).
  assert (Hwf : wf_out (output_new (repeat x00 n))) by (apply Nat.le_0_l).
  destruct (trace_run Ht Hwf) as [[_ Hx]|(_ & bs & e & Hx & _)]; rewrite E in Hx.
  - injection Hx as -> ->. rewrite append_slice by exact Hwf. cbn [output_new]. apply (traces_appends Ht).
  - injection Hx as _ ->. discriminate.
Qed.

Lemma appends_not ch n t v bs r bs' r' : run_encode ch n t v = (bs, r) -> ran_out r = false -> bs <> bs' \/ r <> r' ->
  ~ Appends (encode ch t v) bs' r'.
Proof.
  intros H Hr Hn Ha. destruct (appends_unique (encode_has_trace ch t v) (appends_by_run ch n t v H Hr) Ha) as [-> ->].
  destruct Hn; congruence.
Qed.

Lemma yields_by_run t bs v : decode t (Input bs 0) = (Input bs (length bs), Ok v) -> Yields (decode t) bs v.
Proof.
  intros H pre post.
  rewrite (@C15_lemma t (Input bs 0) _ _ (Nat.le_0_l _ : in_bounds (Input bs 0)) H); unfold in_bounds, unread, input_position, input_capacity; cbn [i_buf i_pos].
  - rewrite Nat.sub_0_r. reflexivity.
  - congruence.
  - rewrite !app_length. lia.
  - rewrite Nat.sub_0_r, skipn_length_app. cbn [skipn]. rewrite firstn_length_app, firstn_all. reflexivity.
Qed.

Lemma refuses_by_run t bs e : decode t (Input bs 0) = (Input bs (length bs), Err e) -> Refuses (decode t) bs e.
Proof.
  intros H pre post.
  rewrite (@C15_lemma t (Input bs 0) _ _ (Nat.le_0_l _ : in_bounds (Input bs 0)) H); unfold in_bounds, unread, input_position, input_capacity; cbn [i_buf i_pos].
  - rewrite Nat.sub_0_r. reflexivity.
  - congruence.
  - rewrite !app_length. lia.
  - rewrite Nat.sub_0_r, skipn_length_app. cbn [skipn]. rewrite firstn_length_app, firstn_all. reflexivity.
Qed.

(* what a run does not yield *)
Lemma yields_run t bs v : Yields (decode t) bs v -> decode t (Input bs 0) = (Input bs (length bs), Ok v).
Proof. intros H. specialize (H [] []). rewrite app_nil_r in H. exact H. Qed.
