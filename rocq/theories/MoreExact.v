(* C29, C30, C42, C51, C64: exactly when they hold. *)
From Coq Require Import Lia List ZArith.
From Verif Require Import Base Streams Utf8 Types Traits Encode Decode Mem SizedSlice SizedStr Spec SpecCalls SpecDecode SpecDerive SpecContainers SpecValues
  EncodeFacts EncodeProofs DecodeProofs NumberProofs DeriveProofs SizedSliceProofs SizedStrProofs  ContainerProofs SizedStrProofs.
Import ListNotations.

Lemma yields_same t bs v v' : Yields (decode t) bs v -> Yields (decode t) bs v' -> v = v'.
Proof. intros H H'. specialize (H [] []). specialize (H' [] []). rewrite H in H'. now injection H'. Qed.

Lemma C29_exact_lemma checks s n bs q : wt TSystemTime (VTime s n) -> checks = false \/ has_lowest_second (VTime s n) = false ->
  Appends (encode checks TSystemTime (VTime s n)) bs (Ok tt) -> Yields (decode TSystemTime) bs (VTime q 0) ->
  ((forall q', (Z.abs (time_ns s n - time_ns q 0) <= Z.abs (time_ns s n - time_ns q' 0))%Z) <->
   (if (s <? 0)%Z then n = 0 \/ 500000000 <= n else n <= 500000000)%Z).
Proof.
  intros W C A Y. destruct (C29_lemma W C) as (q1 & bs1 & D & B & Z0 & _ & _ & A1 & Y1).
  destruct (appends_unique (encode_has_trace checks TSystemTime (VTime s n)) A A1) as [<- _].
  assert (q1 = q) as -> by (pose proof (yields_same _ _ _ _ Y Y1) as E; now injection E).
  cbn [wt] in W. unfold time_ns in *. split.
  - intro H. destruct (Z.ltb_spec s 0).
    + destruct (Z.eq_dec n 0) as [->|N0]; [now left|right]. specialize (H (q - 1)%Z). lia.
    + specialize (H (q + 1)%Z). lia.
  - intros H q'. destruct (Z.ltb_spec s 0); lia.
Qed.

Lemma C30_exact_lemma checks :
  (forall o, length o = 4 -> (Appends (encode checks TIpv4 (VIp4 o)) o (Ok tt) <-> o = rev o)) /\
  (forall o, length o = 16 -> (Appends (encode checks TIpv6 (VIp6 o)) o (Ok tt) <-> o = rev o)).
Proof.
  destruct (C30_lemma checks) as [F S]. split; intros o L.
  - destruct (F o L) as [A _]. split; intro H; [exact (proj1 (appends_unique (encode_has_trace checks TIpv4 (VIp4 o)) H A))|]. rewrite <- H in A. exact A.
  - destruct (S o L) as [A _]. split; intro H; [exact (proj1 (appends_unique (encode_has_trace checks TIpv6 (VIp6 o)) H A))|]. rewrite <- H in A. exact A.
Qed.

Lemma C42_exact_lemma r d : in_ity r d -> (into_generic_dec (DUnassigned r d) = DGUnassigned (zero_extended r d) <-> (0 <= d)%Z \/ r = I128).
Proof.
  intro I. cbn [into_generic_dec]. split.
  - intro E. injection E as E. destruct (Z_le_dec 0 d) as [L|L]; [now left|right].
    unfold zero_extended, to_u128 in E. destruct r; try reflexivity; exfalso; cbn in I; cbn [iwidth] in E;
      repeat match type of E with context [Z.of_nat ?n] => let k := eval compute in (Z.of_nat n) in change (Z.of_nat n) with k in E end; lia.
  - intros [L| ->]; [exact (@C42_lemma r d I L)|reflexivity].
Qed.

Lemma C51_exact_lemma n A (s : sslice A) items size : Reachable n s -> ss_as_slice s = Done items ->
  (ss_into_boxed_slice size true s = Done items <-> items <> [] /\ (0 < size)%N).
Proof.
  intros R E. split; [|intros [H1 H2]; exact (@C51_into_vec_lemma n A s items size R E H1 H2)].
  intro H. destruct (reachable_shape R) as (items' & Hs). pose proof (shape_unique Hs E) as ->. destruct (shape_len Hs) as (Hl & _ & _). unfold ss_length in Hl.
  unfold ss_into_boxed_slice in H. rewrite Hl in H. destruct (N.eqb_spec (size * N.of_nat (length items')) 0); [discriminate|].
  split; [|lia]. intros ->. cbn in n0. lia.
Qed.

Lemma C64_exact_lemma n w s bs : StrReachable n w s -> st_as_str s = Done bs ->
  (st_into_boxed_str true s = Done bs <-> bs <> []) /\ (st_into_string true s = Done (bs, length bs) <-> bs <> []).
Proof.
  intros R E. split; (split; [|intro H; destruct (@C64_string_lemma n w s bs R E H) as [? ?]; assumption]).
  all: intros H ->; destruct (str_reachable_shape _ _ _ R) as (bs' & Ht); rewrite (as_str_done _ _ _ _ Ht) in E; injection E as ->.
  all: destruct Ht as (Hs & Hv & _); destruct (shape_len Hs) as (Hl & _ & _); unfold ss_length in Hl.
  all: unfold st_into_string, st_into_boxed_str, ss_into_boxed_slice in H; rewrite Hl in H; cbn in H; discriminate.
Qed.
