(* Proofs of C05, C12, C29, C30. *)
From Coq Require Import Lia ZifyBool ZifyNat ZifyN.
From Verif Require Import Base BaseFacts Streams StreamFacts Utf8 Types Traits Encode Decode TypesFacts Spec SpecCalls SpecDecode SpecValues
  EncodeFacts WireFacts RoundTrip EncodeProofs AcceptFacts DecodeProofs.
Set Implicit Arguments.
Local Open Scope Z_scope.

Lemma le_repr_bits w z bs : le_repr w z bs -> holds_bits z bs.
Proof.
  intros [_ H] k j b Hk Hj. rewrite (H _ _ Hk). change 256 with (2 ^ 8).
  rewrite Z.mod_pow2_bits_low by lia. rewrite Z.div_pow2_bits by lia. f_equal. lia.
Qed.

Lemma numeric_wire ch t mk w z : Numeric t mk w -> Wire ch t (mk z) (le_bytes w z).
Proof.
  intros H. pose proof (le_repr_le_bytes w z) as Hr.
  destruct H; repeat constructor; try assumption; apply Hr.
Qed.

Lemma numeric_rt t mk w z : Numeric t mk w -> RoundTrips t (mk z) /\ norm (mk z) = mk z.
Proof. destruct 1; split; reflexivity || exact I. Qed.

Lemma C05_lemma ch t mk w z : Numeric t mk w -> wt t (mk z) -> exists bs,
  length bs = w /\ holds_bits z bs /\ Appends (encode ch t (mk z)) bs (Ok tt) /\ Yields (decode t) bs (mk z).
Proof.
  intros Hn Hv. exists (le_bytes w z). split; [apply le_bytes_length|].
  pose proof (@numeric_wire ch t mk w z Hn) as Hw. destruct (numeric_rt z Hn) as [Hr Hm].
  repeat split.
  - apply (le_repr_bits (le_repr_le_bytes w z)).
  - apply succeeds_appends, wire_succeeds; assumption.
  - rewrite <- Hm. apply (@round_trip ch t (mk z)); assumption.
Qed.

Lemma bits_determine w z z' bs : holds_bits z bs -> length bs = w -> holds_bits z' bs ->
  z mod 2 ^ (8 * Z.of_nat w) = z' mod 2 ^ (8 * Z.of_nat w).
Proof.
  intros H Hl H'. apply Z.bits_inj'. intros n Hn.
  destruct (Z.ltb_spec n (8 * Z.of_nat w)) as [Hlt|Hge].
  - rewrite !Z.mod_pow2_bits_low by lia.
    destruct (nth_error bs (Z.to_nat (n / 8))) as [b|] eqn:Eb.
    + specialize (H _ (n mod 8) b Eb ltac:(lia)). specialize (H' _ (n mod 8) b Eb ltac:(lia)).
      replace (8 * Z.of_nat (Z.to_nat (n / 8)) + n mod 8) with n in * by lia. congruence.
    + apply nth_error_None in Eb. lia.
  - rewrite !Z.mod_pow2_bits_high by lia. reflexivity.
Qed.

Lemma C12_lemma ch z : in_ity Usize z ->
  (0 <= z <= 65535 -> exists bs, length bs = 2%nat /\ holds_bits z bs /\
     Appends (encode ch (TInt Usize) (VInt z)) bs (Ok tt) /\ Yields (decode (TInt Usize)) bs (VInt z)) /\
  (65535 < z -> forall o, encode ch (TInt Usize) (VInt z) o = (o, Err (EUsize z))).
Proof.
  intros Hz. split; intros H.
  - exists (le_bytes 2 z). split; [apply le_bytes_length|].
    assert (Hw : Wire ch (TInt Usize) (VInt z) (le_bytes 2 z)) by (constructor; constructor; [lia | apply le_repr_le_bytes]).
    repeat split.
    + apply (le_repr_bits (le_repr_le_bytes 2 z)).
    + apply succeeds_appends, wire_succeeds; assumption.
    + apply (@round_trip ch _ (VInt z)); [exact Hw | exact Hz | exact I].
  - intros o. cbn [encode enc_int]. unfold enc_usize. replace ((0 <=? z) && (z <? 65536)) with false by lia. reflexivity.
Qed.

Lemma C12_isize_lemma ch z : in_ity Isize z ->
  (-32768 <= z <= 32767 -> exists bs, length bs = 2%nat /\ holds_bits z bs /\
     Appends (encode ch (TInt Isize) (VInt z)) bs (Ok tt) /\ Yields (decode (TInt Isize)) bs (VInt z)) /\
  (z < -32768 \/ 32767 < z -> forall o, encode ch (TInt Isize) (VInt z) o = (o, Err (EIsize z))).
Proof.
  intros Hz. split; intros H.
  - exists (le_bytes 2 z). split; [apply le_bytes_length|].
    assert (Hw : Wire ch (TInt Isize) (VInt z) (le_bytes 2 z)) by (constructor; constructor; [lia | apply le_repr_le_bytes]).
    repeat split.
    + apply (le_repr_bits (le_repr_le_bytes 2 z)).
    + apply succeeds_appends, wire_succeeds; assumption.
    + apply (@round_trip ch _ (VInt z)); [exact Hw | exact Hz | exact I].
  - intros o. cbn [encode enc_int]. unfold enc_isize. replace ((-32768 <=? z) && (z <? 32768)) with false by lia. reflexivity.
Qed.

Lemma C12_decode_lemma a b :
  (exists z, 0 <= z <= 65535 /\ holds_bits z [a; b] /\ Yields (decode (TInt Usize)) [a; b] (VInt z)) /\
  (exists z, -32768 <= z <= 32767 /\ holds_bits z [a; b] /\ Yields (decode (TInt Isize)) [a; b] (VInt z)).
Proof.
  split.
  - destruct (int_yields Usize [a; b] eq_refl) as (z & _ & Hw & Hp). exists z. inversion Hw; subst; try congruence.
    split; [assumption|]. split; [apply (le_repr_bits (w := 2)); assumption|]. apply P_map. exact Hp.
  - destruct (int_yields Isize [a; b] eq_refl) as (z & _ & Hw & Hp). exists z. inversion Hw; subst; try congruence.
    split; [assumption|]. split; [apply (le_repr_bits (w := 2)); assumption|]. apply P_map. exact Hp.
Qed.

Lemma C29_lemma ch s n : wt TSystemTime (VTime s n) -> ch = false \/ has_lowest_second (VTime s n) = false ->
  exists q bs,
    Z.abs (time_ns s n - time_ns q 0) < 1000000000 /\ Z.abs (time_ns q 0) <= Z.abs (time_ns s n) /\ (n = 0 -> q = s) /\
    length bs = 8%nat /\ holds_bits q bs /\
    Appends (encode ch TSystemTime (VTime s n)) bs (Ok tt) /\ Yields (decode TSystemTime) bs (VTime q 0).
Proof.
  intros Hv Hc. set (q := Z.quot (time_ns s n) 1000000000). exists q, (le_bytes 8 q).
  assert (Hw : Wire ch TSystemTime (VTime s n) (le_bytes 8 q)).
  { constructor; [|apply le_repr_le_bytes]. cbn [has_lowest_second] in Hc. intros ->. destruct Hc as [Hc|Hc]; [discriminate | lia]. }
  cbn [wt] in Hv. unfold time_ns in *.
  repeat split.
  - unfold q. destruct (Z.ltb_spec (s * 1000000000 + n) 0).
    + rewrite quot_div_neg by lia. lia.
    + rewrite quot_div_pos by lia. lia.
  - unfold q. destruct (Z.ltb_spec (s * 1000000000 + n) 0).
    + rewrite quot_div_neg by lia. lia.
    + rewrite quot_div_pos by lia. lia.
  - intros ->. unfold q. rewrite Z.add_0_r. apply Z.quot_mul. lia.
  - apply (le_repr_bits (le_repr_le_bytes 8 q)).
  - apply succeeds_appends, wire_succeeds; [exact Hw | exact Hv].
  - apply (@round_trip ch _ (VTime s n)); [exact Hw | exact Hv | exact I].
Qed.

Lemma C30_lemma ch :
  (forall o, length o = 4%nat -> Appends (encode ch TIpv4 (VIp4 o)) (rev o) (Ok tt) /\ Yields (decode TIpv4) (rev o) (VIp4 o)) /\
  (forall o, length o = 16%nat -> Appends (encode ch TIpv6 (VIp6 o)) (rev o) (Ok tt) /\ Yields (decode TIpv6) (rev o) (VIp6 o)).
Proof.
  split; intros o Ho; (split; [apply succeeds_appends, wire_succeeds; [constructor; exact Ho | exact Ho]|]).
  - apply (@round_trip ch _ (VIp4 o)); [constructor; exact Ho | exact Ho | exact I].
  - apply (@round_trip ch _ (VIp6 o)); [constructor; exact Ho | exact Ho | exact I].
Qed.

(* in the documented (big-endian) order the octets of an address would be written as they stand *)
Lemma C30_refutation : exists o, length o = 4%nat /\ ~ Appends (encode true TIpv4 (VIp4 o)) o (Ok tt).
Proof.
  exists [x7f; x00; x00; x01]. split; [reflexivity|]. intros H.
  destruct (H (output_new (repeat x00 4)) ltac:(vm_compute; lia) ltac:(vm_compute; lia)) as (o' & He & Hs).
  vm_compute in He. injection He as <-. vm_compute in Hs. discriminate.
Qed.

(* 0.6 s after the epoch is written as second 0, although second 1 is nearer *)
Lemma C29_refutation : exists s n q' bs, wt TSystemTime (VTime s n) /\
  Appends (encode true TSystemTime (VTime s n)) bs (Ok tt) /\
  forall q, holds_bits q bs -> - 2 ^ 63 <= q < 2 ^ 63 ->
  Z.abs (time_ns s n - time_ns q' 0) < Z.abs (time_ns s n - time_ns q 0).
Proof.
  exists 0, 600000000, 1, (le_bytes 8 0). split; [cbn [wt]; lia|]. split.
  - apply succeeds_appends, wire_succeeds; [|cbn [wt]; lia]. constructor; [unfold time_ns; lia|]. apply le_repr_le_bytes.
  - intros q Hq Hr. pose proof (@bits_determine 8 q 0 _ Hq (le_bytes_length 8 0) (le_repr_bits (le_repr_le_bytes 8 0))) as H.
    change (8 * Z.of_nat 8) with 64 in H. unfold time_ns. rewrite Z.mod_0_l in H by lia. assert (q = 0) by lia. subst. lia.
Qed.

Lemma C05_ranges_lemma z :
  (in_ity U8 z <-> 0 <= z <= 255) /\ (in_ity I8 z <-> -128 <= z <= 127) /\
  (in_ity U16 z <-> 0 <= z <= 65535) /\ (in_ity I16 z <-> -32768 <= z <= 32767) /\
  (in_ity U32 z <-> 0 <= z <= 4294967295) /\ (in_ity I32 z <-> -2147483648 <= z <= 2147483647) /\
  (in_ity U64 z <-> 0 <= z <= 18446744073709551615) /\ (in_ity I64 z <-> -9223372036854775808 <= z <= 9223372036854775807) /\
  (in_ity U128 z <-> 0 <= z <= 340282366920938463463374607431768211455) /\
  (in_ity I128 z <-> -170141183460469231731687303715884105728 <= z <= 170141183460469231731687303715884105727) /\
  (in_ity Usize z <-> 0 <= z <= 18446744073709551615) /\ (in_ity Isize z <-> -9223372036854775808 <= z <= 9223372036854775807).
Proof. unfold in_ity. repeat split; intros; cbn in *; lia. Qed.
Lemma C05_widths_lemma t mk w : Numeric t mk w <->
  (exists i, (t = TInt i /\ mk = VInt \/ t = TNonZero i /\ mk = VInt \/ t = TWrap WAtomic (TInt i) /\ mk = (fun z => VWrap (VInt z))) /\
     (In i [U8; I8] /\ w = 1%nat \/ In i [U16; I16] /\ w = 2%nat \/ In i [U32; I32] /\ w = 4%nat \/ In i [U64; I64] /\ w = 8%nat \/
      In i [U128; I128] /\ w = 16%nat)) \/
  (t = TF32 /\ mk = VInt /\ w = 4%nat) \/ (t = TF64 /\ mk = VInt /\ w = 8%nat) \/ (t = TChar /\ mk = VChar /\ w = 4%nat).
Proof.
  split.
  - intros []; try (left; exists i; split; [tauto|]; destruct i; try congruence; cbn; tauto); tauto.
  - intros [(i & Ht & Hw)|[(-> & -> & ->)|[(-> & -> & ->)|(-> & -> & ->)]]]; try constructor.
    assert (w = iwidth i /\ i <> Usize /\ i <> Isize) as (-> & Hu & Hi).
    { repeat (destruct Hw as [Hw|Hw]); destruct Hw as [Hi ->]; cbn in Hi;
        repeat (destruct Hi as [<-|Hi]; [repeat split; discriminate|]); destruct Hi. }
    destruct Ht as [[-> ->]|[[-> ->]|[-> ->]]]; constructor; assumption.
Qed.
