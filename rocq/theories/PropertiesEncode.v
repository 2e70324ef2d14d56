(* C05-C12, C29, C30: encoding. *)
From Coq Require Import Lia.
From Verif Require Import Base Streams Utf8 Types Encode Decode Spec SpecCalls SpecDecode SpecValues
  EncodeProofs ItemProofs CombinedProofs NumberProofs ComputeFacts Samples SampleFacts.

(* C05: a number of [w] octets is written as [w] octets, octet k holding bits 8k .. 8k+7, and read back. [Numeric] lists the types:
   integers, NonZero, atomics, floats (by bit pattern, so every NaN), characters. *)
Theorem C05_numbers : forall checks t mk w z, Numeric t mk w -> wt t (mk z) -> exists bs,
  length bs = w /\ holds_bits z bs /\ Appends (encode checks t (mk z)) bs (Ok tt) /\ Yields (decode t) bs (mk z).
Proof. exact C05_lemma. Qed.
Print Assumptions C05_numbers.

(* The types, their widths and their values, in figures. *)
Theorem C05_ranges : forall z, (
  (in_ity U8 z <-> 0 <= z <= 255) /\ (in_ity I8 z <-> -128 <= z <= 127) /\
  (in_ity U16 z <-> 0 <= z <= 65535) /\ (in_ity I16 z <-> -32768 <= z <= 32767) /\
  (in_ity U32 z <-> 0 <= z <= 4294967295) /\ (in_ity I32 z <-> -2147483648 <= z <= 2147483647) /\
  (in_ity U64 z <-> 0 <= z <= 18446744073709551615) /\ (in_ity I64 z <-> -9223372036854775808 <= z <= 9223372036854775807) /\
  (in_ity U128 z <-> 0 <= z <= 340282366920938463463374607431768211455) /\
  (in_ity I128 z <-> -170141183460469231731687303715884105728 <= z <= 170141183460469231731687303715884105727) /\
  (in_ity Usize z <-> 0 <= z <= 18446744073709551615) /\ (in_ity Isize z <-> -9223372036854775808 <= z <= 9223372036854775807))%Z.
Proof. exact C05_ranges_lemma. Qed.
Print Assumptions C05_ranges.

Theorem C05_widths : forall t mk w, Numeric t mk w <->
  (exists i, (t = TInt i /\ mk = VInt \/ t = TNonZero i /\ mk = VInt \/ t = TWrap WAtomic (TInt i) /\ mk = (fun z => VWrap (VInt z))) /\
     (In i [U8; I8] /\ w = 1%nat \/ In i [U16; I16] /\ w = 2%nat \/ In i [U32; I32] /\ w = 4%nat \/ In i [U64; I64] /\ w = 8%nat \/
      In i [U128; I128] /\ w = 16%nat)) \/
  (t = TF32 /\ mk = VInt /\ w = 4%nat) \/ (t = TF64 /\ mk = VInt /\ w = 8%nat) \/ (t = TChar /\ mk = VChar /\ w = 4%nat).
Proof. exact C05_widths_lemma. Qed.
Print Assumptions C05_widths.

Example C05_case : Numeric (TInt I32) VInt 4 /\ wt (TInt I32) (VInt (-2)) /\
  Appends (encode true (TInt I32) (VInt (-2))) [xfe; xff; xff; xff] (Ok tt) /\
  Numeric TF32 VInt 4 /\ wt TF32 (VInt 2143289345) /\         (* a NaN with payload 1 *)
  Appends (encode true TF32 (VInt 2143289345)) [x01; x00; xc0; x7f] (Ok tt) /\
  Numeric TChar VChar 4 /\ wt TChar (VChar 8364) /\ Appends (encode true TChar (VChar 8364)) [xac; x20; x00; x00] (Ok tt).
Proof.
  split; [apply (Nu_int (i := I32)); discriminate|]. split; [unfold wt, in_ity; cbn; lia|].
  split; [apply (appends_by_run true 9); reflexivity|]. split; [constructor|]. split; [cbn; lia|].
  split; [apply (appends_by_run true 9); reflexivity|]. split; [constructor|]. split; [reflexivity|].
  apply (appends_by_run true 9); reflexivity.
Qed.

(* C06: for every type and valid value, a call succeeds and appends [bs] exactly when [bs] is the encoding that the independent
   relation [Wire] of Spec.v gives, and it fits. *)
Theorem C06_wire_format : forall checks t v o bs, wt t v -> output_position o <= output_capacity o ->
  ((exists o', encode checks t v o = (o', Ok tt) /\ output_as_slice o' = output_as_slice o ++ bs) <->
   (Wire checks t v bs /\ length bs <= output_remaining o)).
Proof. exact C06_lemma. Qed.
Print Assumptions C06_wire_format.

Example C06_case : wt sample_ty sample_val /\ Wire true sample_ty sample_val sample_bytes.
Proof.
  split; [exact sample_wt|].
  apply (C06_wire_format true sample_ty sample_val (output_new (repeat x00 40)) sample_bytes sample_wt (Nat.le_0_l _)).
  eexists. split; vm_compute; reflexivity.
Qed.

(* C07: whatever the outcome, the bytes before the starting position and after the final one are untouched. *)
Theorem C07_encode_touches_only_appended : forall checks t v o o' r,
  output_position o <= output_capacity o -> encode checks t v o = (o', r) ->
  output_capacity o' = output_capacity o /\
  output_position o <= output_position o' <= output_capacity o /\
  firstn (output_position o) (o_buf o') = firstn (output_position o) (o_buf o) /\
  skipn (output_position o') (o_buf o') = skipn (output_position o') (o_buf o).
Proof. exact C07_lemma. Qed.
Print Assumptions C07_encode_touches_only_appended.

(* a panic in the middle: the length and the first item of two fit *)
Example C07_case :
  encode true (TVec (TInt U16)) (VSeq [VInt 1; VInt 2]) (Output (repeat xff 6) 1) =
  (Output [xff; x02; x00; x01; x00; xff] 5, Panic (POutput (StreamError 6 5 2))).
Proof. vm_compute. reflexivity. Qed.

(* C08: a call that returns has appended some bytes, and in every output with room for these it appends the same bytes and
   returns the same. *)
Theorem C08_context_independence : forall checks t v o o' r,
  output_position o <= output_capacity o -> encode checks t v o = (o', r) -> (forall p, r <> Panic p) ->
  exists bs, output_as_slice o' = output_as_slice o ++ bs /\
    forall o1, output_position o1 <= output_capacity o1 -> length bs <= output_remaining o1 ->
    exists o1', encode checks t v o1 = (o1', r) /\ output_as_slice o1' = output_as_slice o1 ++ bs.
Proof. exact C08_lemma. Qed.
Print Assumptions C08_context_independence.

Example C08_case :
  encode true sample_enum (VEnum 2 [VInt 258]) (Output (repeat xff 4) 1) = (Output [xff; x47; x02; x01] 4, Ok tt) /\
  encode true sample_enum (VEnum 2 [VInt 258]) (Output [x05; x06; x07; x08; x09; x0a] 2) = (Output [x05; x06; x47; x02; x01; x0a] 5, Ok tt).
Proof. vm_compute. split; reflexivity. Qed.

(* C09: each value has a fixed encoding, possibly ended by an error. If it fits the call appends it and returns; otherwise the call
   panics because a write did not fit. The one exception panics on arithmetic. *)
Theorem C09_panics_iff_too_small : forall checks t v, wt t v -> exists bs r,
  (r = Ok tt \/ (exists e, r = Err e) \/ (r = Panic PArith /\ checks = true /\ has_lowest_second v = true)) /\
  forall o, output_position o <= output_capacity o ->
    (length bs <= output_remaining o -> exists o', encode checks t v o = (o', r) /\ output_as_slice o' = output_as_slice o ++ bs) /\
    (output_remaining o < length bs -> exists o' e, encode checks t v o = (o', Panic (POutput e))
       /\ se_capacity e = output_capacity o' /\ se_position e = output_position o' /\ output_remaining o' < se_count e).
Proof. exact C09_lemma. Qed.
Print Assumptions C09_panics_iff_too_small.

Example C09_case : wt sample_ty sample_val /\ length sample_bytes = 29 /\
  snd (encode true sample_ty sample_val (output_new (repeat x00 29))) = Ok tt /\
  snd (encode true sample_ty sample_val (output_new (repeat x00 28))) = Panic (POutput (StreamError 28 25 4)) /\
  snd (encode true TSystemTime (VTime (- 2 ^ 63) 0) (output_new (repeat x00 8))) = Panic PArith.
Proof. split; [exact sample_wt|]. vm_compute. repeat split; reflexivity. Qed.

(* C10: with room, a call succeeds on the representable values and errs on the others. *)
Theorem C10_errs_iff_unrepresentable : forall checks t v, wt t v -> checks = false \/ has_lowest_second v = false ->
  exists bs, (Representable t v /\ Appends (encode checks t v) bs (Ok tt)) \/
             (~ Representable t v /\ exists e, Appends (encode checks t v) bs (Err e)).
Proof. exact C10_lemma. Qed.
Print Assumptions C10_errs_iff_unrepresentable.

Example C10_case :
  wt (TVec (TInt Usize)) (VSeq [VInt 1; VInt 65536]) /\ ~ Representable (TVec (TInt Usize)) (VSeq [VInt 1; VInt 65536]) /\
  Appends (encode true (TVec (TInt Usize)) (VSeq [VInt 1; VInt 65536])) [x02; x00; x01; x00] (Err (EItem 1 (EUsize 65536))) /\
  wt (TRefCell (TInt U8)) (VRefCell true (VInt 1)) /\ ~ Representable (TRefCell (TInt U8)) (VRefCell true (VInt 1)) /\
  Appends (encode true (TRefCell (TInt U8)) (VRefCell true (VInt 1))) [] (Err EBadBorrow).
Proof.
  split; [cbn; repeat constructor; unfold in_ity; cbn; lia|].
  split; [cbn; intros [_ H]; inversion H as [|? ? _ H2]; inversion H2; cbn in *; lia|].
  split; [apply (appends_by_run true 9); vm_compute; reflexivity|].
  split; [unfold wt, in_ity; cbn; lia|]. split; [cbn; intros [H _]; discriminate|].
  apply (appends_by_run true 9); vm_compute; reflexivity.
Qed.

(* C11: the error of a failing item carries its index; what was written are the items before it and the beginning of it. *)
Theorem C11_encode_item_error : forall checks t vs bs e,
  (forall n, Appends (encode checks (TArray t n) (VSeq vs)) bs (Err e) ->
     exists k e', e = EItem k e' /\ FirstFailure checks t vs k e' bs) /\
  ((Z.of_nat (length vs) <= 65535)%Z ->
   forall t' wrap, (t' = TSlice t \/ t' = TVec t \/ (exists n, t' = TSizedSlice t n)) /\ wrap = EItem \/
                   t' = TLinked t /\ wrap = EItemTuple ->
   Appends (encode checks t' (VSeq vs)) bs (Err e) ->
   exists k e' lb ib, e = wrap k e' /\ bs = lb ++ ib /\ WireLen (length vs) lb /\ FirstFailure checks t vs k e' ib).
Proof. exact C11_encode_lemma. Qed.
Print Assumptions C11_encode_item_error.

(* a sequence that is too long is refused before anything is written *)
Theorem C11_encode_too_long : forall checks t vs t',
  t' = TSlice t \/ t' = TVec t \/ (exists n, t' = TSizedSlice t n) \/ t' = TLinked t -> (65535 < Z.of_nat (length vs))%Z ->
  Appends (encode checks t' (VSeq vs)) [] (Err (ELen (EUsize (Z.of_nat (length vs))))).
Proof. exact C11_long_lemma. Qed.
Print Assumptions C11_encode_too_long.

(* decoding: the index is the number of items decoded before *)
Theorem C11_decode_item_error : forall t i i' e, in_bounds i ->
  (forall n, decode (TArray t n) i = (i', Err e) -> exists k e', e = DItem k e' /\ k < n /\ DecodeFailure t i k e' i') /\
  (forall t', t' = TVec t \/ t' = TLinked t \/ t' = THashSet t \/ (exists n, t' = TSizedSlice t n) -> decode t' i = (i', Err e) ->
   (exists n len, t' = TSizedSlice t n /\ e = DLen (DLength n len) /\ n < len /\ declares (unread i) len) \/
   exists k e' n, e = DItem k e' /\ k < n /\
     (declares (unread i) n \/ exists len, t' = TSizedSlice t n /\ declares (unread i) len /\ len <= n) /\
     DecodeFailure t (Input (i_buf i) (i_pos i + 2)) k e' i').
Proof. exact C11_decode_lemma. Qed.
Print Assumptions C11_decode_item_error.

Example C11_case :
  Appends (encode true (TVec (TInt Usize)) (VSeq [VInt 1; VInt 65536; VInt 70000])) [x03; x00; x01; x00] (Err (EItem 1 (EUsize 65536))) /\
  Appends (encode true (TLinked (TInt Usize)) (VSeq [VInt 1; VInt 65536])) [x02; x00; x01; x00] (Err (EItemTuple 1 (EUsize 65536))) /\
  decode (TVec (TNonZero U8)) (input_new [x03; x00; x07; x00; x05]) = (Input [x03; x00; x07; x00; x05] 4, Err (DItem 1 DNonZero)) /\
  (65535 < Z.of_nat (length (repeat VUnit (Z.to_nat 65536))))%Z.
Proof.
  split; [apply (appends_by_run true 9); vm_compute; reflexivity|].
  split; [apply (appends_by_run true 9); vm_compute; reflexivity|]. split; vm_compute; reflexivity.
Qed.

(* C12 *)
Theorem C12_usize : forall checks z, in_ity Usize z ->
  ((0 <= z <= 65535)%Z -> exists bs, length bs = 2 /\ holds_bits z bs /\
     Appends (encode checks (TInt Usize) (VInt z)) bs (Ok tt) /\ Yields (decode (TInt Usize)) bs (VInt z)) /\
  ((65535 < z)%Z -> forall o, encode checks (TInt Usize) (VInt z) o = (o, Err (EUsize z))).
Proof. exact C12_lemma. Qed.
Print Assumptions C12_usize.

Theorem C12_isize : forall checks z, in_ity Isize z ->
  ((-32768 <= z <= 32767)%Z -> exists bs, length bs = 2 /\ holds_bits z bs /\
     Appends (encode checks (TInt Isize) (VInt z)) bs (Ok tt) /\ Yields (decode (TInt Isize)) bs (VInt z)) /\
  ((z < -32768 \/ 32767 < z)%Z -> forall o, encode checks (TInt Isize) (VInt z) o = (o, Err (EIsize z))).
Proof. exact C12_isize_lemma. Qed.
Print Assumptions C12_isize.

Theorem C12_decode : forall a b,
  (exists z, (0 <= z <= 65535)%Z /\ holds_bits z [a; b] /\ Yields (decode (TInt Usize)) [a; b] (VInt z)) /\
  (exists z, (-32768 <= z <= 32767)%Z /\ holds_bits z [a; b] /\ Yields (decode (TInt Isize)) [a; b] (VInt z)).
Proof. exact C12_decode_lemma. Qed.
Print Assumptions C12_decode.

Example C12_case : in_ity Usize 65535 /\ in_ity Usize 65536 /\ in_ity Isize (-32768) /\ in_ity Isize (-32769) /\
  Appends (encode true (TInt Isize) (VInt (-32768))) [x00; x80] (Ok tt) /\ Yields (decode (TInt Isize)) [x00; x80] (VInt (-32768)).
Proof.
  split; [unfold in_ity; cbn; lia|]. split; [unfold in_ity; cbn; lia|]. split; [unfold in_ity; cbn; lia|].
  split; [unfold in_ity; cbn; lia|]. split; [apply (appends_by_run true 9); reflexivity | apply yields_by_run; vm_compute; reflexivity].
Qed.

(* C29: the code rounds towards the epoch. What holds: the second written is less than one second away, on the side of the epoch,
   exact for whole seconds, and decodes to that second. Missing: that it is the nearest one. *)
Theorem C29_system_time_partial : forall checks s n, wt TSystemTime (VTime s n) ->
  checks = false \/ has_lowest_second (VTime s n) = false ->
  exists q bs,
    (Z.abs (time_ns s n - time_ns q 0) < 1000000000)%Z /\ (Z.abs (time_ns q 0) <= Z.abs (time_ns s n))%Z /\ (n = 0%Z -> q = s) /\
    length bs = 8 /\ holds_bits q bs /\
    Appends (encode checks TSystemTime (VTime s n)) bs (Ok tt) /\ Yields (decode TSystemTime) bs (VTime q 0).
Proof. exact C29_lemma. Qed.
Print Assumptions C29_system_time_partial.

(* some time is nearer to another second than to the one written *)
Theorem C29_nearest_second_refuted : exists s n q' bs, wt TSystemTime (VTime s n) /\
  Appends (encode true TSystemTime (VTime s n)) bs (Ok tt) /\
  forall q, holds_bits q bs -> (- 2 ^ 63 <= q < 2 ^ 63)%Z ->
  (Z.abs (time_ns s n - time_ns q' 0) < Z.abs (time_ns s n - time_ns q 0))%Z.
Proof. exact C29_refutation. Qed.
Print Assumptions C29_nearest_second_refuted.

Example C29_case : wt TSystemTime (VTime (-3) 250000000) /\        (* 2.75 seconds before the epoch *)
  Appends (encode true TSystemTime (VTime (-3) 250000000)) [xfe; xff; xff; xff; xff; xff; xff; xff] (Ok tt).
Proof. split; [cbn; lia | apply (appends_by_run true 9); vm_compute; reflexivity]. Qed.

(* C30: addresses come back, but the octets are written last to first. *)
Theorem C30_ip_octets_partial : forall checks,
  (forall o, length o = 4 -> Appends (encode checks TIpv4 (VIp4 o)) (rev o) (Ok tt) /\ Yields (decode TIpv4) (rev o) (VIp4 o)) /\
  (forall o, length o = 16 -> Appends (encode checks TIpv6 (VIp6 o)) (rev o) (Ok tt) /\ Yields (decode TIpv6) (rev o) (VIp6 o)).
Proof. exact C30_lemma. Qed.
Print Assumptions C30_ip_octets_partial.

(* so they are not in the documented order, first to last *)
Theorem C30_ip_octet_order_refuted : exists o, length o = 4 /\ ~ Appends (encode true TIpv4 (VIp4 o)) o (Ok tt).
Proof. exact C30_refutation. Qed.
Print Assumptions C30_ip_octet_order_refuted.

Example C30_case : Appends (encode true TIpv4 (VIp4 [x7f; x00; x00; x01])) [x01; x00; x00; x7f] (Ok tt).
Proof. apply (appends_by_run true 9); vm_compute; reflexivity. Qed.
