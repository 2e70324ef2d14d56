(* C29, C30, C42, C51, C64: exactly which values the properties hold of. *)
From Coq Require Import Lia List ZArith.
From Verif Require Import Base Streams Utf8 Types Traits Encode Decode Mem SizedSlice SizedStr Spec SpecCalls SpecDecode SpecDerive SpecContainers SpecValues MoreExact EncodeProofs ComputeFacts.
Import ListNotations.

(* the second that comes out of a written time is the nearest one exactly if the time is within half a second of it, on the side away from the epoch *)
Theorem C29_exact : forall checks s n bs q, wt TSystemTime (VTime s n) -> checks = false \/ has_lowest_second (VTime s n) = false ->
  Appends (encode checks TSystemTime (VTime s n)) bs (Ok tt) -> Yields (decode TSystemTime) bs (VTime q 0) ->
  ((forall q', (Z.abs (time_ns s n - time_ns q 0) <= Z.abs (time_ns s n - time_ns q' 0))%Z) <->
   (if (s <? 0)%Z then n = 0 \/ 500000000 <= n else n <= 500000000)%Z).
Proof. exact C29_exact_lemma. Qed.
Print Assumptions C29_exact.

(* an address is written in the documented order exactly if it reads the same backwards *)
Theorem C30_exact : forall checks,
  (forall o, length o = 4 -> (Appends (encode checks TIpv4 (VIp4 o)) o (Ok tt) <-> o = rev o)) /\
  (forall o, length o = 16 -> (Appends (encode checks TIpv6 (VIp6 o)) o (Ok tt) <-> o = rev o)).
Proof. exact C30_exact_lemma. Qed.
Print Assumptions C30_exact.

(* a discriminant is zero-extended exactly if it is not negative, or as wide as the result *)
Theorem C42_exact : forall r d, in_ity r d -> (into_generic_dec (DUnassigned r d) = DGUnassigned (zero_extended r d) <-> (0 <= d)%Z \/ r = I128).
Proof. exact C42_exact_lemma. Qed.
Print Assumptions C42_exact.

(* `into_vec` and `into_boxed_slice` give the items exactly if there are some, and they have a size *)
Theorem C51_into_vec_exact : forall n A (s : sslice A) items size, Reachable n s -> ss_as_slice s = Done items ->
  (ss_into_boxed_slice size true s = Done items <-> items <> [] /\ (0 < size)%N).
Proof. exact C51_exact_lemma. Qed.
Print Assumptions C51_into_vec_exact.

Theorem C64_string_exact : forall n w s bs, StrReachable n w s -> st_as_str s = Done bs ->
  (st_into_boxed_str true s = Done bs <-> bs <> []) /\ (st_into_string true s = Done (bs, length bs) <-> bs <> []).
Proof. exact C64_exact_lemma. Qed.
Print Assumptions C64_string_exact.

(* 2.75 seconds before the epoch are two seconds before it, 2.25 seconds too; 127.0.0.127 reads the same backwards *)
Example C29_exact_case : wt TSystemTime (VTime (-3) 250000000) /\ wt TSystemTime (VTime (-3) 750000000) /\ has_lowest_second (VTime (-3) 250000000) = false /\
  decode TSystemTime (input_new (o_buf (fst (encode true TSystemTime (VTime (-3) 250000000) (output_new (repeat x00 8)))))) = (Input [xfe; xff; xff; xff; xff; xff; xff; xff] 8, Ok (VTime (-2) 0)) /\
  decode TSystemTime (input_new (o_buf (fst (encode true TSystemTime (VTime (-3) 750000000) (output_new (repeat x00 8)))))) = (Input [xfe; xff; xff; xff; xff; xff; xff; xff] 8, Ok (VTime (-2) 0)).
Proof. split; [cbn; lia|]. split; [cbn; lia|]. split; [reflexivity|]. split; vm_compute; reflexivity. Qed.
Example C30_exact_case : Appends (encode true TIpv4 (VIp4 [x7f; x00; x00; x7f])) [x7f; x00; x00; x7f] (Ok tt) /\
  ~ Appends (encode true TIpv4 (VIp4 [x7f; x00; x00; x01])) [x7f; x00; x00; x01] (Ok tt).
Proof.
  split; [apply (proj1 (C30_exact true) [x7f; x00; x00; x7f] eq_refl); reflexivity|].
  intro H. apply (proj1 (C30_exact true) [x7f; x00; x00; x01] eq_refl) in H. discriminate H.
Qed.
Example C42_exact_case : in_ity I8 (-1) /\ into_generic_dec (DUnassigned I8 (-1)) = DGUnassigned (2 ^ 128 - 1) /\ zero_extended I8 (-1) = 255%Z /\
  into_generic_dec (DUnassigned I128 (-1)) = DGUnassigned (zero_extended I128 (-1)).
Proof. split; [cbn; lia|]. repeat split; vm_compute; reflexivity. Qed.
