(* C20, C72, C73: for exactly which values and types they hold in builds with overflow checks. *)
From Coq Require Import Lia.
From Verif Require Import Base Streams Types Traits Encode Decode Spec SpecCalls SpecDecode SpecPeak SpecWork SpecSurvive SpecReach CheckedProofs.
Set Implicit Arguments.

(* C72: a value that is encoded without checks is encoded with them exactly if it has no SystemTime at the lowest second. *)
Theorem C72_value : forall t v bs, wt t v -> Appends (encode false t v) bs (Ok tt) ->
  (Appends (encode true t v) bs (Ok tt) <-> has_lowest_second v = false).
Proof. exact C72_value_lemma. Qed.
Print Assumptions C72_value.

(* All values are, exactly if no value that can be encoded has a SystemTime inside. *)
Theorem C72_exact : forall t, EnumsOk t ->
  ((forall v bs, wt t v -> Appends (encode false t v) bs (Ok tt) -> Appends (encode true t v) bs (Ok tt)) <-> occurs a_time t = false).
Proof. exact C72_exact_lemma. Qed.
Print Assumptions C72_exact.

(* C20 and C73 with checks: as without, and in addition no SystemTime that can be decoded. *)
Theorem C20_exact_checked : forall t, EnumsOk t ->
  ((forall bs v, wt t v -> Yields (decode t) bs v -> Appends (encode true t v) bs (Ok tt)) <-> reaches a_loose t = false /\ reaches a_time t = false).
Proof. exact C20_checked_lemma. Qed.
Print Assumptions C20_exact_checked.

Theorem C73_exact_checked : forall t, EnumsOk t -> dec_ety t <> None ->
  ((forall i i' v, in_bounds i -> decode t i = (i', Ok v) -> wt t v ->
     exists bs v', Appends (encode true t v) bs (Ok tt) /\ Yields (decode t) bs v' /\ SameValue t v' v) <->
   reaches a_lossy t = false /\ reaches a_time t = false).
Proof. exact C73_checked_lemma. Qed.
Print Assumptions C73_exact_checked.

(* A SystemTime in an Option in a variant of an enumeration; one beside a part without values. *)
Definition when : ty := TEnum U8 [(None, [TString]); (Some 4%Z, [TOption TSystemTime])].
Example C72_exact_case :
  EnumsOk when /\ occurs a_time when = true /\ occurs a_time (TVec (TTuple [TSystemTime; TInfallible])) = false /\
  wt when (VEnum 1 [VSome (VTime (- 2 ^ 63) 0)]) /\ has_lowest_second (VEnum 1 [VSome (VTime (- 2 ^ 63) 0)]) = true /\
  wt when (VEnum 1 [VSome (VTime (- 2 ^ 63 + 1) 7)]) /\ has_lowest_second (VEnum 1 [VSome (VTime (- 2 ^ 63 + 1) 7)]) = false /\
  snd (encode false when (VEnum 1 [VSome (VTime (- 2 ^ 63) 0)]) (output_new (repeat x00 10))) = Ok tt /\
  snd (encode true when (VEnum 1 [VSome (VTime (- 2 ^ 63) 0)]) (output_new (repeat x00 10))) = Panic PArith.
Proof. repeat match goal with |- _ /\ _ => split end; try (vm_compute; reflexivity); cbn; repeat split; try lia; try (repeat constructor; cbn; intuition lia). Qed.
Example C20_checked_case :
  EnumsOk (TEnum U8 [(None, [TString]); (None, [TSystemTime])]) /\ dec_ety (TEnum U8 [(None, [TString]); (None, [TSystemTime])]) <> None /\
  reaches a_loose (TEnum U8 [(None, [TString]); (None, [TSystemTime])]) = false /\ reaches a_lossy (TEnum U8 [(None, [TString]); (None, [TSystemTime])]) = false /\
  reaches a_time (TEnum U8 [(None, [TString]); (None, [TSystemTime])]) = true /\ reaches a_time (TEnum U8 [(None, [TString]); (None, [TDuration])]) = false /\
  decode (TEnum U8 [(None, [TString]); (None, [TSystemTime])]) (input_new [x01; x00; x00; x00; x00; x00; x00; x00; x80]) =
    (Input [x01; x00; x00; x00; x00; x00; x00; x00; x80] 9, Ok (VEnum 1 [VTime (- 2 ^ 63) 0])).
Proof. repeat match goal with |- _ /\ _ => split end; try (vm_compute; reflexivity); try (vm_compute; discriminate); cbn; repeat split; try lia; try (repeat constructor; cbn; intuition lia). Qed.
