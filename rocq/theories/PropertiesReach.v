(* C18, C20, C73: for exactly which types they hold. *)
From Coq Require Import Lia.
From Verif Require Import Base Streams Types Traits Encode Decode Spec SpecCalls SpecDecode SpecPeak SpecSurvive SpecReach ReachProofs.
Set Implicit Arguments.

(* C18: some input is decoded to an invalid value exactly if a decodable value can have a `char` inside. *)
Theorem C18_exact : forall t, EnumsOk t ->
  (exists i i' v, in_bounds i /\ decode t i = (i', Ok v) /\ ~ wt t v) <-> reaches a_char t = true.
Proof. exact C18_exact_lemma. Qed.
Print Assumptions C18_exact.

(* C20: whatever is decoded to a valid value is the encoding of that value, exactly if nothing that can be decoded has several encodings: no `bool`,
   no Duration, no Option or Result with a sign to spare, no HashMap, no HashSet, and no SizedSlice with octets of items to drop. *)
Theorem C20_exact : forall t, EnumsOk t ->
  (forall bs v, wt t v -> Yields (decode t) bs v -> Appends (encode false t v) bs (Ok tt)) <-> reaches a_loose t = false.
Proof. exact C20_exact_lemma. Qed.
Print Assumptions C20_exact.

(* C73: every valid value that was decoded is encoded to something that is decoded to an equal value, exactly if no HashMap, no HashSet and no
   SizedSlice with octets of items to drop is reached. *)
Theorem C73_exact : forall t, EnumsOk t -> dec_ety t <> None ->
  (forall i i' v, in_bounds i -> decode t i = (i', Ok v) -> wt t v ->
     exists bs v', Appends (encode false t v) bs (Ok tt) /\ Yields (decode t) bs v' /\ SameValue t v' v) <->
  reaches a_lossy t = false.
Proof. exact C73_exact_lemma. Qed.
Print Assumptions C73_exact.

(* The kinds sit deep inside: in a variant of an enumeration in a Vec. They are out of reach in an array of no items, beside a part
   without values, and in a variant with a discriminant that cannot be written. *)
Definition deep (t : ty) : ty := TVec (TEnum U8 [(None, [TInt U16]); (Some 9%Z, [TOption (TInt U8); TCow (TSlice t)])]).
Definition hidden (t : ty) : ty :=
  TTuple [TArray t 0; TBound (TTuple [t; TInfallible]); TEnum Usize [(None, [TInt U8]); (Some 65536%Z, [t]); (None, [t])]].

Example C18_reach_case :
  EnumsOk (deep TChar) /\ reaches a_char (deep TChar) = true /\ reaches a_char (deep TString) = false /\
  EnumsOk (hidden TChar) /\ reaches a_char (hidden TChar) = false /\
  decode (deep TChar) (input_new [x01; x00; x09; x00; x01; x00; x00; xde; x00; x00]) =
    (Input [x01; x00; x09; x00; x01; x00; x00; xde; x00; x00] 10, Ok (VSeq [VEnum 1 [VNone; VCow true (VSeq [VChar 56832])]])) /\
  decode (hidden TChar) (input_new [x02; x00; x00; x07]) = (Input [x02; x00; x00; x07] 4, Ok (VTuple [VSeq []; VUnbounded; VEnum 0 [VInt 7]])).
Proof. repeat split; cbn; try lia; try (repeat constructor; cbn; intuition lia); try reflexivity; vm_compute; reflexivity. Qed.
Example C20_reach_case :
  reaches a_loose (deep TBool) = true /\ reaches a_loose (TVec (TBound (TSizedSlice TUnit 5))) = false /\ reaches a_loose (hidden TBool) = false /\
  reaches a_loose (TResult TChar TInfallible) = false /\ reaches a_loose (TResult TInfallible TChar) = true /\ reaches a_loose (TOption TUnit) = true /\
  reaches a_loose (TTuple [TOption TInfallible; TSizedSlice (TInt U8) 0]) = false.
Proof. repeat split; vm_compute; reflexivity. Qed.
Example C73_reach_case :
  reaches a_lossy (deep (THashSet TInfallible)) = true /\ dec_ety (deep (THashSet (TInt U8))) <> None /\ reaches a_lossy (deep TBool) = false /\
  reaches a_lossy (hidden (TSizedSlice (TInt U8) 2)) = false /\ reaches a_lossy (TOption (TSizedSlice (TInt U8) 2)) = true.
Proof. repeat split; try (vm_compute; reflexivity). vm_compute. discriminate. Qed.
