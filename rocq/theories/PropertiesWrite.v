(* C13, C14: for exactly which types they hold. *)
From Coq Require Import Lia.
From Verif Require Import Base Streams Types Traits Encode Decode Spec SpecCalls SpecDecode SpecEq SpecSurvive SpecReach ComputeFacts WriteProofs.
Set Implicit Arguments.

(* Some valid value of the type can be encoded. *)
Theorem C13_writable : forall checks t, EnumsOk t -> ((exists v bs, wt t v /\ Appends (encode checks t v) bs (Ok tt)) <-> writable t = true).
Proof. exact C13_writable_lemma. Qed.
Print Assumptions C13_writable.

(* C13: whatever is encoded comes back, exactly if no fleeting type occurs in a value that can be encoded: no HashMap, HashSet or SystemTime, no
   SizedSlice of items with octets but those of capacity 0, and no RangeInclusive. *)
Theorem C13_exact : forall checks t, EnumsOk t -> dec_ety t <> None ->
  ((forall v bs, wt t v -> Appends (encode checks t v) bs (Ok tt) -> exists i' v', decode t (input_new bs) = (i', Ok v') /\ SameValue t v' v) <->
   occurs a_fleeting t = false).
Proof. exact C13_exact_lemma. Qed.
Print Assumptions C13_exact.

(* C14: values of these types, one after another, come back, exactly if no fleeting type occurs in any of them. If one of the types has no value that
   can be encoded, there are no such values. *)
Theorem C14_exact : forall checks ts, Forall (fun t => EnumsOk t /\ dec_ety t <> None) ts ->
  ((forall l o o' tail, map fst l = ts -> Forall (fun p => wt (fst p) (snd p)) l -> output_position o <= output_capacity o ->
      encode_list checks l o = (o', Ok tt) ->
      exists vs, decode_list ts (Input (output_as_slice o' ++ tail) (output_position o)) = (Input (output_as_slice o' ++ tail) (output_position o'), Ok vs) /\
                 all3 (map SameValue ts) vs (map snd l)) <->
   forallb writable ts && existsb (occurs a_fleeting) ts = false).
Proof. exact C14_exact_lemma. Qed.
Print Assumptions C14_exact.

(* A SizedSlice deep inside a type makes it lose values, unless its items are empty, it has no room for any, or the variant it is in cannot be written. *)
Definition buried (t : ty) : ty := TVec (TEnum U8 [(None, [TInt U16]); (Some 9%Z, [TOption (TInt U8); TCow (TSlice t)])]).
Definition sealed (t : ty) : ty := TStruct [TArray t 0; TBound (TStruct [t; TInfallible]); TEnum Usize [(None, [TInt U8]); (Some 65536%Z, [t]); (None, [t])]].

Example C13_exact_case :
  EnumsOk (buried (TSizedSlice (TInt U8) 2)) /\ dec_ety (buried (TSizedSlice (TInt U8) 2)) <> None /\ occurs a_fleeting (buried (TSizedSlice (TInt U8) 2)) = true /\
  occurs a_fleeting (buried (TSizedSlice TUnit 2)) = false /\ occurs a_fleeting (buried (TSizedSlice (TInt U8) 0)) = false /\
  occurs a_fleeting (buried (TRangeInclusive TInfallible)) = false /\ occurs a_fleeting (buried (TRangeInclusive TUnit)) = true /\
  EnumsOk (sealed TSystemTime) /\ dec_ety (sealed TSystemTime) <> None /\ occurs a_fleeting (sealed TSystemTime) = false /\ writable (sealed TSystemTime) = true /\
  Appends (encode true (buried (TSizedSlice (TInt U8) 2)) (VSeq [VEnum 1 [VNone; VCow true (VSeq [VSeq [VInt 7]])]])) [x01; x00; x09; x00; x01; x00; x01; x00; x07] (Ok tt) /\
  Appends (encode true (sealed TSystemTime) (VTuple [VSeq []; VUnbounded; VEnum 0 [VInt 7]])) [x02; x00; x00; x07] (Ok tt).
Proof.
  repeat match goal with |- _ /\ _ => split end;
    match goal with
    | |- Appends _ _ _ => apply (appends_by_run true 40); vm_compute; reflexivity
    | |- _ = _ => vm_compute; reflexivity
    | |- _ <> _ => vm_compute; discriminate
    | |- _ => repeat split; cbn; try lia; try (repeat constructor; cbn; intuition lia); try reflexivity
    end.
Qed.
Example C14_exact_case :
  forallb writable [TInt U8; sealed TSystemTime; TChar] && existsb (occurs a_fleeting) [TInt U8; sealed TSystemTime; TChar] = false /\
  forallb writable [TInt U8; TSystemTime; TChar] && existsb (occurs a_fleeting) [TInt U8; TSystemTime; TChar] = true /\
  forallb writable [TInt U8; TSystemTime; TInfallible] && existsb (occurs a_fleeting) [TInt U8; TSystemTime; TInfallible] = false.
Proof. repeat split; vm_compute; reflexivity. Qed.
