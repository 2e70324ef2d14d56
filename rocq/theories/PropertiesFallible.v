(* C120: which types can fail. *)
From Verif Require Import Base Streams Types Traits Encode Decode Spec SpecCalls SpecDecode SpecDerive SpecPeak SpecReach SpecFallible FallibleProofs Samples SampleFacts.

(* C120: whether encoding a value of a type can return an error, whatever the value and the room, is decided by the parts of the type. *)
Theorem C120_encode : forall checks t, EnumsOk t ->
  ((exists v o o' e, wt t v /\ output_position o <= output_capacity o /\ encode checks t v o = (o', Err e)) <-> fallible t = true).
Proof. exact C120_encode_lemma. Qed.
Print Assumptions C120_encode.

(* [inhabited] is what its name says, *)
Theorem C120_inhabited : forall t, EnumsOk t -> ((exists v, wt t v) <-> inhabited t = true).
Proof. exact C120_inhabited_lemma. Qed.
Print Assumptions C120_inhabited.

(* and so for decoding. *)
Theorem C120_decode : forall t, EnumsOk t -> dec_ety t <> None ->
  ((exists i i' e, in_bounds i /\ decode t i = (i', Err e)) <-> refusable t = true).
Proof. exact C120_decode_lemma. Qed.
Print Assumptions C120_decode.

(* In particular of the types whose decode error converts into Infallible, by a conversion that would panic: the exact form of C67. *)
Theorem C67_infallible_decode_exact : forall t z, EnumsOk t -> dec_ety t = Some z -> into_infallible_dety z = true ->
  ((exists i i' e, in_bounds i /\ decode t i = (i', Err e)) <-> refusable t = true).
Proof. intros t z Hok Hz _. apply C120_decode_lemma; congruence. Qed.
Print Assumptions C67_infallible_decode_exact.

(* An array of options of integers of fixed size cannot fail either way; a vector of octets can only fail to be encoded, and a character
   only to be decoded. An enum of 256 variants takes every octet, one of 255 does not. *)
Example C120_case : EnumsOk sample_ty /\ dec_ety sample_ty <> None /\
  fallible sample_ty = true /\ refusable sample_ty = true /\
  fallible (TArray (TOption (TInt U32)) 4) = false /\ refusable (TArray (TOption (TInt U32)) 4) = false /\
  fallible (TVec (TInt U8)) = true /\ refusable (TVec (TInt U8)) = false /\
  fallible TChar = false /\ refusable TChar = true /\
  fallible (TSizedSlice (TInt U8) 9) = false /\ refusable (TSizedSlice (TInt U8) 9) = true /\
  refusable (TEnum U8 (repeat (None, []) 256)) = false /\ refusable (TEnum U8 (repeat (None, []) 255)) = true /\
  refusable (TStruct [TInt U8; TInfallible; TChar]) = false /\ fallible (TStruct [TInt Usize; TInfallible]) = false.
Proof. split; [exact sample_enums_ok|]. split; [vm_compute; discriminate|]. vm_compute. repeat split; reflexivity. Qed.
