(* C56, exactly: which sequences a SizedSlice decodes from their encoding, and of which items all do. *)
From Verif Require Import Base Streams Types Traits Encode Decode Spec SpecCalls SpecDecode SpecPeak SpecWork SpecEq SpecValues SpecSurvive SpecReach SliceExact.

(* The encoding of a sequence of at most N items decodes exactly if it has N items or its items take no octets, and each survives in the sense of
   C104. *)
Theorem C56_values : forall checks t n vs bs, EnumsOk t -> dec_ety t <> None -> wt (TSlice t) (VSeq vs) -> length vs <= n ->
  Appends (encode checks (TSlice t) (VSeq vs)) bs (Ok tt) ->
  ((exists i' v', decode (TSizedSlice t n) (input_new bs) = (i', Ok v') /\ SameValue (TSizedSlice t n) v' (VSeq vs)) <->
   (length vs = n \/ nonempty t = false) /\ Forall (Survives t) vs).
Proof. exact C56_values_lemma. Qed.
Print Assumptions C56_values.

(* All such sequences do exactly if N is 0, or the items take no octets and all keep their value. *)
Theorem C56_exact : forall checks t n, EnumsOk t -> dec_ety t <> None ->
  ((forall vs bs, wt (TSlice t) (VSeq vs) -> length vs <= n -> Appends (encode checks (TSlice t) (VSeq vs)) bs (Ok tt) ->
      exists i' v', decode (TSizedSlice t n) (input_new bs) = (i', Ok v') /\ SameValue (TSizedSlice t n) v' (VSeq vs)) <->
   n = 0 \/ (nonempty t = false /\ occurs a_fleeting t = false)).
Proof. exact C56_exact_lemma. Qed.
Print Assumptions C56_exact.

Example C56_exact_case : nonempty (TTuple [TUnit; TPhantomData]) = false /\ occurs a_fleeting (TTuple [TUnit; TPhantomData]) = false /\
  EnumsOk (TTuple [TUnit; TPhantomData]) /\ dec_ety (TTuple [TUnit; TPhantomData]) <> None /\
  decode (TSizedSlice TUnit 3) (input_new [x02; x00]) = (Input [x02; x00] 2, Ok (VSeq [VUnit; VUnit])) /\
  nonempty (TOption TUnit) = true /\ Survives (TOption TUnit) (VSome VUnit).
Proof. repeat split. discriminate. Qed.
