(* C80: changing definitions over time. C81: equal values. *)
From Coq Require Import Lia.
From Verif Require Import Base Streams Utf8 Types Traits Encode Decode Spec SpecCalls SpecDecode SpecValues SpecEvolve SpecEq
  EvolveProofs EqProofs ComputeFacts Samples SampleFacts.

(* C80: [t'] is [t] with variants added behind the existing ones of enumerations anywhere inside ([Extends]). What was written before
   the change is still read, with the same result; *)
Theorem C80_reads_old_data : forall t t' i i' v, Extends t t' -> EnumsOk t' -> in_bounds i ->
  decode t i = (i', Ok v) -> decode t' i = (i', Ok v).
Proof. exact C80_decode_lemma. Qed.
Print Assumptions C80_reads_old_data.

(* values without the new variants are written as before the change, or fail as before (if the changed type compiles) *)
Theorem C80_writes_as_before : forall checks t t' v o, Extends t t' -> EnumsOk t' -> enc_ety t' <> None -> wt t v ->
  wt t' v /\ encode checks t' v o = encode checks t v o.
Proof. exact C80_encode_lemma. Qed.
Print Assumptions C80_writes_as_before.

(* and programs that do not know a new variant refuse it by its number *)
Theorem C80_old_program_refuses : forall checks r vs new i fs bs, enum_ok r (vs ++ new) -> wt (TEnum r (vs ++ new)) (VEnum i fs) -> length vs <= i ->
  Appends (encode checks (TEnum r (vs ++ new)) (VEnum i fs)) bs (Ok tt) ->
  exists d db rest, Assigned (map fst (vs ++ new)) i d /\ bs = db ++ rest /\ Refuses (decode (TEnum r vs)) db (DUnassigned r d).
Proof. exact C80_forward_lemma. Qed.
Print Assumptions C80_old_program_refuses.

(* a vector of structures of an enumeration with one that gains a variant with a field *)
Example C80_case : let old := TEnum U8 [(Some 69%Z, []); (None, [TBool])] in let new := TEnum U8 [(Some 69%Z, []); (None, [TBool]); (None, [TInt Usize])] in
  Extends (TVec (TStruct [old; TInt U8])) (TVec (TStruct [new; TInt U8])) /\
  EnumsOk (TVec (TStruct [new; TInt U8])) /\ enc_ety (TVec (TStruct [new; TInt U8])) <> None /\
  Yields (decode (TVec (TStruct [new; TInt U8]))) [x01; x00; x46; x01; x05] (VSeq [VTuple [VEnum 1 [VBool true]; VInt 5]]).
Proof.
  cbv zeta. split; [|split; [|split]].
  - apply X_vec, X_struct. constructor; [|constructor; constructor].
    apply (X_enum U8 (vs' := [(Some 69%Z, []); (None, [TBool])]) [(None, [TInt Usize])]). apply extends_variants_same.
  - cbn. repeat split; try exact I; unfold enum_ok; cbn; repeat constructor; cbn; try lia; intuition discriminate.
  - discriminate.
  - apply yields_by_run. vm_compute. reflexivity.
Qed.

(* C81: except for floats, and for maps and sets *)
Theorem C81_equal_encode_alike_partial : forall checks t v w o, contains is_float t = false -> contains is_hash t = false ->
  RustEq t v w -> encode checks t v o = encode checks t w o.
Proof. exact C81_lemma. Qed.
Print Assumptions C81_equal_encode_alike_partial.

Theorem C81_equal_encode_alike_refuted : forall checks,
  (exists v w b c, RustEq TF32 v w /\ wt TF32 v /\ wt TF32 w /\
     Appends (encode checks TF32 v) b (Ok tt) /\ Appends (encode checks TF32 w) c (Ok tt) /\ b <> c) /\
  (exists v w b c, RustEq (THashSet (TInt U8)) v w /\ wt (THashSet (TInt U8)) v /\ wt (THashSet (TInt U8)) w /\
     Appends (encode checks (THashSet (TInt U8)) v) b (Ok tt) /\ Appends (encode checks (THashSet (TInt U8)) w) c (Ok tt) /\ b <> c).
Proof. exact C81_refutation. Qed.
Print Assumptions C81_equal_encode_alike_refuted.

(* the sample, and the same with a borrowed text in place of an owned one *)
Example C81_case : contains is_float sample_ty = false /\ contains is_hash sample_ty = false /\
  exists w, RustEq sample_ty sample_val w /\ w <> sample_val.
Proof.
  split; [reflexivity|]. split; [reflexivity|].
  exists (VTuple [VSeq [VSome (VInt 513); VNone]; VStr [x68; xc3; xa9]; VEnum 1 [VBool true; VInt (-2)];
          VWrap (VCow false (VStr [x61])); VSeq [VInt (-1); VInt 32767]; VExcluded (VInt 7)]).
  split; [cbn; repeat (split || constructor) | discriminate].
Qed.
