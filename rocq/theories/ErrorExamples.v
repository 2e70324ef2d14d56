(* The witness against C85, and the examples beside C88 and C89. *)
From Coq Require Import Lia.
From Verif Require Import Base Streams Utf8 Types Traits Encode Decode Spec SpecCalls SpecDecode SpecDerive SpecErrors ErrorText
  FailureProofs RejectProofs ComputeFacts Samples SampleFacts.
Local Open Scope Z_scope.

Lemma sample_bad_wt : wt sample_ty sample_bad.
Proof.
  cbn. wt_tac.
  - exists [104; 233]. split; [repeat constructor | reflexivity].
  - exists [97]. split; [repeat constructor | reflexivity].
Qed.
Lemma C85_refuted_lemma : exists t y v o o' e, enc_ety t = Some y /\ wt t v /\ encode true t v o = (o', Err e) /\
  ety_is_error y = false /\ of_eerr e = None.
Proof.
  exists (TLinked (TInt Usize)), (YColl YUsize (YTuple YUsize)), (VSeq [VInt 1; VInt 70000]), (output_new (repeat x00 6)).
  do 2 eexists. split; [reflexivity|]. split; [|split; [vm_compute; reflexivity | split; reflexivity]].
  cbn. wt_tac.
Qed.
Lemma C88_case_lemma : Fails true sample_ty sample_bad (firstn 11 sample_bytes ++ [x47]) (EGUsize 65536) /\
  Fails true (TTuple [TRefCell (TVec (TInt Usize)); TRefCell (TVec (TInt Usize))])
    (VTuple [VRefCell false (VSeq [VInt 5]); VRefCell false (VSeq [VInt 6; VInt 70000])]) [x01; x00; x05; x00; x02; x00; x06; x00]
    (EBadValue (EItem 1 (EUsize 70000))).
Proof.
  split.
  - eapply (@C88_lemma true sample_ty YGeneric sample_bad); [reflexivity | exact sample_bad_wt |].
    apply (appends_by_run _ 40); vm_compute; reflexivity.
  - eapply C88_lemma; [reflexivity | cbn; wt_tac |].
    apply (appends_by_run _ 40); vm_compute; reflexivity.
Qed.
Lemma C89_case_lemma : Rejects sample_ty (firstn 11 sample_bytes ++ [x00]) (DGUnassigned 0) /\
  Rejects (TVec (TResult TString TString)) [x02; x00; x00; x01; x00; x41; x01; x02; x00; xc3; x41] (DItem 1 (DField (DBad (DUtf8 xc3 0)))) /\
  EnumsOk sample_ty /\ (exists i' p, decode sample_ty (Input (firstn 4 sample_bytes) 0) = (i', Panic p)).
Proof.
  split; [|split; [|split]].
  - eapply C89_lemma; [exact sample_enums_ok | reflexivity | apply refuses_by_run; vm_compute; reflexivity].
  - eapply C89_lemma; [repeat constructor | reflexivity | apply refuses_by_run; vm_compute; reflexivity].
  - exact sample_enums_ok.
  - do 2 eexists. vm_compute. reflexivity.
Qed.
