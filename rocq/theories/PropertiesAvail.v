(* C110, C111: the words of error messages; which types implement the traits. *)
From Coq Require Import Lia String.
From Verif Require Import Base Streams Utf8 Types Traits Encode Decode SizedSlice SizedStr ErrorText SpecAvail AvailProofs ComputeFacts Samples SampleFacts.
Local Open Scope list_scope.

(* C110: a failure of encoding says nothing of decoding, and the other way round. *)
Theorem C110_encode : forall checks t v o o' e r, encode checks t v o = (o', Err e) -> of_eerr e = Some r ->
  ~ Mentions (txt "decod") (display r).
Proof. intros checks t v o o' e r _. exact (@C110_encode_lemma e r). Qed.
Print Assumptions C110_encode.

Theorem C110_decode : forall t i i' e r, decode t i = (i', Err e) -> of_derr e = Some r -> ~ Mentions (txt "encod") (display r).
Proof. intros t i i' e r _. exact (@C110_decode_lemma e r). Qed.
Print Assumptions C110_decode.

Example C110_case :
  snd (encode true (TVec (TInt Usize)) (VSeq [VInt 5; VInt 65536]) (output_new (repeat x00 9))) = Err (EItem 1 (EUsize 65536)) /\
  (exists r, of_eerr (EItem 1 (EUsize 65536)) = Some r /\ Mentions (txt "encod") (display r)) /\
  snd (decode (TVec TChar) (Input [x01; x00; x00; xd8; x00; x00] 0)) = Err (DItem 0 (DChar 55296)) /\
  (exists r, of_derr (DItem 0 (DChar 55296)) = Some r /\ Mentions (txt "decod") (display r)).
Proof.
  split; [vm_compute; reflexivity|]. split.
  - eexists. split; [reflexivity|]. exists (txt "unable to "). eexists. vm_compute. reflexivity.
  - split; [vm_compute; reflexivity|]. eexists. split; [reflexivity|]. exists (txt "unable to "). eexists. vm_compute. reflexivity.
Qed.

(* C111. [enc_ety t] is the associated error type of Encode, `None` if `t` does not implement it; likewise [dec_ety]. What holds
   one type implements a trait exactly if the type does. *)
Theorem C111_encode : forall F t, Holder F -> (enc_ety (F t) <> None <-> enc_ety t <> None).
Proof. exact C111_encode_lemma. Qed.
Print Assumptions C111_encode.

Theorem C111_decode : forall F t, OwningHolder F -> (dec_ety (F t) <> None <-> dec_ety t <> None).
Proof. exact C111_decode_lemma. Qed.
Print Assumptions C111_decode.

(* What holds several implements it exactly if their error types agree: tuples, *)
Theorem C111_tuple_partial : forall ts y, ts <> [] -> (List.length ts <= 12)%nat ->
  (enc_ety (TTuple ts) = Some y <-> Forall (fun t => enc_ety t = Some y) ts).
Proof. exact C111_tuple_lemma. Qed.
Print Assumptions C111_tuple_partial.

Theorem C111_tuple_decode_partial : forall ts z, ts <> [] -> (List.length ts <= 12)%nat ->
  (dec_ety (TTuple ts) = Some z <-> Forall (fun t => dec_ety t = Some z) ts).
Proof. exact C111_tuple_decode_lemma. Qed.
Print Assumptions C111_tuple_decode_partial.

(* maps, *)
Theorem C111_map_partial : forall k v, enc_ety (THashMap k v) <> None <-> exists y, enc_ety k = Some y /\ enc_ety v = Some y.
Proof. exact C111_map_lemma. Qed.
Print Assumptions C111_map_partial.

Theorem C111_map_decode_partial : forall k v, dec_ety (THashMap k v) <> None <-> exists z, dec_ety k = Some z /\ dec_ety v = Some z.
Proof. exact C111_map_decode_lemma. Qed.
Print Assumptions C111_map_decode_partial.

(* and results, where for encoding it is enough that the one converts to the other. *)
Theorem C111_result_partial : forall t e y, enc_ety (TResult t e) = Some y <-> enc_ety t = Some y /\ exists x, enc_ety e = Some x /\ Converts x y.
Proof. exact C111_result_lemma. Qed.
Print Assumptions C111_result_partial.

Theorem C111_result_decode_partial : forall t e, dec_ety (TResult t e) <> None <-> exists z, dec_ety t = Some z /\ dec_ety e = Some z.
Proof. exact C111_result_decode_lemma. Qed.
Print Assumptions C111_result_decode_partial.

(* So it is not enough that each implements the trait: HashMap<String, u32> can be neither encoded nor decoded, nor (u8, usize)
   encoded or (u8, char) decoded. *)
Theorem C111_refuted :
  (exists t u, enc_ety t <> None /\ enc_ety u <> None /\ dec_ety t <> None /\ dec_ety u <> None /\
     enc_ety (TTuple [t; u]) = None /\ enc_ety (THashMap t u) = None /\ enc_ety (TResult t u) = None /\
     dec_ety (TTuple [t; u]) = None /\ dec_ety (THashMap t u) = None /\ dec_ety (TResult t u) = None) /\
  enc_ety (THashMap TString (TInt U32)) = None /\ dec_ety (THashMap TString (TInt U32)) = None /\
  enc_ety (TTuple [TInt U8; TInt Usize]) = None /\ dec_ety (TTuple [TInt U8; TChar]) = None.
Proof. exact C111_refuted_lemma. Qed.
Print Assumptions C111_refuted.

Example C111_case : Holder (fun t => TArray t 4) /\ OwningHolder (TWrap WBox) /\ enc_ety sample_ty <> None /\ dec_ety sample_ty <> None /\
  enc_ety (TTuple [TVec (TInt U8); TSlice (TInt I64); TString]) = Some (YColl YUsize (YItem YInfallible)) /\
  enc_ety (TResult (TStruct [TInt U8]) (TInt Usize)) = Some YGeneric /\ Converts (YColl YInfallible (YItem YUsize)) YGeneric /\
  enc_ety (TResult (TInt U8) (TArray (TBound (TInt I16)) 3)) = Some YInfallible /\
  enc_ety (TResult (TBound (TInt U8)) (TBound (TInt U8))) <> None.
Proof.
  repeat split; try constructor; try reflexivity; try discriminate; auto; repeat constructor; auto.
  cbn. intuition discriminate.
Qed.
