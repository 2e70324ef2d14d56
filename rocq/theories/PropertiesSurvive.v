(* C104: which values come back from their own encodings. *)
From Coq Require Import Lia Permutation.
From Verif Require Import Base Streams Types Traits Encode Decode Spec SpecCalls SpecDecode SpecEq SpecWork SpecSurvive ComputeFacts SurviveProofs.
Set Implicit Arguments.

(* C104: exactly those that [Survives] describes. Decoding an encoding on its own gives an equal value if, and only if, the value has no HashMap or
   HashSet inside, every SizedSlice inside is full or has items without octets, every SystemTime is at a whole second, and no RangeInclusive is exhausted. *)
Theorem C104_survivors : forall checks t v bs, EnumsOk t -> dec_ety t <> None -> wt t v -> Appends (encode checks t v) bs (Ok tt) ->
  (exists i' v', decode t (input_new bs) = (i', Ok v') /\ SameValue t v' v) <-> Survives t v.
Proof. exact C104_lemma. Qed.
Print Assumptions C104_survivors.

(* those also come back from between other octets, and exactly their own octets are read *)
Theorem C104_anywhere : forall checks t v bs, EnumsOk t -> dec_ety t <> None -> wt t v -> Appends (encode checks t v) bs (Ok tt) -> Survives t v ->
  exists v', Yields (decode t) bs v' /\ SameValue t v' v.
Proof. exact C104_everywhere. Qed.
Print Assumptions C104_anywhere.

(* the others do not come back in any sense: [SameValue] holds of all that are equal by `==`, and of all that are identical *)
Theorem C104_widest : forall t v, (forall w, RustEq t v w -> SameValue t v w) /\ (wt t v -> SameValue t v v).
Proof. exact C104_widest_lemma. Qed.
Print Assumptions C104_widest.

(* in particular: whatever a HashMap or a HashSet was encoded to, empty ones included, is never decoded to an equal one *)
Theorem C104_hash_never : forall checks t v bs i' v', EnumsOk t -> dec_ety t <> None -> wt t v -> Appends (encode checks t v) bs (Ok tt) ->
  (exists k x, t = THashMap k x) \/ (exists k, t = THashSet k) -> decode t (input_new bs) = (i', Ok v') -> ~ SameValue t v' v.
Proof. exact C104_hash_lemma. Qed.
Print Assumptions C104_hash_never.

(* values one after another, with anything behind them: all come back, and the input is left where the output was, exactly if each survives *)
Theorem C104_chain : forall checks l o o' tail, Forall (fun p => EnumsOk (fst p) /\ dec_ety (fst p) <> None /\ wt (fst p) (snd p)) l ->
  output_position o <= output_capacity o -> encode_list checks l o = (o', Ok tt) ->
  ((exists vs, decode_list (map fst l) (Input (output_as_slice o' ++ tail) (output_position o)) =
      (Input (output_as_slice o' ++ tail) (output_position o'), Ok vs) /\ all3 (map SameValue (map fst l)) vs (map snd l)) <->
   Forall (fun p => Survives (fst p) (snd p)) l).
Proof. exact C104_chain_lemma. Qed.
Print Assumptions C104_chain.

(* a message with a full and a free SizedSlice, a time and a range comes back; with one item less, or a nanosecond more, it does not *)
Definition kept_ty : ty := TStruct [TSizedSlice (TInt U8) 2; TOption TSystemTime; TSizedSlice TUnit 3; TRangeInclusive (TInt U16)].
Definition kept (items : list val) (nanos : Z) (exhausted : bool) : val :=
  VTuple [VSeq items; VSome (VTime 5 nanos); VSeq [VUnit]; VRangeInclusive (VInt 1) (VInt 2) exhausted].

Example C104_case : EnumsOk kept_ty /\ dec_ety kept_ty <> None /\
  (wt kept_ty (kept [VInt 7; VInt 8] 0 false) /\
   Appends (encode true kept_ty (kept [VInt 7; VInt 8] 0 false)) [x02; x00; x07; x08; x01; x05; x00; x00; x00; x00; x00; x00; x00; x01; x00; x01; x00; x02; x00] (Ok tt) /\
   Survives kept_ty (kept [VInt 7; VInt 8] 0 false)) /\
  ~ Survives kept_ty (kept [VInt 7] 0 false) /\ ~ Survives kept_ty (kept [VInt 7; VInt 8] 1 false) /\ ~ Survives kept_ty (kept [VInt 7; VInt 8] 0 true).
Proof.
  repeat match goal with |- _ /\ _ => split end.
  - cbn. tauto.
  - discriminate.
  - cbn. unfold in_ity. cbn. repeat split; try lia; repeat constructor; cbn; try lia.
  - apply (appends_by_run true 40); vm_compute; reflexivity.
  - cbn. repeat split; auto; repeat constructor.
  - cbn. intros H. destruct H as [[[H|H] _] _]; discriminate.
  - cbn. intros (_ & H & _). discriminate.
  - cbn. intros (_ & _ & _ & [H _] & _). discriminate.
Qed.
