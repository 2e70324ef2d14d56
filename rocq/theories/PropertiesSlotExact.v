(* C44, C46, C48: for exactly which types they hold. *)
From Coq Require Import Lia.
From Verif Require Import Base Streams Types Traits Encode Decode Sized Slot Spec SpecCalls SpecDecode SpecEq SpecSurvive SpecReach SlotExactProofs.

(* C44: every value written into a Slot is read back equal, exactly for the types of C13_exact. *)
Theorem C44_exact : forall checks t, EnumsOk t -> dec_ety t <> None ->
  ((forall s v s', wt t v -> slot_write checks t s v = (s', Ok tt) -> exists v', slot_read t s' = Ok v' /\ SameValue t v' v) <->
   occurs a_fleeting t = false).
Proof. exact C44_exact_lemma. Qed.
Print Assumptions C44_exact.

(* C46: of the types that can be decoded at all, reading sees only the marked octets exactly for those that take none. *)
Theorem C46_exact : forall t, EnumsOk t -> decodable t = true ->
  ((forall s, slot_length s <= slot_capacity s -> slot_read t s = snd (decode t (input_new (slot_as_slice s)))) <-> takes_octets t = false).
Proof. exact C46_exact_lemma. Qed.
Print Assumptions C46_exact.

(* C48: nor do copied octets decode as an Input over them does, but for those types. *)
Theorem C48_exact : forall t, EnumsOk t -> decodable t = true ->
  ((forall s data s', slot_copy_from_slice s data = (s', Ok tt) -> slot_read t s' = snd (decode t (input_new data))) <-> takes_octets t = false).
Proof. exact C48_exact_lemma. Qed.
Print Assumptions C48_exact.

Example C44_exact_case :
  EnumsOk (TOption (TSizedSlice (TInt U8) 2)) /\ dec_ety (TOption (TSizedSlice (TInt U8) 2)) <> None /\ occurs a_fleeting (TOption (TSizedSlice (TInt U8) 2)) = true /\
  slot_write true (TOption (TSizedSlice (TInt U8) 2)) (Slot [xff; xff; xff; xff] 3) (VSome (VSeq [VInt 7])) = (Slot [x01; x01; x00; x07] 4, Ok tt) /\
  (exists p, slot_read (TOption (TSizedSlice (TInt U8) 2)) (Slot [x01; x01; x00; x07] 4) = Panic p) /\
  occurs a_fleeting (TVec (TOption TString)) = false /\
  slot_write true (TVec (TOption TString)) (Slot [xff; xff; xff; xff; xff] 5) (VSeq [VSome (VStr [])]) = (Slot [x01; x00; x01; x00; x00] 5, Ok tt).
Proof. repeat match goal with |- _ /\ _ => split end; try exact I; try (vm_compute; discriminate); try (eexists; vm_compute; reflexivity); vm_compute; reflexivity. Qed.
Example C46_exact_case :
  decodable (TTuple [TUnit; TArray TPhantomData 3]) = true /\ takes_octets (TTuple [TUnit; TArray TPhantomData 3]) = false /\
  takes_octets (TTuple [TUnit; TArray TBool 1]) = true /\ slot_read TBool (Slot [x01] 0) = Ok (VBool true) /\
  (exists i' p, decode TBool (input_new (slot_as_slice (Slot [x01] 0))) = (i', Panic p)).
Proof. repeat match goal with |- _ /\ _ => split end; try (vm_compute; reflexivity). eexists. eexists. vm_compute. reflexivity. Qed.
