(* C33, exactly: which types decode every encoding of the type they borrow as, and which values. *)
From Verif Require Import Base Streams Types Traits Encode Decode Spec SpecCalls SpecDecode SpecPeak SpecWork SpecEq SpecValues SpecSurvive SpecReach SpecBorrowExact BorrowExact.

(* The encoding of a value decodes as the owned type exactly if the value is one of that type too, and survives in the sense of C104. *)
Theorem C33_values : forall checks o b mk v bs, Borrows o b mk -> EnumsOk o -> dec_ety o <> None -> wt b v -> Appends (encode checks b v) bs (Ok tt) ->
  ((exists i' v', decode o (input_new bs) = (i', Ok v') /\ SameValue o v' (mk v)) <-> wt o (mk v) /\ Survives o (mk v)).
Proof. exact C33_values_lemma. Qed.
Print Assumptions C33_values.

(* All values do exactly if the owned type has room for them all, and itself keeps all its values (C13_exact): Vec, String, CString, Box, Rc and Arc
   do unless a fleeting type occurs in the items; SizedStr does only from a capacity of 65535 on; SizedSlice only if its items take no octets and
   its capacity is as large, or if the items have no value to encode and the capacity is 0. *)
Theorem C33_exact : forall checks o b mk, Borrows o b mk -> EnumsOk o -> dec_ety o <> None ->
  ((forall v bs, wt b v -> Appends (encode checks b v) bs (Ok tt) -> exists i' v', decode o (input_new bs) = (i', Ok v') /\ SameValue o v' (mk v)) <->
   occurs a_fleeting o = false /\ roomy o b).
Proof. exact C33_exact_lemma. Qed.
Print Assumptions C33_exact.

Example C33_exact_case :
  (occurs a_fleeting (TVec (TOption TString)) = false /\ roomy (TVec (TOption TString)) (TSlice (TOption TString))) /\
  (occurs a_fleeting (TSizedSlice TUnit (Z.to_nat 65535)) = false /\ roomy (TSizedSlice TUnit (Z.to_nat 65535)) (TSlice TUnit)) /\
  ~ roomy (TSizedSlice TUnit 7) (TSlice TUnit) /\ roomy (TSizedSlice TInfallible 0) (TSlice TInfallible) /\
  ~ roomy (TSizedStr 255) TStr /\ occurs a_fleeting (TWrap WBox (TRangeInclusive (TInt U8))) = true.
Proof.
  assert (P : forall n, occurs a_fleeting (TSizedSlice TUnit n) = false) by (intros n; cbn; rewrite !Bool.andb_false_r; reflexivity).
  refine (conj (conj eq_refl I) (conj (conj (P _) (or_intror _)) (conj _ (conj (or_introl eq_refl) (conj _ eq_refl))))).
  - rewrite Z2Nat.id; [apply Z.le_refl|discriminate].
  - intros [H|H]; [discriminate H|]. apply H. reflexivity.
  - intros H. apply H. reflexivity.
Qed.
