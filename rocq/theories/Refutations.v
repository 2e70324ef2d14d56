(* Witnesses against the properties of values that the code violates. *)
From Coq Require Import Lia ZifyBool ZifyNat ZifyN.
From Verif Require Import Base BaseFacts Streams StreamFacts Utf8 Types Traits Encode Decode Sized Spec SpecCalls SpecDecode SpecValues SpecSize
  SpecDerive ComputeFacts NumberProofs.
Set Implicit Arguments.
Local Open Scope Z_scope.

Ltac run n := apply (@appends_by_run _ n); [vm_compute; reflexivity | reflexivity].
Ltac values := cbn [wt]; unfold in_ity; cbn [isigned iwidth]; repeat (first [split | apply Forall_cons | apply Forall_nil]); cbn [wt]; unfold in_ity; cbn [isigned iwidth]; try lia.

Ltac nodup := repeat (constructor; [cbn [In map fst]; intuition congruence|]); constructor.

(* the set {1, 0, 5}, iterated in this order, comes back as {5} *)
Lemma set_lost : exists v bs v', wt (THashSet (TInt U8)) v /\ Appends (encode true (THashSet (TInt U8)) v) bs (Ok tt) /\
  Yields (decode (THashSet (TInt U8))) bs v' /\ v = VSet [VInt 1; VInt 0; VInt 5] /\ v' = VSet [VInt 5].
Proof.
  exists (VSet [VInt 1; VInt 0; VInt 5]), [x01; x00; x05], (VSet [VInt 5]). split; [|split; [|split; [|split; reflexivity]]].
  - split; [nodup|]. repeat constructor; vm_compute; congruence.
  - run 9%nat.
  - apply yields_by_run. vm_compute. reflexivity.
Qed.

Lemma map_lost : exists v bs v', wt (THashMap (TInt U8) (TInt U8)) v /\ Appends (encode true (THashMap (TInt U8) (TInt U8)) v) bs (Ok tt) /\
  Yields (decode (THashMap (TInt U8) (TInt U8))) bs v' /\ v = VMap [(VInt 1, VInt 0); (VInt 5, VInt 6)] /\ v' = VMap [(VInt 5, VInt 6)].
Proof.
  exists (VMap [(VInt 1, VInt 0); (VInt 5, VInt 6)]), [x01; x00; x05; x06], (VMap [(VInt 5, VInt 6)]). split; [|split; [|split; [|split; reflexivity]]].
  - split; [nodup|]. repeat constructor; vm_compute; congruence.
  - run 9%nat.
  - apply yields_by_run. vm_compute. reflexivity.
Qed.

(* an encoding that decoding does not turn into an equal value *)
Definition Lost (t : ty) (v : val) : Prop :=
  enc_ety t <> None /\ dec_ety t <> None /\ wt t v /\
  exists bs, Appends (encode true t v) bs (Ok tt) /\ forall v', Yields (decode t) bs v' -> erase v' <> erase v.

Ltac lost n := split; [discriminate|]; split; [discriminate|]; split; [|eexists; split; [run n|]].
Ltac differs := intros v' H; apply yields_run in H; vm_compute in H; injection H as <-; vm_compute; congruence.
Ltac nothing := intros v' H; apply yields_run in H; vm_compute in H; discriminate.

Lemma C13_refutation :
  Lost (THashSet (TInt U8)) (VSet [VInt 1; VInt 0; VInt 5]) /\
  Lost (THashMap (TInt U8) (TInt U8)) (VMap [(VInt 1, VInt 0); (VInt 5, VInt 6)]) /\
  Lost (TSizedSlice (TInt U8) 2) (VSeq [VInt 7]) /\
  Lost (TRangeInclusive (TInt U8)) (VRangeInclusive (VInt 3) (VInt 3) true) /\
  Lost TSystemTime (VTime 0 500000000).
Proof.
  split; [|split; [|split; [|split]]].
  - lost 9%nat; [|differs]. split; [nodup|]. repeat constructor; vm_compute; congruence.
  - lost 9%nat; [|differs]. split; [nodup|]. repeat constructor; vm_compute; congruence.
  - lost 9%nat; [|nothing]. split; [cbn; lia|]. repeat constructor; vm_compute; congruence.
  - lost 9%nat; [|differs]. repeat constructor; vm_compute; congruence.
  - lost 9%nat; [|differs]. cbn. lia.
Qed.

Lemma C14_refutation : exists o', encode_list true [(THashSet (TInt U8), VSet [VInt 1; VInt 0; VInt 5]); (TInt U8, VInt 9)] (output_new (repeat x00 9)) = (o', Ok tt) /\
  decode_list [THashSet (TInt U8); TInt U8] (input_new (output_as_slice o')) = (Input (output_as_slice o') 4, Ok [VSet [VInt 5]; VInt 9]).
Proof. eexists. split; vm_compute; reflexivity. Qed.

Lemma C17_refutation :
  (exists t v1 v2 b s, wt t v1 /\ wt t v2 /\ s <> [] /\
     Appends (encode true t v1) b (Ok tt) /\ Appends (encode true t v2) (b ++ s) (Ok tt)) /\
  (exists t v1 v2 b, wt t v1 /\ wt t v2 /\ erase v1 <> erase v2 /\
     Appends (encode true t v1) b (Ok tt) /\ Appends (encode true t v2) b (Ok tt)).
Proof.
  split.
  - exists (THashSet (TInt U8)), (VSet [VInt 1]), (VSet [VInt 1; VInt 2]), [x01], [x02]. split; [|split; [|split; [|split]]].
    + split; [nodup|]. repeat constructor; vm_compute; congruence.
    + split; [nodup|]. repeat constructor; vm_compute; congruence.
    + discriminate.
    + run 9%nat.
    + run 9%nat.
  - exists TSystemTime, (VTime 0 0), (VTime 0 5), (repeat x00 8). split; [cbn; lia|]. split; [cbn; lia|]. split; [vm_compute; congruence|]. split; run 9%nat.
Qed.

Lemma C18_refutation : exists i i' v, in_bounds i /\ decode TChar i = (i', Ok v) /\ ~ wt TChar v.
Proof.
  exists (Input [x00; xde; x00; x00] 0), (Input [x00; xde; x00; x00] 4), (VChar 56832). split; [vm_compute; lia|]. split; [vm_compute; reflexivity|].
  vm_compute. discriminate.
Qed.

Lemma C19_refutation : exists cp bs, is_scalar cp = false /\ le_repr 4 cp bs /\ Yields (decode TChar) bs (VChar cp).
Proof.
  exists 56832, [x00; xde; x00; x00]. split; [reflexivity|]. split; [apply WireFacts.le_repr_iff; vm_compute; reflexivity|].
  apply yields_by_run. vm_compute. reflexivity.
Qed.

Lemma C20_refutation :
  (exists bs v, wt TBool v /\ Yields (decode TBool) bs v /\ ~ Appends (encode true TBool v) bs (Ok tt)) /\
  (exists bs v, wt TDuration v /\ Yields (decode TDuration) bs v /\ ~ Appends (encode true TDuration v) bs (Ok tt)).
Proof.
  split.
  - exists [x02], (VBool true). split; [exact I|]. split; [apply yields_by_run; vm_compute; reflexivity|].
    apply (@appends_not _ 9%nat _ _ [x01] (Ok tt)); [vm_compute; reflexivity | reflexivity | left; congruence].
  - exists (repeat x00 8 ++ [x00; xca; x9a; x3b]), (VDuration 1 0). split; [cbn; lia|]. split; [apply yields_by_run; vm_compute; reflexivity|].
    apply (@appends_not _ 20%nat _ _ (x01 :: repeat x00 11) (Ok tt)); [vm_compute; reflexivity | reflexivity | left; vm_compute; congruence].
Qed.

Lemma C33_refutation :
  (exists v bs, wt (TSlice (TInt U8)) v /\ Appends (encode true (TSlice (TInt U8)) v) bs (Ok tt) /\
     forall v', ~ Yields (decode (TSizedSlice (TInt U8) 2)) bs v') /\
  (exists v bs, wt TStr v /\ Appends (encode true TStr v) bs (Ok tt) /\ forall v', ~ Yields (decode (TSizedStr 1)) bs v').
Proof.
  split.
  - exists (VSeq [VInt 7]), [x01; x00; x07]. split; [repeat constructor; vm_compute; congruence|]. split; [run 9%nat|]. nothing.
  - exists (VStr [x61; x62]), [x02; x00; x61; x62]. split.
    + exists [97; 98]. split; [repeat constructor | reflexivity].
    + split; [run 9%nat|]. nothing.
Qed.

Lemma C35_refutation :
  (exists t v n o o', (forall so, max_size so t = Some n) /\ wt t v /\ output_position o = 0%nat /\
     encode true t v o = (o', Ok tt) /\ (n < N.of_nat (output_position o'))%N) /\
  (forall so, so (TOption (TNonZero U8)) = 1%N -> so TUnit = 0%N -> exists t v n o o', max_size so t = Some n /\ wt t v /\ output_position o = 0%nat /\
     encode true t v o = (o', Ok tt) /\ (n < N.of_nat (output_position o'))%N).
Proof.
  split.
  - exists (TSizedSlice (TInt U8) 1), (VSeq [VInt 7]), 1%N, (output_new (repeat x00 9)). eexists. split; [reflexivity|].
    split; [split; [cbn; lia | repeat constructor; vm_compute; congruence]|]. split; [reflexivity|]. split; [vm_compute; reflexivity | vm_compute; reflexivity].
  - intros so H1 H2. exists (TResult (TOption (TNonZero U8)) TUnit), (VOk (VSome (VInt 7))), 2%N, (output_new (repeat x00 9)). eexists.
    split; [cbn; rewrite H1, H2; reflexivity|].
    split; [cbn; lia|]. split; [reflexivity|]. split; [vm_compute; reflexivity | vm_compute; reflexivity].
Qed.

Lemma C36_refutation :
  (exists t n i i' e, (forall so, max_size so t = Some n) /\ decode t i = (i', Err e) /\ (n < N.of_nat (input_position i' - input_position i))%N) /\
  (exists t n i i' v, (forall so, max_size so t = Some n) /\ decode t i = (i', Ok v) /\ (n < N.of_nat (input_position i' - input_position i))%N) /\
  (exists t n i i' e, t = TEnum U8 [] /\ (forall so, max_size so t = Some n) /\ decode t i = (i', Err e) /\ (n < N.of_nat (input_position i' - input_position i))%N).
Proof.
  split; [|split].
  - exists (TSizedStr 1), 3%N, (input_new [x03; x00; x61; x62; x63]). eexists. eexists. split; [reflexivity|]. split; vm_compute; reflexivity.
  - exists (TSizedSlice (TInt U8) 1), 1%N, (input_new [x01; x00; x61]). eexists. eexists. split; [reflexivity|]. split; vm_compute; reflexivity.
  - exists (TEnum U8 []), 0%N, (input_new [x01; x00; x61]). eexists. eexists. split; [reflexivity|]. split; [reflexivity|]. split; vm_compute; reflexivity.
Qed.

(* a struct whose field is an enum of representation i8 without variants, read from the octet ff *)
Lemma C42_refutation : exists t i i' d r, in_ity r d /\
  decode (TStruct [t]) i = (i', Err (into_generic_dec (DUnassigned r d))) /\
  into_generic_dec (DUnassigned r d) <> DGUnassigned (zero_extended r d).
Proof.
  exists (TEnum I8 []), (input_new [xff]). exists (Input [xff] 1), (-1), I8. split; [vm_compute; split; congruence|].
  split; [vm_compute; reflexivity | vm_compute; congruence].
Qed.

Lemma C65_refutation :
  (exists t, enc_ety t <> None /\ enc_ety (TStruct [t]) = None) /\
  (exists t, dec_ety t <> None /\ dec_ety (TStruct [t]) = None) /\
  enc_ety (TRefCell (TInt U8)) <> None /\ enc_ety (TStruct [TRefCell (TInt U8)]) = None /\
  enc_ety (TLinked (TInt U8)) <> None /\ enc_ety (TStruct [TLinked (TInt U8)]) = None /\
  dec_ety TChar <> None /\ dec_ety (TStruct [TChar]) = None /\
  dec_ety (TResult TUnit TUnit) <> None /\ dec_ety (TStruct [TResult TUnit TUnit]) = None.
Proof.
  split; [exists (TRefCell (TInt U8)); split; [discriminate | reflexivity]|].
  split; [exists TChar; split; [discriminate | reflexivity]|]. repeat split; try reflexivity; discriminate.
Qed.

(* decoding Vec<char> fails with an error of a type that converts into Infallible *)
Lemma C67_refutation : exists t z i i' e, dec_ety t = Some z /\ into_infallible_dety z = true /\ decode t i = (i', Err e).
Proof.
  exists (TVec TChar), (ZColl ZInfallible (ZItem ZChar)), (input_new [x01; x00; x00; xd8; x00; x00]). eexists. eexists.
  split; [reflexivity|]. split; [reflexivity|]. vm_compute. reflexivity.
Qed.
