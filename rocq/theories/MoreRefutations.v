(* Witnesses against C72, C73, C75, C76 and C77. *)
From Coq Require Import Lia ZifyBool ZifyNat ZifyN Permutation.
From Verif Require Import Base BaseFacts Streams StreamFacts Utf8 Types Traits Encode Decode Sized Mem SizedSlice SizedIter Spec SpecCalls
  SpecDecode SpecWork ComputeFacts Refutations Heap SpecHeap.
Set Implicit Arguments.
Local Open Scope Z_scope.

Lemma C72_encode_refutation : exists t v o, wt t v /\ (output_position o <= output_capacity o)%nat /\
  (exists o', encode true t v o = (o', Panic PArith)) /\
  (exists o', encode false t v o = (o', Ok tt)).
Proof.
  exists TSystemTime, (VTime (- 2 ^ 63) 0), (output_new (repeat x00 8)). split; [cbn; lia|]. split; [cbn; lia|].
  split; eexists; vm_compute; reflexivity.
Qed.

Lemma C73_refutation :
  (exists i i' v bs, in_bounds i /\ decode (TSizedSlice (TInt U8) 2) i = (i', Ok v) /\
     Appends (encode true (TSizedSlice (TInt U8) 2) v) bs (Ok tt) /\ forall v', ~ Yields (decode (TSizedSlice (TInt U8) 2)) bs v') /\
  (exists i i' v bs v', in_bounds i /\ decode (THashSet (TInt U8)) i = (i', Ok v) /\
     Appends (encode true (THashSet (TInt U8)) v) bs (Ok tt) /\ Yields (decode (THashSet (TInt U8))) bs v' /\
     v = VSet [VInt 1; VInt 0; VInt 5] /\ v' = VSet [VInt 5]) /\
  (exists i i' v bs v', in_bounds i /\ decode (THashMap (TInt U8) (TInt U8)) i = (i', Ok v) /\
     Appends (encode true (THashMap (TInt U8) (TInt U8)) v) bs (Ok tt) /\ Yields (decode (THashMap (TInt U8) (TInt U8))) bs v' /\
     v = VMap [(VInt 1, VInt 0); (VInt 5, VInt 6)] /\ v' = VMap [(VInt 5, VInt 6)]).
Proof.
  split; [|split].
  - exists (input_new [x01; x00; x07; x08]), (Input [x01; x00; x07; x08] 4), (VSeq [VInt 7]), [x01; x00; x07].
    split; [apply Nat.le_0_l|]. split; [vm_compute; reflexivity|]. split; [run 9%nat|]. nothing.
  - exists (input_new [x03; x00; x01; x00; x05]), (Input [x03; x00; x01; x00; x05] 5), (VSet [VInt 1; VInt 0; VInt 5]), [x01; x00; x05], (VSet [VInt 5]).
    split; [apply Nat.le_0_l|]. split; [vm_compute; reflexivity|]. split; [run 9%nat|]. split; [|split; reflexivity].
    apply yields_by_run. vm_compute. reflexivity.
  - exists (input_new [x02; x00; x01; x00; x05; x06]), (Input [x02; x00; x01; x00; x05; x06] 6), (VMap [(VInt 1, VInt 0); (VInt 5, VInt 6)]),
      [x01; x00; x05; x06], (VMap [(VInt 5, VInt 6)]).
    split; [apply Nat.le_0_l|]. split; [vm_compute; reflexivity|]. split; [run 9%nat|]. split; [|split; reflexivity].
    apply yields_by_run. vm_compute. reflexivity.
Qed.

(* the number of items in a Vec<()> is whatever the first two octets say *)
Lemma units_decoded n i x : dec_items (decode TUnit) n i x = (x, Ok (repeat VUnit n)).
Proof.
  revert i x. induction n as [|n IH]; intros i x; cbn [dec_items]; [reflexivity|].
  unfold dbind, dmap_err, dmap, dbind. cbn [decode]. unfold dok at 1. rewrite IH. reflexivity.
Qed.
Lemma C75_refutation : exists i i' v, in_bounds i /\ decode (TVec TUnit) i = (i', Ok v) /\
  (input_position i' - input_position i = 2)%nat /\ Z.of_nat (items_in (TVec TUnit) v) = 65535.
Proof.
  exists (input_new [xff; xff]), (Input [xff; xff] 2), (VSeq (repeat VUnit (Z.to_nat 65535))).
  split; [apply Nat.le_0_l|]. split.
  - cbn [decode]. unfold dec_vec. unfold dbind at 1. change (dec_usize (input_new [xff; xff])) with (Input [xff; xff] 2, @Ok derr Z 65535).
    cbn beta iota. unfold dmap, dbind. rewrite units_decoded. reflexivity.
  - split; [reflexivity|]. cbn [items_in]. rewrite repeat_length.
    assert (Hz : forall n, list_sum (map (items_in TUnit) (repeat VUnit n)) = 0%nat) by (induction n; [reflexivity | exact IHn]).
    rewrite Hz, Nat.add_0_r, Z2Nat.id by lia. reflexivity.
Qed.

(* a list of two texts of which the second is no text: the first is never freed *)
Lemma C76_refutation :
  (exists i i' e es, hdecode (TVec TString) i = (i', Err e, es) /\ leaked es = [VStr [x61]]) /\
  (exists i i' e es, hdecode (TArray TString 2) i = (i', Err e, es) /\ leaked es = [VStr [x61]]) /\
  (exists i i' e es, hdecode (TSizedSlice TString 2) i = (i', Err e, es) /\ leaked es = [VStr [x61]]) /\
  (* the same if the input ends too early *)
  (exists i i' p es, hdecode (TVec TString) i = (i', Panic p, es) /\ leaked es = [VStr [x61]]) /\
  (* and without any failure: what a SizedSlice decodes behind its length *)
  (exists i i' v es, hdecode (TSizedSlice TString 2) i = (i', Ok v, es) /\ v = VSeq [VStr [x61]] /\ leaked es = [VStr [x62]]) /\
  (* a SizedSlice that was decoded in full inside of something that was not *)
  (exists i i' e es, hdecode (TTuple [TSizedSlice TString 1; TString]) i = (i', Err e, es) /\ leaked es = [VStr [x61]]).
Proof.
  split; [|split; [|split; [|split; [|split]]]].
  - exists (input_new [x02; x00; x01; x00; x61; x01; x00; xff]). do 3 eexists. split; vm_compute; reflexivity.
  - exists (input_new [x01; x00; x61; x01; x00; xff]). do 3 eexists. split; vm_compute; reflexivity.
  - exists (input_new [x02; x00; x01; x00; x61; x01; x00; xff]). do 3 eexists. split; vm_compute; reflexivity.
  - exists (input_new [x02; x00; x01; x00; x61; x01]). do 3 eexists. split; vm_compute; reflexivity.
  - exists (input_new [x01; x00; x01; x00; x61; x01; x00; x62]). do 3 eexists. split; [|split]; vm_compute; reflexivity.
  - exists (input_new [x01; x00; x01; x00; x61; x01; x00; xff]). do 3 eexists. split; vm_compute; reflexivity.
Qed.

(* an input of two octets reserves room for 65535 items of 8000 octets each *)
Lemma C77_refutation : exists i i' p es, hdecode (TVec (TArray (TInt U64) 1000)) i = (i', Panic p, es) /\ input_capacity i = 2%nat /\
  map (fun p => (fst p, Z.of_nat (snd p))) (reserved es) = [(TArray (TInt U64) 1000, 65535)].
Proof.
  exists (input_new [xff; xff]), (Input [xff; xff] 2). do 2 eexists. split; [|split]; [|reflexivity|].
  - cbn [hdecode]. unfold h_vec, hbind at 1, hplain. change (dec_usize (input_new [xff; xff])) with (Input [xff; xff] 2, @Ok derr Z 65535).
    cbn beta iota. unfold hreserve, hmap.
    assert (Hn : exists n, Z.to_nat 65535 = S n) by (exists (Z.to_nat 65534); lia). destruct Hn as [n Hn]. rewrite Hn. cbn [h_items].
    unfold hbind at 1, hmap_err. unfold h_array at 1, hmap at 1.
    assert (Hm : exists m, 1000%nat = S m) by (exists 999%nat; reflexivity). destruct Hm as [m Hm]. rewrite Hm. cbn [h_items].
    unfold hbind at 1, hmap_err. cbn [hplain]. change (decode (TInt U64)) with (dmap VInt (dec_int U64)).
    unfold hplain, dmap at 1, dbind at 1. 
    match goal with |- context [dec_int U64 ?x] => let r := eval vm_compute in (dec_int U64 x) in change (dec_int U64 x) with r end.
    cbn beta iota. rewrite <- Hn, <- Hm. reflexivity.
  - cbn. repeat f_equal.
Qed.
