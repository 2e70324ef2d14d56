(* The exact form of C56. *)
From Coq Require Import Lia.
From Verif Require Import Base Streams Types Traits Encode Decode Spec SpecCalls SpecDecode SpecPeak SpecWork SpecEq SpecSurvive SpecReach SpecValues
  SpecBorrowExact SurviveProofs ReachProofs WriteProofs BorrowExact.
Set Implicit Arguments.

Lemma C56_values_lemma : forall checks t n vs bs, EnumsOk t -> dec_ety t <> None -> wt (TSlice t) (VSeq vs) -> length vs <= n ->
  Appends (encode checks (TSlice t) (VSeq vs)) bs (Ok tt) ->
  ((exists i' v', decode (TSizedSlice t n) (input_new bs) = (i', Ok v') /\ SameValue (TSizedSlice t n) v' (VSeq vs)) <->
   (length vs = n \/ nonempty t = false) /\ Forall (Survives t) vs).
Proof.
  intros ch t n vs bs He Hd Hw Hl Ha. assert (Hd' : dec_ety (TSizedSlice t n) <> None) by (cbn [dec_ety]; destruct (dec_ety t); cbn; congruence).
  rewrite (@C33_values_lemma ch (TSizedSlice t n) (TSlice t) (fun v => v) (VSeq vs) bs ltac:(constructor) He Hd' Hw Ha).
  cbn [wt Survives]. split; [tauto|]. intros H. split; [|exact H]. split; [exact Hl|exact Hw].
Qed.

Lemma C56_exact_lemma : forall checks t n, EnumsOk t -> dec_ety t <> None ->
  ((forall vs bs, wt (TSlice t) (VSeq vs) -> length vs <= n -> Appends (encode checks (TSlice t) (VSeq vs)) bs (Ok tt) ->
      exists i' v', decode (TSizedSlice t n) (input_new bs) = (i', Ok v') /\ SameValue (TSizedSlice t n) v' (VSeq vs)) <->
   n = 0 \/ (nonempty t = false /\ occurs a_fleeting t = false)).
Proof.
  intros ch t n He Hd. assert (Hd' : dec_ety (TSizedSlice t n) <> None) by (cbn [dec_ety]; destruct (dec_ety t); cbn; congruence).
  transitivity (occurs a_fleeting (TSizedSlice t n) = false).
  - rewrite <- (@C13_exact_lemma ch (TSizedSlice t n) He Hd'). split.
    + intros H v bs Hw Ha. destruct v; try contradiction Hw. cbn [wt] in Hw. destruct Hw as [Hl Hw]. exact (H vs bs Hw Hl Ha).
    + intros H vs bs Hw Hl Ha. apply (H (VSeq vs) bs (conj Hl Hw) Ha).
  - cbn [occurs a_fleeting]. destruct n as [|n]; cbn [Nat.ltb Nat.leb andb orb]; [tauto|].
    rewrite Bool.orb_false_iff. split; [tauto|]. intros [E|E]; [discriminate E|exact E].
Qed.
