(* Vocabulary of C93_survivors and C93_exact. Definitions only. *)
From Verif Require Import Base Streams Types Decode SpecCalls SpecEq SpecSurvive Recursive.
Set Implicit Arguments.

(* The octets are decoded to the same value, by calls nested at least as deep as the value is. *)
Definition comes_back (defs : nat -> rdef) (k n : nat) (v : val) (bs : list byte) : Prop :=
  exists v', SameValue (unroll defs n k) v' v /\ forall m, (n <= m)%nat -> exists i', decode (unroll defs m k) (input_new bs) = (i', Ok v').
