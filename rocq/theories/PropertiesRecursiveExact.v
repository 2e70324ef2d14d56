(* C93, exactly: which values of recursive types, and which recursive types, come back. *)
From Coq Require Import Lia.
From Verif Require Import Base Streams Types Traits Encode Decode Spec SpecCalls SpecDecode SpecEq SpecSurvive SpecReach Recursive SpecRecursive SpecRecursiveExact RecursiveExact.

(* A value of a recursive type comes back, with calls nested at least as deep as the value is, exactly if it survives as other values do. *)
Theorem C93_survivors : forall checks defs k n v bs, EnumsOk (unroll defs n k) -> dec_ety (unroll defs n k) <> None -> wt (unroll defs n k) v ->
  Appends (encode checks (unroll defs n k) v) bs (Ok tt) -> (comes_back defs k n v bs <-> Survives (unroll defs n k) v).
Proof. exact C93_survivors_lemma. Qed.
Print Assumptions C93_survivors.

(* All values of all depths come back exactly if at no depth a fleeting type occurs in a value that can be encoded. *)
Theorem C93_exact : forall checks defs k, (forall n, EnumsOk (unroll defs n k) /\ dec_ety (unroll defs n k) <> None) ->
  ((forall n v bs, wt (unroll defs n k) v -> Appends (encode checks (unroll defs n k) v) bs (Ok tt) -> comes_back defs k n v bs) <->
   forall n, occurs a_fleeting (unroll defs n k) = false).
Proof. exact C93_exact_lemma. Qed.
Print Assumptions C93_exact.

(* `enum List { Nil, Cons(u8, Box<List>) }` is one of these types, `struct Tags(HashSet<u8>, Vec<Tags>)` is not. *)
Example C93_exact_case : (forall n, EnumsOk (unroll list_defs n 0) /\ dec_ety (unroll list_defs n 0) <> None) /\
  (forall n, occurs a_fleeting (unroll list_defs n 0) = false) /\ wt (unroll list_defs 2 0) (VEnum 1 [VInt 7; VWrap (VEnum 0 [])]) /\
  occurs a_fleeting (unroll tags_defs 1 0) = true.
Proof. refine (conj list_decodes (conj list_kept (conj _ eq_refl))). cbn. repeat split; repeat constructor; cbn; intuition (discriminate || lia). Qed.
