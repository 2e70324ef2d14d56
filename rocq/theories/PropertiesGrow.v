(* C108: data and programs of different versions. *)
From Coq Require Import Lia Permutation.
From Verif Require Import Base Streams Types Encode Decode Spec SpecCalls SpecDecode SpecForm SpecGrow ComputeFacts GrowProofs.
Set Implicit Arguments.

(* C108: a program with [t'] in place of [t] reads what a program with [t] reads, as the same content, and stops at the same position; *)
Theorem C108_reads_old : forall t t' i i' v, Understands true t' t -> decode t i = (i', Ok v) ->
  exists v', decode t' i = (i', Ok v') /\ content true t' v' = content true t v.
Proof. exact C108_reads_lemma. Qed.
Print Assumptions C108_reads_old.

(* if it only knows the beginning, then it reads the beginning *)
Theorem C108_reads_head : forall n t t' i i' v, UnderstandsHead n t' t -> decode t i = (i', Ok v) ->
  exists i1 v', decode t' i = (i1, Ok v') /\ content true t' v' = firstn n (content true t v) /\ input_position i <= input_position i1 <= input_position i'.
Proof. exact C108_head_lemma. Qed.
Print Assumptions C108_reads_head.

(* in particular what was written as a value of [t] *)
Theorem C108_crossing : forall checks n t t' v bs, wt t v -> RoundTrips t v -> Appends (encode checks t v) bs (Ok tt) -> UnderstandsHead n t' t ->
  exists b1 b2 v', bs = b1 ++ b2 /\ Yields (decode t') b1 v' /\ content true t' v' = firstn n (content true t (norm v)).
Proof. exact C108_crossing_lemma. Qed.
Print Assumptions C108_crossing.

(* and a value that has a meaning for both is written alike by both *)
Theorem C108_written : forall checks t t' v v' o, Understands false t' t -> wt t v -> wt t' v' -> content false t v = content false t' v' ->
  output_position o <= output_capacity o ->
  fst (encode checks t' v' o) = fst (encode checks t v o) /\
  match snd (encode checks t v o) with
  | Ok _ => snd (encode checks t' v' o) = Ok tt
  | Err e => exists e', snd (encode checks t' v' o) = Err e'
  | Panic p => snd (encode checks t' v' o) = Panic p
  end.
Proof. exact C108_writes_lemma. Qed.
Print Assumptions C108_written.

(* An enumeration understands another one if it has all its numbers, wherever they are listed, with fields that understand its fields; *)
Theorem C108_enum : forall reading r vs vs', enum_ok r vs -> enum_ok r vs' ->
  (forall k d e ts, Assigned (map fst vs) k d -> nth_error vs k = Some (e, ts) ->
     exists k' e' ts', Assigned (map fst vs') k' d /\ nth_error vs' k' = Some (e', ts') /\ Understands reading (TTuple ts') (TTuple ts)) ->
  Understands reading (TEnum r vs') (TEnum r vs).
Proof. exact C108_enum_lemma. Qed.
Print Assumptions C108_enum.

(* variants with explicit numbers may be listed in any order *)
Theorem C108_reordered : forall reading r vs vs', enum_ok r vs -> Permutation vs vs' -> (forall x, In x vs -> fst x <> None) ->
  enum_ok r vs' /\ Understands reading (TEnum r vs') (TEnum r vs) /\ Understands reading (TEnum r vs) (TEnum r vs').
Proof. exact C108_reordered_lemma. Qed.
Print Assumptions C108_reordered.

(* but a number that is not known is refused. *)
Theorem C108_removed : forall checks r vs vs' k fs d bs, enum_ok r vs -> enum_ok r vs' -> wt (TEnum r vs) (VEnum k fs) -> Assigned (map fst vs) k d ->
  (forall k', ~ Assigned (map fst vs') k' d) -> Appends (encode checks (TEnum r vs) (VEnum k fs)) bs (Ok tt) ->
  exists db rest, bs = db ++ rest /\ Refuses (decode (TEnum r vs')) db (DUnassigned r d).
Proof. exact C108_removed_lemma. Qed.
Print Assumptions C108_removed.

(* The changed type may be anywhere inside; *)
Theorem C108_inside : forall reading t t', Understands reading t' t ->
  Understands reading (TOption t') (TOption t) /\ Understands reading (TVec t') (TVec t) /\ Understands reading (TLinked t') (TLinked t) /\
  (forall w, Understands reading (TWrap w t') (TWrap w t)) /\ (forall n, Understands reading (TArray t' n) (TArray t n)) /\
  (forall e e', Understands reading e' e -> Understands reading (TResult t' e') (TResult t e)) /\
  (forall pre post, Understands reading (TTuple (pre ++ t' :: post)) (TTuple (pre ++ t :: post))) /\
  (forall pre post, Understands reading (TStruct (pre ++ t' :: post)) (TStruct (pre ++ t :: post))).
Proof. exact C108_inside_lemma. Qed.
Print Assumptions C108_inside.

(* a type understands all types of its form, a plain integer one that is not zero, a longer text a shorter one; *)
Theorem C108_wider : (forall reading t t', forms reading t = forms reading t' -> Understands reading t' t) /\
  (forall i, Understands true (TInt i) (TNonZero i)) /\ (forall m n, m <= n -> Understands true (TSizedStr n) (TSizedStr m)).
Proof. exact (conj C108_like_lemma C108_leaf_lemma). Qed.
Print Assumptions C108_wider.

(* and the first fields of a structure are its beginning. *)
Theorem C108_longer : forall ts more, UnderstandsHead (length (forms true (TStruct ts))) (TStruct ts) (TStruct (ts ++ more)) /\
  UnderstandsHead (length (forms true (TTuple ts))) (TTuple ts) (TTuple (ts ++ more)).
Proof. exact C108_longer_lemma. Qed.
Print Assumptions C108_longer.

(* a list of messages, of which the second version has another order, a new variant, and a field that may be zero; the third version has a field more
   at the end *)
Example C108_case :
  let old := TVec (TEnum U8 [(Some 3%Z, [TNonZero U16]); (Some 7%Z, [])]) in
  let new := TVec (TEnum U8 [(Some 7%Z, []); (Some 1%Z, [TBool]); (Some 3%Z, [TInt U16])]) in
  let bs := [x02; x00; x07; x03; x05; x01] in
  Understands true new old /\ ~ Understands true old new /\
  UnderstandsHead 1 (TStruct [new]) (TStruct [old; TString]) /\
  Yields (decode old) bs (VSeq [VEnum 1 []; VEnum 0 [VInt 261]]) /\ Yields (decode new) bs (VSeq [VEnum 0 []; VEnum 2 [VInt 261]]) /\
  content true old (VSeq [VEnum 1 []; VEnum 0 [VInt 261]]) = content true new (VSeq [VEnum 0 []; VEnum 2 [VInt 261]]) /\
  Yields (decode (TStruct [new])) bs (VTuple [VSeq [VEnum 0 []; VEnum 2 [VInt 261]]]) /\
  Yields (decode (TStruct [old; TString])) (bs ++ [x01; x00; x61]) (VTuple [VSeq [VEnum 1 []; VEnum 0 [VInt 261]]; VStr [x61]]) /\
  Refuses (decode old) [x01; x00; x01] (DItem 0 (DUnassigned U8 1)).
Proof. exact C108_case_lemma. Qed.
