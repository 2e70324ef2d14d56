(* Vocabulary of C104: which values come back from their own encodings. Definitions only. *)
From Coq Require Import Permutation.
From Verif Require Import Base Types SpecEq SpecWork.
Set Implicit Arguments.

(* [SameValue t v w]: [v] and [w] are equal in the widest sense. They are equal in the sense of `==`, or identical where `==` is not defined
   or not reflexive (floats that are not numbers). The state of locks and cells, and whether a Cow is borrowed, do not matter; nor does the
   order in which a map or a set happens to yield its entries. *)
Fixpoint SameValue (t : ty) (v w : val) {struct t} : Prop :=
  match t, v, w with
  | TF32, VInt a, VInt b => a = b \/ float_eq 8 23 a b
  | TF64, VInt a, VInt b => a = b \/ float_eq 11 52 a b
  | TOption t, VSome v, VSome w | TResult t _, VOk v, VOk w
  | TBound t, VIncluded v, VIncluded w | TBound t, VExcluded v, VExcluded w
  | TRangeFrom t, VHalfRange v, VHalfRange w | TRangeTo t, VHalfRange v, VHalfRange w
  | TRangeToInclusive t, VHalfRange v, VHalfRange w
  | TWrap _ t, VWrap v, VWrap w | TCow t, VCow _ v, VCow _ w | TRefCell t, VRefCell _ v, VRefCell _ w
  | TLock _ t, VLock _ v, VLock _ w => SameValue t v w
  | TResult _ e, VErr v, VErr w => SameValue e v w
  | TTuple ts, VTuple vs, VTuple ws | TStruct ts, VTuple vs, VTuple ws => all3 (map SameValue ts) vs ws
  | TArray t _, VSeq vs, VSeq ws | TSlice t, VSeq vs, VSeq ws | TVec t, VSeq vs, VSeq ws | TLinked t, VSeq vs, VSeq ws
  | TSizedSlice t _, VSeq vs, VSeq ws => Forall2 (SameValue t) vs ws
  | TRange t, VRange a b, VRange c d => SameValue t a c /\ SameValue t b d
  | TRangeInclusive t, VRangeInclusive a b e, VRangeInclusive c d f => SameValue t a c /\ SameValue t b d /\ e = f
  | THashMap k x, VMap l, VMap m =>
    exists l', Permutation l l' /\ Forall2 (fun p q => SameValue k (fst p) (fst q) /\ SameValue x (snd p) (snd q)) l' m
  | THashSet k, VSet l, VSet m => exists l', Permutation l l' /\ Forall2 (SameValue k) l' m
  | TEnum r vs, VEnum i fs, VEnum j gs =>
    i = j /\ match nth_error (map (fun x => map SameValue (snd x)) vs) i with Some ps => all3 ps fs gs | None => False end
  | _, _, _ => v = w
  end.

(* [Survives t v]: no HashMap and no HashSet in the value; every SizedSlice in it full, unless its items take no octets; every SystemTime in it
   at a whole second; and no RangeInclusive in it exhausted. *)
Fixpoint Survives (t : ty) (v : val) {struct t} : Prop :=
  match t, v with
  | THashMap _ _, _ | THashSet _, _ => False
  | TSizedSlice t n, VSeq vs => (length vs = n \/ nonempty t = false) /\ Forall (Survives t) vs
  | TSystemTime, VTime _ n => n = 0%Z
  | TRangeInclusive t, VRangeInclusive a b exhausted => exhausted = false /\ Survives t a /\ Survives t b
  (* and so for the parts *)
  | TOption t, VSome v | TResult t _, VOk v | TBound t, VIncluded v | TBound t, VExcluded v
  | TWrap _ t, VWrap v | TCow t, VCow _ v | TLock _ t, VLock _ v | TRefCell t, VRefCell _ v
  | TRangeFrom t, VHalfRange v | TRangeTo t, VHalfRange v | TRangeToInclusive t, VHalfRange v => Survives t v
  | TResult _ e, VErr v => Survives e v
  | TTuple ts, VTuple vs | TStruct ts, VTuple vs => all2 (map Survives ts) vs
  | TArray t _, VSeq vs | TSlice t, VSeq vs | TVec t, VSeq vs | TLinked t, VSeq vs => Forall (Survives t) vs
  | TRange t, VRange a b => Survives t a /\ Survives t b
  | TEnum r vs, VEnum i fs =>
    match nth_error (map (fun x => map Survives (snd x)) vs) i with Some ps => all2 ps fs | None => False end
  | _, _ => True
  end.
