(* Vocabulary of the properties about machines with pointers of different sizes. Definitions only. *)
From Verif Require Import Base Utf8 Types.
Set Implicit Arguments.
Local Open Scope Z_scope.

(* The number is one that a `usize` or `isize` of [bits] bits can hold. The other integers have the same range everywhere. *)
Definition int_on (bits : Z) (i : ity) (z : Z) : Prop :=
  match i with Usize => 0 <= z < 2 ^ bits | Isize => - 2 ^ (bits - 1) <= z < 2 ^ (bits - 1) | _ => True end.

(* Every usize and isize inside the value can be held on a machine with pointers of [bits] bits. *)
Fixpoint IntsOn (bits : Z) (t : ty) (v : val) {struct t} : Prop :=
  match t, v with
  | TInt i, VInt z | TNonZero i, VInt z => int_on bits i z
  | TOption t, VSome v | TResult t _, VOk v | TBound t, VIncluded v | TBound t, VExcluded v
  | TWrap _ t, VWrap v | TCow t, VCow _ v | TLock _ t, VLock _ v | TRefCell t, VRefCell _ v
  | TRangeFrom t, VHalfRange v | TRangeTo t, VHalfRange v | TRangeToInclusive t, VHalfRange v => IntsOn bits t v
  | TResult _ e, VErr v => IntsOn bits e v
  | TTuple ts, VTuple vs | TStruct ts, VTuple vs => all2 (map (IntsOn bits) ts) vs
  | TArray t _, VSeq vs | TSlice t, VSeq vs | TVec t, VSeq vs | TLinked t, VSeq vs | TSizedSlice t _, VSeq vs => Forall (IntsOn bits t) vs
  | TRange t, VRange a b | TRangeInclusive t, VRangeInclusive a b _ => IntsOn bits t a /\ IntsOn bits t b
  | THashMap k v, VMap kvs => Forall (fun p => IntsOn bits k (fst p) /\ IntsOn bits v (snd p)) kvs
  | THashSet k, VSet ks => Forall (IntsOn bits k) ks
  | TEnum r vs, VEnum i fs =>
    match nth_error (map (fun x => map (IntsOn bits) (snd x)) vs) i with Some ps => all2 ps fs | None => False end
  | _, _ => True
  end.

(* [v] is a valid value of the type on a machine with pointers of [bits] bits, at most 64. *)
Definition wt_on (bits : Z) (t : ty) (v : val) : Prop := wt t v /\ IntsOn bits t v.
