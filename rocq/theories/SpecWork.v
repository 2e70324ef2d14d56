(* Vocabulary of the properties about how much a decoder builds. Definitions only. *)
From Verif Require Import Base Utf8 Types Spec SpecDecode.
Set Implicit Arguments.

(* Types of which every encoding has at least one octet. *)
Fixpoint nonempty (t : ty) : bool :=
  match t with
  | TUnit | TPhantomData | TPhantomPinned | TRangeFull => false
  | TArray t n => negb (n =? 0) && nonempty t
  | TTuple ts | TStruct ts => existsb nonempty ts
  | TWrap _ t | TRefCell t | TLock _ t | TCow t
  | TRange t | TRangeFrom t | TRangeInclusive t | TRangeTo t | TRangeToInclusive t => nonempty t
  | _ => true
  end.

(* Types in which no collection of variable length has items that may take no octets. *)
Definition empty_items (t : ty) : bool :=
  match t with
  | TVec t | TSlice t | TLinked t | THashSet t | TSizedSlice t _ => negb (nonempty t)
  | THashMap k v => negb (nonempty k) && negb (nonempty v)
  | _ => false
  end.

(* How many items the collections of variable length inside a value have, all together: of vectors, lists, texts, maps and sets. The items of
   an array are not counted, as their number is part of the type, but the items inside of those are. *)
Fixpoint items_in (t : ty) (v : val) {struct t} : nat :=
  match t, v with
  | TOption t, VSome v | TResult t _, VOk v | TBound t, VIncluded v | TBound t, VExcluded v
  | TWrap _ t, VWrap v | TCow t, VCow _ v | TLock _ t, VLock _ v | TRefCell t, VRefCell _ v
  | TRangeFrom t, VHalfRange v | TRangeTo t, VHalfRange v | TRangeToInclusive t, VHalfRange v => items_in t v
  | TResult _ e, VErr v => items_in e v
  | TTuple ts, VTuple vs | TStruct ts, VTuple vs => list_sum (map (fun p => fst p (snd p)) (combine (map items_in ts) vs))
  | TArray t _, VSeq vs => list_sum (map (items_in t) vs)
  | TSlice t, VSeq vs | TVec t, VSeq vs | TLinked t, VSeq vs | TSizedSlice t _, VSeq vs => length vs + list_sum (map (items_in t) vs)
  | TStr, VStr s | TString, VStr s | TSizedStr _, VStr s | TCStr, VStr s | TCString, VStr s => length s
  | TRange t, VRange a b | TRangeInclusive t, VRangeInclusive a b _ => items_in t a + items_in t b
  | THashMap k v, VMap kvs => length kvs + list_sum (map (fun p => items_in k (fst p) + items_in v (snd p)) kvs)
  | THashSet k, VSet ks => length ks + list_sum (map (items_in k) ks)
  | TEnum r vs, VEnum i fs =>
    match nth_error (map (fun x => map items_in (snd x)) vs) i with
    | Some gs => list_sum (map (fun p => fst p (snd p)) (combine gs fs))
    | None => 0
    end
  | _, _ => 0
  end.
