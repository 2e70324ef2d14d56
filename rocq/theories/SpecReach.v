(* Which types have, somewhere inside a value that decoding can produce, a part of a given kind. Vocabulary of the exact forms of C18, C20
   and C73, and of C13. Definitions only. *)
From Verif Require Import Base Types SpecPeak SpecWork.
Set Implicit Arguments.

(* Decoding succeeds for some input, and consumes something; see C36_largest for [intake]. *)
Definition decodable (t : ty) : bool := match intake t with Some _ => true | None => false end.
Definition takes_octets (t : ty) : bool := match intake t with Some n => (0 <? n)%N | None => false end.

(* One of the variants that can be written has the property. The variants are given as explicit discriminant and property; [next] is the
   discriminant if there is no explicit one. *)
Fixpoint some_variant (r : ity) (next : Z) (l : list (option Z * bool)) : bool :=
  match l with
  | [] => false
  | (e, yes) :: l' =>
    let d := match e with Some d => d | None => next end in
    (can_encode r d && yes) || some_variant r (d + 1)%Z l'
  end.

(* [reaches kind t]: some input is decoded, as a [t], to a value with a part of a type of this kind. Parts beside it have to be decodable too. *)
Fixpoint reaches (kind : ty -> bool) (t : ty) : bool :=
  kind t ||
  match t with
  | TOption t | TBound t | TVec t | TLinked t | THashSet t | TCow (TSlice t) | TCow t
  | TWrap _ t | TRefCell t | TLock _ t
  | TRange t | TRangeInclusive t | TRangeFrom t | TRangeTo t | TRangeToInclusive t => reaches kind t
  | TResult t e => reaches kind t || reaches kind e
  | TArray t n | TSizedSlice t n => (0 <? n) && reaches kind t
  | TTuple ts | TStruct ts => forallb decodable ts && existsb (reaches kind) ts
  | THashMap k v => decodable k && decodable v && (reaches kind k || reaches kind v)
  | TEnum r vs => some_variant r 0 (map (fun x => (fst x, forallb decodable (snd x) && existsb (reaches kind) (snd x))) vs)
  | _ => false
  end.

(* Kinds of types: `char`; *)
Definition a_char (t : ty) : bool := match t with TChar => true | _ => false end.
(* collections of which decoding leaves out a part, and encoding another: HashMap, HashSet, and a SizedSlice of items that take octets; *)
Definition a_lossy (t : ty) : bool :=
  match t with
  | THashMap _ _ | THashSet _ => true
  | TSizedSlice t n => (0 <? n) && takes_octets t
  | _ => false
  end.
(* and with those the types of which a value has several encodings. *)
Definition a_loose (t : ty) : bool :=
  a_lossy t ||
  match t with
  | TBool | TDuration => true
  | TOption t | TResult _ t => decodable t
  | _ => false
  end.

(* The same for encoding. Some valid value of the type can be encoded; *)
Fixpoint writable (t : ty) : bool :=
  match t with
  | TInfallible => false
  | TResult t e => writable t || writable e
  | TTuple ts | TStruct ts => forallb writable ts
  | TArray t n => (n =? 0) || writable t
  | TWrap _ t | TCow t | TRefCell t | TLock _ t
  | TRange t | TRangeFrom t | TRangeInclusive t | TRangeTo t | TRangeToInclusive t => writable t
  | TEnum r vs => some_variant r 0 (map (fun x => (fst x, forallb writable (snd x))) vs)
  | _ => true
  end.
(* and [occurs kind t]: some value that can be encoded has a part of a type of this kind. *)
Fixpoint occurs (kind : ty -> bool) (t : ty) : bool :=
  kind t ||
  match t with
  | TOption t | TBound t | TSlice t | TVec t | TLinked t | THashSet t | TCow t
  | TWrap _ t | TRefCell t | TLock _ t
  | TRange t | TRangeInclusive t | TRangeFrom t | TRangeTo t | TRangeToInclusive t => occurs kind t
  | TResult t e => occurs kind t || occurs kind e
  | TArray t n | TSizedSlice t n => (0 <? n) && occurs kind t
  | TTuple ts | TStruct ts => forallb writable ts && existsb (occurs kind) ts
  | THashMap k v => writable k && writable v && (occurs kind k || occurs kind v)
  | TEnum r vs => some_variant r 0 (map (fun x => (fst x, forallb writable (snd x) && existsb (occurs kind) (snd x))) vs)
  | _ => false
  end.

(* Types with values that can be encoded but do not come back: HashMap and HashSet; SizedSlices that can be less than full, unless their
   items take no octets; SystemTime, for parts of seconds; and RangeInclusive, when exhausted. *)
Definition a_fleeting (t : ty) : bool :=
  match t with
  | THashMap _ _ | THashSet _ | TSystemTime => true
  | TSizedSlice t n => (0 <? n) && nonempty t
  | TRangeInclusive t => writable t
  | _ => false
  end.
(* A kind for C20, C72 and C73 in builds with overflow checks: SystemTime, of which the lowest second cannot be encoded there. *)
Definition a_time (t : ty) : bool := match t with TSystemTime => true | _ => false end.
