(* Which types have a value that cannot be encoded, and which an encoding that is refused, decided from the type alone.
   Vocabulary of C120. Definitions only. *)
From Verif Require Import Base Types SpecDecode SpecPeak SpecReach.
Set Implicit Arguments.

(* The variants with their discriminants; [next] is the discriminant if there is no explicit one. *)
Fixpoint numbered {A : Type} (next : Z) (l : list (option Z * A)) : list (Z * A) :=
  match l with
  | [] => []
  | (e, a) :: l' => let d := match e with Some d => d | None => next end in (d, a) :: numbered (d + 1)%Z l'
  end.

(* The type has a value. *)
Fixpoint inhabited (t : ty) : bool :=
  match t with
  | TInfallible => false
  | TResult t e => inhabited t || inhabited e
  | TTuple ts | TStruct ts => forallb inhabited ts
  | TArray t n => (n =? 0) || inhabited t
  | TWrap _ t | TCow t | TRefCell t | TLock _ t
  | TRange t | TRangeFrom t | TRangeInclusive t | TRangeTo t | TRangeToInclusive t => inhabited t
  | TEnum _ vs => existsb (fun x => forallb inhabited (snd x)) vs
  | _ => true
  end.

(* Encoding errs for some value: the type has a usize or isize in it, or something with a length that can exceed 65535, or a RefCell, or a
   discriminant out of the range of 16 bits; and a value of it with such a part can be made. *)
Fixpoint fallible (t : ty) : bool :=
  match t with
  | TInt Usize | TInt Isize | TNonZero Usize | TNonZero Isize => true
  | TStr | TString | TCStr | TCString => true
  | TSizedStr n => (65535 <? Z.of_nat n)%Z
  | TSlice t | TVec t | TLinked t | TRefCell t => inhabited t
  | TSizedSlice t n => (0 <? n) && fallible t || (65535 <? Z.of_nat n)%Z && inhabited t
  | TArray t n => (0 <? n) && fallible t
  | TOption t | TBound t | THashSet t | TWrap _ t | TCow t | TLock _ t
  | TRange t | TRangeInclusive t | TRangeFrom t | TRangeTo t | TRangeToInclusive t => fallible t
  | TResult t e => fallible t || fallible e
  | TTuple ts | TStruct ts => forallb inhabited ts && existsb fallible ts
  | THashMap k v => inhabited k && inhabited v && (fallible k || fallible v)
  | TEnum r vs =>
    existsb (fun x => fst (snd x) && (negb (can_encode r (fst x)) || snd (snd x)))
      (numbered 0 (map (fun x => (fst x, (forallb inhabited (snd x), existsb fallible (snd x)))) vs))
  | _ => false
  end.

(* Decoding the fields in order, given for each whether it can be refused and whether it can be read: some field is refused. *)
Fixpoint some_refused (l : list (bool * bool)) : bool :=
  match l with
  | [] => false
  | (refused, read) :: l' => refused || read && some_refused l'
  end.

(* the number of discriminants that the octets of a discriminant of type [r] can stand for *)
Definition patterns (r : ity) : Z := 2 ^ (8 * Z.of_nat (wire_width r)).

(* Decoding refuses some octets: among the parts there is a type that not every pattern of octets stands for, and what is read before it
   can be read. *)
Fixpoint refusable (t : ty) : bool :=
  match t with
  | TNonZero _ | TChar | TStr | TString | TSizedStr _ | TCStr | TCString | TIpAddr | TSockAddr | TBound _ => true
  | TOption t | TSlice t | TVec t | TLinked t | THashSet t | TWrap _ t | TCow t | TRefCell t | TLock _ t
  | TRange t | TRangeInclusive t | TRangeFrom t | TRangeTo t | TRangeToInclusive t => refusable t
  | TResult t e => refusable t || refusable e
  | TArray t n => (0 <? n) && refusable t
  | TSizedSlice t n => (Z.of_nat n <? 65535)%Z || refusable t
  | THashMap k v => refusable k || decodable k && refusable v
  | TTuple ts | TStruct ts => some_refused (map (fun t => (refusable t, decodable t)) ts)
  | TEnum r vs =>
    (Z.of_nat (length (filter (can_encode r) (map fst (numbered 0 vs)))) <? patterns r)%Z ||
    existsb (fun x => can_encode r (fst x) && snd x)
      (numbered 0 (map (fun x => (fst x, some_refused (map (fun t => (refusable t, decodable t)) (snd x)))) vs))
  | _ => false
  end.
