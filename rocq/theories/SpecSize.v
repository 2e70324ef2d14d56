(* Vocabulary of the properties about MAX_ENCODED_SIZE. Definitions only. *)
From Verif Require Import Base Streams Utf8 Types Encode Decode Sized Spec SpecCalls SpecDecode.
Set Implicit Arguments.
Local Open Scope N_scope.

(* The types for which MAX_ENCODED_SIZE is right: no SizedSlice inside, whose constant leaves out the length; and for each
   Result inside, the memory sizes of its parts, which its constant adds up, are no less than their encoded sizes. *)
Fixpoint SizeOk (size_of : size_of_fn) (t : ty) : Prop :=
  match t with
  | TSizedSlice _ _ => False
  | TResult a b =>
    SizeOk size_of a /\ SizeOk size_of b /\
    forall m n, max_size size_of a = Some m -> max_size size_of b = Some n -> N.max m n <= N.max (size_of a) (size_of b)
  | TOption t | TArray t _ | TSlice t | TVec t | TLinked t | TWrap _ t | TCow t | TRefCell t | TLock _ t
  | TRange t | TRangeFrom t | TRangeInclusive t | TRangeTo t | TRangeToInclusive t | TBound t | THashSet t => SizeOk size_of t
  | THashMap a b => SizeOk size_of a /\ SizeOk size_of b
  | TTuple ts | TStruct ts => fold_right and True (map (SizeOk size_of) ts)
  | TEnum r vs => fold_right and True (map (fun x => fold_right and True (map (SizeOk size_of) (snd x))) vs)
  | _ => True
  end.

(* No SizedStr and no enum without variants inside: their decoders consume more than MAX_ENCODED_SIZE before they fail. *)
Definition overreads (t : ty) : bool := match t with TSizedStr _ | TEnum _ [] => true | _ => false end.

(* Some valid value of the type has an encoding of [n] octets. *)
Definition Attains (checks : bool) (t : ty) (n : N) : Prop :=
  exists v bs, wt t v /\ Appends (encode checks t v) bs (Ok tt) /\ N.of_nat (length bs) = n.

Definition sum (l : list N) : N := fold_right N.add 0 l.
Definition largest (l : list N) : N := fold_right N.max 0 l.

(* No valid value of the type has an encoding of more than [n] octets. *)
Definition Bounded (checks : bool) (t : ty) (n : N) : Prop :=
  forall v bs, wt t v -> Appends (encode checks t v) bs (Ok tt) -> N.of_nat (length bs) <= n.

(* The types for which MAX_ENCODED_SIZE is not more than needed: every part has a value, every SizedStr can be filled, every
   discriminant can be encoded, and for each Result inside, the larger memory size of its parts is their larger encoded size. *)
Fixpoint Exact (size_of : size_of_fn) (t : ty) : Prop :=
  match t with
  | TInfallible | TSizedSlice _ _ => False
  | TSizedStr n => (Z.of_nat n <= 65535)%Z
  | TResult a b =>
    Exact size_of a /\ Exact size_of b /\
    forall m n, max_size size_of a = Some m -> max_size size_of b = Some n -> N.max (size_of a) (size_of b) = N.max m n
  | TOption t | TArray t _ | TSlice t | TVec t | TLinked t | TWrap _ t | TCow t | TRefCell t | TLock _ t
  | TRange t | TRangeFrom t | TRangeInclusive t | TRangeTo t | TRangeToInclusive t | TBound t | THashSet t => Exact size_of t
  | THashMap a b => Exact size_of a /\ Exact size_of b
  | TTuple ts | TStruct ts => fold_right and True (map (Exact size_of) ts)
  | TEnum r vs =>
    enum_ok r vs /\ vs <> [] /\ (forall i d, Assigned (map fst vs) i d -> int_fits r d) /\
    fold_right and True (map (fun x => fold_right and True (map (Exact size_of) (snd x))) vs)
  | _ => True
  end.

(* The types whose values all take the same space: no Option, Result, Bound, IpAddr, SocketAddr, SizedStr or SizedSlice inside,
   and enums only if their variants are of equal size. *)
Fixpoint Uniform (size_of : size_of_fn) (t : ty) : Prop :=
  match t with
  | TOption _ | TResult _ _ | TBound _ | TIpAddr | TSockAddr | TSizedStr _ | TSizedSlice _ _ => False
  | TArray t _ | TSlice t | TVec t | TLinked t | TWrap _ t | TCow t | TRefCell t | TLock _ t
  | TRange t | TRangeFrom t | TRangeInclusive t | TRangeTo t | TRangeToInclusive t | THashSet t => Uniform size_of t
  | THashMap a b => Uniform size_of a /\ Uniform size_of b
  | TTuple ts | TStruct ts => fold_right and True (map (Uniform size_of) ts)
  | TEnum r vs =>
    (forall x y, In x vs -> In y vs -> sum_opt (map (max_size size_of) (snd x)) = sum_opt (map (max_size size_of) (snd y))) /\
    fold_right and True (map (fun x => fold_right and True (map (Uniform size_of) (snd x))) vs)
  | _ => True
  end.
