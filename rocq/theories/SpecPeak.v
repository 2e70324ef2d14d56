(* The largest encoding of a type, worked out from the wire format. Definitions only. *)
From Verif Require Import Base Streams Utf8 Types Encode Decode Sized Spec SpecCalls SpecDecode SpecSize.
Set Implicit Arguments.
Local Open Scope N_scope.

(* `None` stands for: no value of the type can be encoded. *)
Definition larger (a b : option N) : option N :=
  match a, b with
  | Some x, Some y => Some (N.max x y)
  | Some x, None => Some x
  | None, b => b
  end.
Definition or_zero (a : option N) : N := match a with Some n => n | None => 0 end.
Definition total (l : list (option N)) : option N :=
  fold_right (fun a b => match a, b with Some x, Some y => Some (x + y) | _, _ => None end) (Some 0) l.
Definition up_to_65535 (n : nat) : N := N.min (N.of_nat n) 65535.

(* a discriminant of type usize or isize is encoded in 16 bits *)
Definition can_encode (r : ity) (d : Z) : bool :=
  match r with Usize => (0 <=? d)%Z && (d <=? 65535)%Z | Isize => (-32768 <=? d)%Z && (d <=? 32767)%Z | _ => true end.
(* over the variants, given as explicit discriminant and largest size of the fields; [next] is the discriminant if there is no explicit one *)
Fixpoint largest_variant (r : ity) (next : Z) (l : list (option Z * option N)) : option N :=
  match l with
  | [] => None
  | (e, size) :: l' =>
    let d := match e with Some d => d | None => next end in
    larger (if can_encode r d then option_map (N.add (int_size r)) size else None) (largest_variant r (d + 1) l')
  end.

(* without hash collections, which have no largest encoding that could be computed so *)
Fixpoint peak (t : ty) : option N :=
  match t with
  | TInt i | TNonZero i => Some (int_size i)
  | TBool => Some 1
  | TF32 | TChar | TIpv4 => Some 4
  | TF64 | TSystemTime => Some 8
  | TUnit | TPhantomData | TPhantomPinned | TRangeFull => Some 0
  | TInfallible => None
  | TDuration => Some 12
  | TIpv6 => Some 16
  | TIpAddr => Some 17
  | TSockV4 => Some 6
  | TSockV6 => Some 26
  | TSockAddr => Some 27
  | TOption t | TBound t => Some (1 + or_zero (peak t))
  | TResult t e => option_map (N.add 1) (larger (peak t) (peak e))
  | TTuple ts | TStruct ts => total (map peak ts)
  | TArray t n => match n with O => Some 0 | _ => option_map (N.mul (N.of_nat n)) (peak t) end
  | TSlice t | TVec t | TLinked t => Some (2 + 65535 * or_zero (peak t))
  | TSizedSlice t n => Some (2 + up_to_65535 n * or_zero (peak t))
  | TStr | TString | TCStr | TCString => Some (2 + 65535)
  | TSizedStr n => Some (2 + up_to_65535 n)
  | TWrap _ t | TCow t | TRefCell t | TLock _ t | TRangeFrom t | TRangeTo t | TRangeToInclusive t => peak t
  | TRange t | TRangeInclusive t => option_map (N.mul 2) (peak t)
  | TEnum r vs => largest_variant r 0 (map (fun x => (fst x, total (map peak (snd x)))) vs)
  | THashMap _ _ | THashSet _ => None
  end.

(* The most octets that decoding a value of the type takes. A SizedSlice is decoded as N items whatever its length says; the collections
   with a length, hash collections among them, take up to 65535 items. *)
Fixpoint intake (t : ty) : option N :=
  match t with
  | TInt i | TNonZero i => Some (int_size i)
  | TBool => Some 1
  | TF32 | TChar | TIpv4 => Some 4
  | TF64 | TSystemTime => Some 8
  | TUnit | TPhantomData | TPhantomPinned | TRangeFull => Some 0
  | TInfallible => None
  | TDuration => Some 12
  | TIpv6 => Some 16
  | TIpAddr => Some 17
  | TSockV4 => Some 6
  | TSockV6 => Some 26
  | TSockAddr => Some 27
  | TOption t | TBound t => Some (1 + or_zero (intake t))
  | TResult t e => option_map (N.add 1) (larger (intake t) (intake e))
  | TTuple ts | TStruct ts => total (map intake ts)
  | TArray t n => match n with O => Some 0 | _ => option_map (N.mul (N.of_nat n)) (intake t) end
  | TVec t | TLinked t | THashSet t => Some (2 + 65535 * or_zero (intake t))
  | THashMap k v => Some (2 + 65535 * or_zero (total [intake k; intake v]))
  | TSizedSlice t n => match n with O => Some 2 | _ => option_map (fun s => 2 + N.of_nat n * s) (intake t) end
  | TString | TCString => Some (2 + 65535)
  | TSizedStr n => Some (2 + up_to_65535 n)
  | TSlice _ | TStr | TCStr => None                  (* have no decoder *)
  | TCow (TSlice t) => Some (2 + 65535 * or_zero (intake t))
  | TCow TStr | TCow TCStr => Some (2 + 65535)
  | TWrap _ t | TCow t | TRefCell t | TLock _ t | TRangeFrom t | TRangeTo t | TRangeToInclusive t => intake t
  | TRange t | TRangeInclusive t => option_map (N.mul 2) (intake t)
  | TEnum r vs => largest_variant r 0 (map (fun x => (fst x, total (map intake (snd x)))) vs)
  end.

(* Decoding [t] succeeds for some input and consumes [n] octets; it consumes no more than [n] whenever it succeeds. *)
Definition Takes (t : ty) (n : N) : Prop :=
  exists i i' v, in_bounds i /\ decode t i = (i', Ok v) /\ N.of_nat (input_position i') = N.of_nat (input_position i) + n.
Definition TakesAtMost (t : ty) (n : N) : Prop :=
  forall i i' v, in_bounds i -> decode t i = (i', Ok v) -> N.of_nat (input_position i') <= N.of_nat (input_position i) + n.
