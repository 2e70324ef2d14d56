(* When two values are equal in the sense of `==`. Definitions only. *)
From Coq Require Import Permutation.
From Verif Require Import Base Types.
Set Implicit Arguments.
Local Open Scope Z_scope.

(* IEEE 754 equality on bit patterns with [e] exponent and [m] mantissa bits: not-a-number is equal to nothing, not even to itself,
   and the two zeros are equal to each other. *)
Definition is_nan (e m : Z) (z : Z) : Prop := (z / 2 ^ m) mod 2 ^ e = 2 ^ e - 1 /\ z mod 2 ^ m <> 0.
Definition is_zero (e m : Z) (z : Z) : Prop := z mod 2 ^ (e + m) = 0.
Definition float_eq (e m : Z) (a b : Z) : Prop :=
  ~ is_nan e m a /\ ~ is_nan e m b /\ (a = b \/ (is_zero e m a /\ is_zero e m b)).

(* pointwise, and of equal number *)
Fixpoint all3 {A : Type} (ps : list (A -> A -> Prop)) (xs ys : list A) : Prop :=
  match ps, xs, ys with
  | [], [], [] => True
  | p :: ps', x :: xs', y :: ys' => p x y /\ all3 ps' xs' ys'
  | _, _, _ => False
  end.

(* `v == w` at type [t]. Locks, atomics and lazy values have no such operator, and that of a RefCell panics while it is mutably borrowed.
   Whether a Cow is borrowed does not matter, nor does the order in which a map or a set happens to yield its entries. *)
Fixpoint RustEq (t : ty) (v w : val) {struct t} : Prop :=
  match t, v, w with
  | TF32, VInt a, VInt b => float_eq 8 23 a b
  | TF64, VInt a, VInt b => float_eq 11 52 a b
  | TOption t, VSome v, VSome w | TResult t _, VOk v, VOk w
  | TBound t, VIncluded v, VIncluded w | TBound t, VExcluded v, VExcluded w
  | TRangeFrom t, VHalfRange v, VHalfRange w | TRangeTo t, VHalfRange v, VHalfRange w
  | TRangeToInclusive t, VHalfRange v, VHalfRange w => RustEq t v w
  | TResult _ e, VErr v, VErr w => RustEq e v w
  | TOption _, VNone, VNone | TBound _, VUnbounded, VUnbounded => True
  | TTuple ts, VTuple vs, VTuple ws | TStruct ts, VTuple vs, VTuple ws => all3 (map RustEq ts) vs ws
  | TArray t _, VSeq vs, VSeq ws | TSlice t, VSeq vs, VSeq ws | TVec t, VSeq vs, VSeq ws | TLinked t, VSeq vs, VSeq ws
  | TSizedSlice t _, VSeq vs, VSeq ws => Forall2 (RustEq t) vs ws
  | TWrap WAtomic _, _, _ | TWrap WLazyCell _, _, _ | TWrap WLazyLock _, _, _ | TLock _ _, _, _ => False
  | TWrap _ t, VWrap v, VWrap w => RustEq t v w
  | TCow t, VCow _ v, VCow _ w => RustEq t v w
  | TRefCell t, VRefCell a v, VRefCell b w => a = false /\ b = false /\ RustEq t v w
  | TRange t, VRange a b, VRange c d => RustEq t a c /\ RustEq t b d
  | TRangeInclusive t, VRangeInclusive a b e, VRangeInclusive c d f => RustEq t a c /\ RustEq t b d /\ e = f
  | THashMap k x, VMap l, VMap m =>
    exists l', Permutation l l' /\ Forall2 (fun p q => RustEq k (fst p) (fst q) /\ RustEq x (snd p) (snd q)) l' m
  | THashSet k, VSet l, VSet m => exists l', Permutation l l' /\ Forall2 (RustEq k) l' m
  | TEnum r vs, VEnum i fs, VEnum j gs =>
    i = j /\ match nth_error (map (fun x => map RustEq (snd x)) vs) i with Some ps => all3 ps fs gs | None => False end
  | TInt _, VInt _, VInt _ | TNonZero _, VInt _, VInt _ | TBool, VBool _, VBool _ | TChar, VChar _, VChar _
  | TUnit, VUnit, VUnit | TPhantomData, VUnit, VUnit | TPhantomPinned, VUnit, VUnit | TRangeFull, VUnit, VUnit
  | TStr, VStr _, VStr _ | TString, VStr _, VStr _ | TSizedStr _, VStr _, VStr _ | TCStr, VStr _, VStr _ | TCString, VStr _, VStr _
  | TDuration, VDuration _ _, VDuration _ _ | TSystemTime, VTime _ _, VTime _ _
  | TIpv4, VIp4 _, VIp4 _ | TIpv6, VIp6 _, VIp6 _ | TIpAddr, VIpV4 _, VIpV4 _ | TIpAddr, VIpV6 _, VIpV6 _
  | TSockV4, VSock4 _ _, VSock4 _ _ | TSockV6, VSock6 _ _ _ _, VSock6 _ _ _ _
  | TSockAddr, VSockV4 _ _, VSockV4 _ _ | TSockAddr, VSockV6 _ _ _ _, VSockV6 _ _ _ _ => v = w
  | _, _, _ => False
  end.

Definition is_float (t : ty) : bool := match t with TF32 | TF64 => true | _ => false end.
