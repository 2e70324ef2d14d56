(* A type without recursion, written in the language of recursive types. Definitions only. *)
From Verif Require Import Base Types Recursive.
Set Implicit Arguments.

(* as deep as that language goes *)
(* (none of the program) *)
Fixpoint plain_type (t : ty) : rty :=
  match t with
  | TOption t => ROption (plain_type t)
  | TTuple ts => RTuple (map plain_type ts)
  | TArray t n => RArray (plain_type t) n
  | TSlice t => RSlice (plain_type t)
  | TVec t => RVec (plain_type t)
  | TLinked t => RLinked (plain_type t)
  | TSizedSlice t n => RSizedSlice (plain_type t) n
  | TWrap w t => RWrap w (plain_type t)
  | TCow t => RCow (plain_type t)
  | TRefCell t => RRefCell (plain_type t)
  | TLock l t => RLock l (plain_type t)
  | TRange t => RRange (plain_type t)
  | TRangeInclusive t => RRangeInclusive (plain_type t)
  | TRangeFrom t => RRangeFrom (plain_type t)
  | TRangeTo t => RRangeTo (plain_type t)
  | TRangeToInclusive t => RRangeToInclusive (plain_type t)
  | TBound t => RBound (plain_type t)
  | THashMap k v => RHashMap (plain_type k) (plain_type v)
  | THashSet k => RHashSet (plain_type k)
  | t => RConst t
  end.
