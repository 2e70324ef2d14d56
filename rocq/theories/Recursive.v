(* Recursive types: definitions that derive Encode and Decode and mention themselves or one another, as in
   `enum List { Nil, Cons(u8, Box<List>) }`. The derived implementations call one another recursively
   (oct-macros/src/impls/encode_struct.rs:50-64, encode_enum.rs:68-93, decode_struct.rs:52-60, decode_enum.rs:64-81); the error types
   GenericEncodeError and GenericDecodeError, which do not mention the fields, are what makes this possible. Definitions only. *)
From Verif Require Import Base Types.
Set Implicit Arguments.

(* A type that may mention definitions by number. [RConst] is a type that mentions none. (Simplified: no recursion through Result, which
   cannot be a field of a type that derives Decode; the conversion of its errors depends on static types.) *)
(* the implementations in oct/src/encode/encode/mod.rs and oct/src/decode/decode/mod.rs that have a type parameter *)
Inductive rty :=
| RConst (t : ty)
| RVar (k : nat)
| ROption (t : rty)
| RTuple (ts : list rty)
| RArray (t : rty) (n : nat)
| RSlice (t : rty)
| RVec (t : rty)
| RLinked (t : rty)
| RSizedSlice (t : rty) (n : nat)
| RWrap (w : wrapper) (t : rty)
| RCow (t : rty)
| RRefCell (t : rty)
| RLock (l : lock) (t : rty)
| RRange (t : rty)
| RRangeInclusive (t : rty)
| RRangeFrom (t : rty)
| RRangeTo (t : rty)
| RRangeToInclusive (t : rty)
| RBound (t : rty)
| RHashMap (k v : rty)
| RHashSet (k : rty).

(* what can be defined *)
(* oct-macros/src/impl_derive_macro.rs:54-64 *)
Inductive rdef := RStruct (ts : list rty) | REnum (r : ity) (vs : list (option Z * list rty)).

(* the type, given the types of the definitions *)
(* (rustc: substitution of type definitions; no code of its own) *)
Fixpoint inst (env : nat -> ty) (t : rty) : ty :=
  match t with
  | RConst t => t
  | RVar k => env k
  | ROption t => TOption (inst env t)
  | RTuple ts => TTuple (map (inst env) ts)
  | RArray t n => TArray (inst env t) n
  | RSlice t => TSlice (inst env t)
  | RVec t => TVec (inst env t)
  | RLinked t => TLinked (inst env t)
  | RSizedSlice t n => TSizedSlice (inst env t) n
  | RWrap w t => TWrap w (inst env t)
  | RCow t => TCow (inst env t)
  | RRefCell t => TRefCell (inst env t)
  | RLock l t => TLock l (inst env t)
  | RRange t => TRange (inst env t)
  | RRangeInclusive t => TRangeInclusive (inst env t)
  | RRangeFrom t => TRangeFrom (inst env t)
  | RRangeTo t => TRangeTo (inst env t)
  | RRangeToInclusive t => TRangeToInclusive (inst env t)
  | RBound t => TBound (inst env t)
  | RHashMap k v => THashMap (inst env k) (inst env v)
  | RHashSet k => THashSet (inst env k)
  end.
(* (rustc: substitution of type definitions; no code of its own) *)
Definition inst_def (env : nat -> ty) (d : rdef) : ty :=
  match d with
  | RStruct ts => TStruct (map (inst env) ts)
  | REnum r vs => TEnum r (map (fun x => (fst x, map (inst env) (snd x))) vs)
  end.

(* Definition number [k] as far as calls nested at most [n] deep see of it. At the bottom stands a type without values: `encode` cannot be called
   there, and `decode` panics with [PInfallible], which stands for going deeper. *)
(* (the nesting of calls between the derived functions; no code of its own) *)
Fixpoint unroll (defs : nat -> rdef) (n k : nat) : ty :=
  match n with
  | O => TInfallible
  | S n' => inst_def (unroll defs n') (defs k)
  end.
