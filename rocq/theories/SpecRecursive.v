(* Vocabulary of the properties about recursive types. Definitions only. *)
From Verif Require Import Base Streams Types Decode SpecDecode SpecValues Recursive.
Set Implicit Arguments.

(* Every value of the type has at least one octet. *)
Fixpoint eats (t : ty) : bool :=
  match t with
  | TInt _ | TF32 | TF64 | TBool | TChar | TNonZero _ | TOption _ | TResult _ _ | TVec _ | TLinked _ | TSizedSlice _ _
  | TString | TSizedStr _ | TCString | TDuration | TSystemTime | TIpv4 | TIpv6 | TIpAddr | TSockV4 | TSockV6 | TSockAddr
  | TBound _ | THashMap _ _ | THashSet _ | TEnum _ _ => true
  | TCow b => match b with TSlice _ | TStr | TCStr => true | _ => eats b end
  | TWrap _ t | TRefCell t | TLock _ t | TRange t | TRangeInclusive t | TRangeFrom t | TRangeTo t | TRangeToInclusive t => eats t
  | TArray t n => (0 <? n)%nat && eats t
  | TTuple ts | TStruct ts => existsb eats ts
  | _ => false
  end.
Fixpoint reats (t : rty) : bool :=
  match t with
  | RConst t => eats t
  | RVar _ => false            (* not known here *)
  | ROption _ | RVec _ | RLinked _ | RSizedSlice _ _ | RBound _ | RHashMap _ _ | RHashSet _ => true
  | RCow b => match b with RSlice _ => true | RConst t => eats (TCow t) | _ => reats b end
  | RWrap _ t | RRefCell t | RLock _ t | RRange t | RRangeInclusive t | RRangeFrom t | RRangeTo t | RRangeToInclusive t => reats t
  | RArray t n => (0 <? n)%nat && reats t
  | RTuple ts => existsb reats ts
  | RSlice _ => false
  end.

(* The definitions whose decoding may begin before an octet has been read. *)
Definition before (f : rty -> list nat) : list rty -> list nat :=
  fix go ts := match ts with [] => [] | t :: ts' => f t ++ if reats t then [] else go ts' end.
Fixpoint unguarded (t : rty) : list nat :=
  match t with
  | RConst _ => []
  | RVar k => [k]
  | ROption _ | RVec _ | RLinked _ | RSizedSlice _ _ | RBound _ | RHashMap _ _ | RHashSet _ | RSlice _ => []
  | RCow b => match b with RSlice _ => [] | _ => unguarded b end
  | RArray t _ | RWrap _ t | RRefCell t | RLock _ t | RRange t | RRangeInclusive t | RRangeFrom t | RRangeTo t | RRangeToInclusive t => unguarded t
  | RTuple ts => before unguarded ts
  end.
Definition unguarded_def (d : rdef) : list nat := match d with RStruct ts => before unguarded ts | REnum _ _ => [] end.

(* Every cycle of definitions reads an octet: going to a definition without reading one goes down in rank. *)
Definition grounded (defs : nat -> rdef) (rank : nat -> nat) (top : nat) : Prop :=
  forall k, (rank k <= top)%nat /\ forall j, In j (unguarded_def (defs k)) -> (rank j < rank k)%nat.

(* No type without values inside. *)
Fixpoint inhabited_parts (t : rty) : bool :=
  match t with
  | RConst t => negb (contains is_infallible t)
  | RVar _ => true
  | RTuple ts => forallb inhabited_parts ts
  | RHashMap k v => inhabited_parts k && inhabited_parts v
  | ROption t | RArray t _ | RSlice t | RVec t | RLinked t | RSizedSlice t _ | RWrap _ t | RCow t | RRefCell t | RLock _ t
  | RRange t | RRangeInclusive t | RRangeFrom t | RRangeTo t | RRangeToInclusive t | RBound t | RHashSet t => inhabited_parts t
  end.
Definition inhabited_def (d : rdef) : bool :=
  match d with RStruct ts => forallb inhabited_parts ts | REnum _ vs => forallb (fun x => forallb inhabited_parts (snd x)) vs end.

(* Neither HashMap nor HashSet anywhere. *)
Fixpoint hash_free (t : rty) : bool :=
  match t with
  | RConst t => negb (contains is_hash t)
  | RVar _ => true
  | RTuple ts => forallb hash_free ts
  | RHashMap _ _ | RHashSet _ => false
  | ROption t | RArray t _ | RSlice t | RVec t | RLinked t | RSizedSlice t _ | RWrap _ t | RCow t | RRefCell t | RLock _ t
  | RRange t | RRangeInclusive t | RRangeFrom t | RRangeTo t | RRangeToInclusive t | RBound t => hash_free t
  end.
Definition hash_free_def (d : rdef) : bool :=
  match d with RStruct ts => forallb hash_free ts | REnum _ vs => forallb (fun x => forallb hash_free (snd x)) vs end.

(* Calls of `decode` nested at most [n] deep are enough to decode definition [k] from this input. (For definitions without
   `Infallible` inside, whose `decode` panics the same way.) *)
Definition depth_suffices (defs : nat -> rdef) (k n : nat) (i : input) : Prop := snd (decode (unroll defs n k) i) <> Panic PInfallible.

(* `enum List { Nil, Cons(u8, Box<List>) }` *)
Definition list_defs (_ : nat) : rdef := REnum U8 [(None, []); (None, [RConst (TInt U8); RWrap WBox (RVar 0)])].
(* `enum Nat { Zero, Succ(Box<Nat>) }` *)
Definition nat_defs (_ : nat) : rdef := REnum U8 [(None, []); (None, [RWrap WBox (RVar 0)])].
(* `struct Dir(Name, Vec<Entry>)`, `enum Entry { File(u16), Dir(Box<Dir>) }`, `struct Name(String)` *)
Definition dir_defs (k : nat) : rdef :=
  match k with
  | 0 => RStruct [RVar 2; RVec (RVar 1)]
  | 1 => REnum U8 [(None, [RConst (TInt U16)]); (None, [RWrap WBox (RVar 0)])]
  | _ => RStruct [RConst TString]
  end%nat.
(* `struct Loop(Box<Loop>)`: compiles, and has no value *)
Definition loop_defs (_ : nat) : rdef := RStruct [RWrap WBox (RVar 0)].
(* `struct Tags(HashSet<u8>, Vec<Tags>)` *)
Definition tags_defs (_ : nat) : rdef := RStruct [RConst (THashSet (TInt U8)); RVec (RVar 0)].
