(* Which definitions are entered before an octet is read: the exact form of [unguarded] (SpecRecursive.v). Definitions only. *)
From Verif Require Import Base Types Recursive.
Set Implicit Arguments.

(* The type is decoded, with success, from no octet at all. *)
Fixpoint no_octets (t : ty) : bool :=
  match t with
  | TUnit | TPhantomData | TPhantomPinned | TRangeFull => true
  | TWrap _ t | TCow t | TRefCell t | TLock _ t
  | TRange t | TRangeInclusive t | TRangeFrom t | TRangeTo t | TRangeToInclusive t => no_octets t
  | TArray t n => (n =? 0)%nat || no_octets t
  | TTuple ts | TStruct ts => forallb no_octets ts
  | _ => false
  end.

Section Definitions.
  Variable defs : nat -> rdef.

  (* The same for a type that mentions definitions: a struct all of whose fields are so. *)
  Inductive Silent : rty -> Prop :=
  | Si_const t : no_octets t = true -> Silent (RConst t)
  | Si_struct k ts : defs k = RStruct ts -> Silent (RTuple ts) -> Silent (RVar k)
  | Si_nil : Silent (RTuple [])
  | Si_cons t ts : Silent t -> Silent (RTuple ts) -> Silent (RTuple (t :: ts))
  | Si_array_empty t : Silent (RArray t 0)
  | Si_array t n : Silent t -> Silent (RArray t n)
  | Si_wrap w t : Silent t -> Silent (RWrap w t)
  | Si_cow t : Silent t -> Silent (RCow t)
  | Si_ref_cell t : Silent t -> Silent (RRefCell t)
  | Si_lock l t : Silent t -> Silent (RLock l t)
  | Si_range t : Silent t -> Silent (RRange t)
  | Si_range_inclusive t : Silent t -> Silent (RRangeInclusive t)
  | Si_range_from t : Silent t -> Silent (RRangeFrom t)
  | Si_range_to t : Silent t -> Silent (RRangeTo t)
  | Si_range_to_inclusive t : Silent t -> Silent (RRangeToInclusive t).

  (* Decoding the type begins to decode definition [k] before an octet has been read. Whatever has a count, a tag or a discriminant in front of
     it reads that first. *)
  Inductive Enters : rty -> nat -> Prop :=
  | En_var k : Enters (RVar k) k
  | En_first t ts k : Enters t k -> Enters (RTuple (t :: ts)) k
  | En_later t ts k : Silent t -> Enters (RTuple ts) k -> Enters (RTuple (t :: ts)) k
  | En_array t n k : (0 < n)%nat -> Enters t k -> Enters (RArray t n) k
  | En_wrap w t k : Enters t k -> Enters (RWrap w t) k
  | En_cow t k : Enters t k -> Enters (RCow t) k
  | En_ref_cell t k : Enters t k -> Enters (RRefCell t) k
  | En_lock l t k : Enters t k -> Enters (RLock l t) k
  | En_range t k : Enters t k -> Enters (RRange t) k
  | En_range_inclusive t k : Enters t k -> Enters (RRangeInclusive t) k
  | En_range_from t k : Enters t k -> Enters (RRangeFrom t) k
  | En_range_to t k : Enters t k -> Enters (RRangeTo t) k
  | En_range_to_inclusive t k : Enters t k -> Enters (RRangeToInclusive t) k.

  (* Definition [k] is a struct, and decoding its fields in turn enters definition [j] before an octet is read. *)
  Definition enters (k j : nat) : Prop := exists ts, defs k = RStruct ts /\ Enters (RTuple ts) j.

  (* From [k] one comes to [j] by entering one definition after another. *)
  Inductive leads : nat -> nat -> Prop :=
  | leads_one k j : enters k j -> leads k j
  | leads_more k j l : enters k j -> leads j l -> leads k l.
End Definitions.

(* `struct Unit; struct Mutual(Unit, [Loop; 0], Box<Other>)`, `struct Other(PhantomData<u8>, Rc<Mutual>)` *)
Definition mutual_defs (k : nat) : rdef :=
  match k with
  | 0 => RStruct [RVar 2; RArray (RVar 0) 0; RWrap WBox (RVar 1)]
  | 1 => RStruct [RConst TPhantomData; RWrap WRc (RVar 0)]
  | _ => RStruct []
  end%nat.
(* `struct Empty(Marker, Vec<Empty>, [Box<Empty>; 0])`, `struct Marker([Box<Marker>; 0])`: no cycle without an octet, though [unguarded] sees two *)
Definition marker_defs (k : nat) : rdef :=
  match k with
  | 0 => RStruct [RVar 1; RVec (RVar 0); RArray (RWrap WBox (RVar 0)) 0]
  | _ => RStruct [RArray (RWrap WBox (RVar 1)) 0]
  end%nat.
