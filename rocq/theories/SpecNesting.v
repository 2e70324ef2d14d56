(* Which definitions are begun inside which, and how deep this can go. Definitions only. *)
From Verif Require Import Base Streams Types Decode Spec SpecCalls SpecRecursive Recursive.
Set Implicit Arguments.

Section Definitions.
  Variable defs : nat -> rdef.

  (* A value of the type can be decoded: there is an input from which it is, with calls nested deep enough. *)
  Definition Makes (t : rty) : Prop := exists n i i' v, in_bounds i /\ decode (inst (unroll defs n) t) i = (i', Ok v).

  (* Decoding the type can begin to decode definition [k]: the definition is mentioned, is not an item of an array without items, and what stands
     before it can be decoded. *)
  Inductive Calls : rty -> nat -> Prop :=
  | Ca_var k : Calls (RVar k) k
  | Ca_option t k : Calls t k -> Calls (ROption t) k
  | Ca_first t ts k : Calls t k -> Calls (RTuple (t :: ts)) k
  | Ca_later t ts k : Makes t -> Calls (RTuple ts) k -> Calls (RTuple (t :: ts)) k
  | Ca_array t n k : (0 < n)%nat -> Calls t k -> Calls (RArray t n) k
  | Ca_vec t k : Calls t k -> Calls (RVec t) k
  | Ca_linked t k : Calls t k -> Calls (RLinked t) k
  | Ca_sized_slice t n k : (0 < n)%nat -> Calls t k -> Calls (RSizedSlice t n) k
  | Ca_wrap w t k : Calls t k -> Calls (RWrap w t) k
  | Ca_cow_slice t k : Calls t k -> Calls (RCow (RSlice t)) k
  | Ca_cow t k : Calls t k -> Calls (RCow t) k
  | Ca_ref_cell t k : Calls t k -> Calls (RRefCell t) k
  | Ca_lock l t k : Calls t k -> Calls (RLock l t) k
  | Ca_range t k : Calls t k -> Calls (RRange t) k
  | Ca_range_inclusive t k : Calls t k -> Calls (RRangeInclusive t) k
  | Ca_range_from t k : Calls t k -> Calls (RRangeFrom t) k
  | Ca_range_to t k : Calls t k -> Calls (RRangeTo t) k
  | Ca_range_to_inclusive t k : Calls t k -> Calls (RRangeToInclusive t) k
  | Ca_bound t k : Calls t k -> Calls (RBound t) k
  | Ca_key t u k : Calls t k -> Calls (RHashMap t u) k
  | Ca_value t u k : Makes t -> Calls u k -> Calls (RHashMap t u) k
  | Ca_set t k : Calls t k -> Calls (RHashSet t) k.

  (* The variant at place [i] can stand on the wire: its discriminant has an encoding (one of `repr(usize)` above 65535 has none). *)
  Definition selected (r : ity) (vs : list (option Z * list rty)) (i : nat) : Prop := exists d bs, Assigned (map fst vs) i d /\ WireInt r d bs.

  (* Decoding definition [k] can begin to decode definition [j]. *)
  Definition calls (k j : nat) : Prop :=
    match defs k with
    | RStruct ts => Calls (RTuple ts) j
    | REnum r vs => exists i o ts, nth_error vs i = Some (o, ts) /\ selected r vs i /\ Calls (RTuple ts) j
    end.

  (* There are definitions k = k0, k1, .., kn such that each can begin the next. *)
  Fixpoint chain (n k : nat) : Prop := match n with O => True | S n' => exists j, calls k j /\ chain n' j end.

  (* From [k] one comes to [j] by one call or more. *)
  Inductive comes : nat -> nat -> Prop :=
  | comes_one k j : calls k j -> comes k j
  | comes_more k j l : calls k j -> comes j l -> comes k l.
End Definitions.

(* The definitions compile: no type without values is mentioned by name, and the discriminants are distinct values of the representation. *)
Definition compiled (d : rdef) : Prop :=
  inhabited_def d = true /\ match d with RStruct _ => True | REnum r vs => enum_ok r (map (fun x => (fst x, [])) vs) end.

(* `struct Top(Vec<Leaf>, Never, Box<Top>)`, `enum Never {}`, `struct Leaf(u8, [Box<Top>; 0])`: mentions itself, and yet calls are nested twice at most *)
Definition never_defs (k : nat) : rdef :=
  match k with
  | 0 => RStruct [RVec (RVar 2); RVar 1; RWrap WBox (RVar 0)]
  | 1 => REnum U8 []
  | _ => RStruct [RConst (TInt U8); RArray (RWrap WBox (RVar 0)) 0]
  end%nat.
