(* Vocabulary of C128. Definitions only. *)
From Verif Require Import Base Streams Types Encode Guards Recursive Cyclic.
Set Implicit Arguments.

(* Whatever value of the type is encoded, at least one octet is written. (Some types of which this holds are left out.) *)
Fixpoint writes (t : ty) : bool :=
  match t with
  | TInt _ | TNonZero _ | TF32 | TF64 | TBool | TChar | TOption _ | TResult _ _ | TSlice _ | TVec _ | TLinked _ | TSizedSlice _ _
  | TStr | TString | TSizedStr _ | TCStr | TCString | TBound _ | TDuration | TIpv4 | TIpv6 | TIpAddr | TEnum _ _ => true
  | TWrap _ t | TCow t | TRefCell t | TLock _ t | TRange t | TRangeInclusive t | TRangeFrom t | TRangeTo t | TRangeToInclusive t => writes t
  | TTuple ts | TStruct ts => existsb writes ts
  | _ => false
  end.
(* the same for a type that mentions definitions; of those nothing is known *)
Definition rwrites (t : rty) : bool := writes (inst (fun _ => TUnit) t).

(* The definitions whose encoding may begin before an octet has been written. *)
Definition ahead (f : rty -> list nat) : list rty -> list nat :=
  fix go ts := match ts with [] => [] | t :: ts' => f t ++ if rwrites t then [] else go ts' end.
Fixpoint early (t : rty) : list nat :=
  match t with
  | RConst _ => []
  | RVar k => [k]
  | ROption _ | RSlice _ | RVec _ | RLinked _ | RSizedSlice _ _ | RBound _ => []
  | RArray t _ | RWrap _ t | RCow t | RRefCell t | RLock _ t | RRange t | RRangeInclusive t | RRangeFrom t | RRangeTo t | RRangeToInclusive t | RHashSet t => early t
  | RTuple ts => ahead early ts
  | RHashMap k v => early k ++ if rwrites k then [] else early v
  end.
Definition early_def (d : rdef) : list nat := match d with RStruct ts => ahead early ts | REnum _ _ => [] end.

(* Every cycle of definitions writes an octet: going to a definition without writing one goes down in rank. *)
Definition Writing (defs : nat -> rdef) (rank : nat -> nat) (top : nat) : Prop :=
  forall k, (rank k <= top)%nat /\ forall j, In j (early_def (defs k)) -> (rank j < rank k)%nat.

(* Calls nested [n] deep are enough: whatever deeper ones would do makes no difference. *)
Definition Enough (checks : bool) (defs : nat -> rdef) (n k : nat) (v : val) (g : cells) (o : output) : Prop :=
  forall deeper m, n <= m -> nested checks defs deeper m k v g o = nested checks defs (fun _ _ => gdo eok) n k v g o.

(* `struct Node(u8, Link)`, `struct Link(RefCell<Option<Rc<Node>>>)`, `struct List(Node)` *)
Definition node_defs (k : nat) : rdef :=
  match k with
  | 0 => RStruct [RConst (TInt U8); RVar 1]
  | 1 => RStruct [RRefCell (ROption (RWrap WRc (RVar 0)))]
  | _ => RStruct [RVar 0]
  end%nat.
(* `struct Map(RefCell<HashMap<(), Rc<Map>>>)`, and one that has been inserted into itself *)
Definition map_defs (_ : nat) : rdef := RStruct [RRefCell (RHashMap (RConst TUnit) (RWrap WRc (RVar 0)))].
Definition self_map : val := VTuple [VRefCell false (VInt 0)].
Definition self_cells : cells := fun _ => Guarded (VMap [(VUnit, VWrap self_map)]) false 0 false false.
