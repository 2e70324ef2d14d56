(* Vocabulary of C66. Definitions only. *)
From Verif Require Import Base Streams Types Encode Shared.
Set Implicit Arguments.

(* The execution from one state to another, with the memories it goes through, both ends included. *)
Inductive Runs : memory * output * prog -> list memory -> memory * output * prog -> Prop :=
| Runs_end mem o p : Runs (mem, o, p) [mem] (mem, o, p)
| Runs_step mem o p c1 mems c2 : step (mem, o, p) c1 -> Runs c1 mems c2 -> Runs (mem, o, p) (mem :: mems) c2.

(* The cell held the value at some time during the execution. *)
Definition Held (mems : list memory) (a : Z) (x : val) : Prop := exists mem, In mem mems /\ mem a = x.

(* fields; a field beyond the types is unchanged *)
Fixpoint Pointwise (rs : list (val -> val -> Prop)) (vs ws : list val) : Prop :=
  match rs, vs, ws with
  | [], _, _ => ws = vs
  | _ :: _, [], [] => True
  | r :: rs', v :: vs', w :: ws' => r v w /\ Pointwise rs' vs' ws'
  | _, _, _ => False
  end.

(* [w] is a snapshot of the shared value [v]: each address of an atomic is replaced by a value which its cell held, and each address of a lock by a
   snapshot of a value which its cell held. All else is the same. *)
Fixpoint Snapshot (held : Z -> val -> Prop) (t : ty) (v w : val) {struct t} : Prop :=
  match t, v with
  | TWrap WAtomic _, VWrap (VInt a) => exists x, held a x /\ w = VWrap x
  | TLock _ t, VLock p (VInt a) => exists x y, held a x /\ Snapshot held t x y /\ w = VLock p y
  | TOption t, VSome v => exists y, Snapshot held t v y /\ w = VSome y
  | TResult t _, VOk v => exists y, Snapshot held t v y /\ w = VOk y
  | TResult _ e, VErr v => exists y, Snapshot held e v y /\ w = VErr y
  | TTuple ts, VTuple vs | TStruct ts, VTuple vs => exists ws, Pointwise (map (Snapshot held) ts) vs ws /\ w = VTuple ws
  | TArray t _, VSeq vs | TSlice t, VSeq vs | TVec t, VSeq vs | TSizedSlice t _, VSeq vs | TLinked t, VSeq vs =>
    exists ws, Forall2 (Snapshot held t) vs ws /\ w = VSeq ws
  | TWrap _ t, VWrap v => exists y, Snapshot held t v y /\ w = VWrap y
  | TCow t, VCow b v => exists y, Snapshot held t v y /\ w = VCow b y
  | TRefCell t, VRefCell b v => exists y, Snapshot held t v y /\ w = VRefCell b y
  | TRange t, VRange a b => exists x y, Snapshot held t a x /\ Snapshot held t b y /\ w = VRange x y
  | TRangeInclusive t, VRangeInclusive a b e => exists x y, Snapshot held t a x /\ Snapshot held t b y /\ w = VRangeInclusive x y e
  | TRangeFrom t, VHalfRange a | TRangeTo t, VHalfRange a | TRangeToInclusive t, VHalfRange a => exists y, Snapshot held t a y /\ w = VHalfRange y
  | TBound t, VIncluded v => exists y, Snapshot held t v y /\ w = VIncluded y
  | TBound t, VExcluded v => exists y, Snapshot held t v y /\ w = VExcluded y
  | THashMap k u, VMap kvs => exists l, Forall2 (fun p q => Snapshot held k (fst p) (fst q) /\ Snapshot held u (snd p) (snd q)) kvs l /\ w = VMap l
  | THashSet k, VSet ks => exists l, Forall2 (Snapshot held k) ks l /\ w = VSet l
  | TEnum _ vs, VEnum i fs =>
    exists ws, match nth_error (map (fun x => map (Snapshot held) (snd x)) vs) i with Some rs => Pointwise rs fs ws | None => ws = fs end /\ w = VEnum i ws
  | _, _ => w = v
  end.

(* A shared value of the type, if the cells hold only what [ok] allows: its snapshots are values of the type. *)
Definition SharedOf (ok : Z -> val -> Prop) (t : ty) (v : val) : Prop := forall w, Snapshot ok t v w -> wt t w.
