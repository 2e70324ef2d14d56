(* Vocabulary of C126. Definitions only. *)
From Verif Require Import Base Streams Types Encode Guards SpecLazy.
Set Implicit Arguments.

(* The value with the contents of its cells in place of their addresses; a RefCell counts as borrowed if it is mutably borrowed. *)
Fixpoint shown (g : cells) (t : ty) (v : val) {struct t} : val :=
  match t, v with
  | TRefCell t, VRefCell _ (VInt a) => VRefCell (g_borrowed (g a)) (shown g t (g_val (g a)))
  | TLock _ t, VLock p (VInt a) => VLock p (shown g t (g_val (g a)))
  | TRefCell t, VRefCell b v => VRefCell b (shown g t v)
  | TLock _ t, VLock p v => VLock p (shown g t v)
  | TOption t, VSome v => VSome (shown g t v)
  | TResult t _, VOk v => VOk (shown g t v)
  | TResult _ e, VErr v => VErr (shown g e v)
  | TTuple ts, VTuple vs | TStruct ts, VTuple vs => VTuple (each (map (shown g) ts) vs)
  | TArray t _, VSeq vs | TSlice t, VSeq vs | TVec t, VSeq vs | TSizedSlice t _, VSeq vs | TLinked t, VSeq vs => VSeq (map (shown g t) vs)
  | TWrap _ t, VWrap v => VWrap (shown g t v)
  | TCow t, VCow b v => VCow b (shown g t v)
  | TRange t, VRange a b => VRange (shown g t a) (shown g t b)
  | TRangeInclusive t, VRangeInclusive a b e => VRangeInclusive (shown g t a) (shown g t b) e
  | TRangeFrom t, VHalfRange a | TRangeTo t, VHalfRange a | TRangeToInclusive t, VHalfRange a => VHalfRange (shown g t a)
  | TBound t, VIncluded v => VIncluded (shown g t v)
  | TBound t, VExcluded v => VExcluded (shown g t v)
  | THashMap k u, VMap kvs => VMap (map (fun p => (shown g k (fst p), shown g u (snd p))) kvs)
  | THashSet k, VSet ks => VSet (map (shown g k) ks)
  | TEnum _ vs, VEnum i fs => VEnum i match nth_error (map (fun x => map (shown g) (snd x)) vs) i with Some gs => each gs fs | None => fs end
  | _, _ => v
  end.

(* The cell is a Mutex (or, with [rw], a Mutex or RwLock) that is part of the value, or of the contents of such a part. *)
Fixpoint LockIn (rw : bool) (g : cells) (c : Z) (t : ty) (v : val) {struct t} : Prop :=
  match t, v with
  | TRefCell t, VRefCell _ (VInt a) => LockIn rw g c t (g_val (g a))
  | TLock Mutex t, VLock _ (VInt a) => c = a \/ LockIn rw g c t (g_val (g a))
  | TLock RwLock t, VLock _ (VInt a) => (rw = true /\ c = a) \/ LockIn rw g c t (g_val (g a))
  | TRefCell t, VRefCell _ v => LockIn rw g c t v
  | TLock _ t, VLock _ v => LockIn rw g c t v
  | TOption t, VSome v => LockIn rw g c t v
  | TResult t _, VOk v => LockIn rw g c t v
  | TResult _ e, VErr v => LockIn rw g c e v
  | TTuple ts, VTuple vs | TStruct ts, VTuple vs => Some_of (map (LockIn rw g c) ts) vs
  | TArray t _, VSeq vs | TSlice t, VSeq vs | TVec t, VSeq vs | TSizedSlice t _, VSeq vs | TLinked t, VSeq vs => Exists (LockIn rw g c t) vs
  | TWrap _ t, VWrap v => LockIn rw g c t v
  | TCow t, VCow b v => LockIn rw g c t v
  | TRange t, VRange a b => LockIn rw g c t a \/ LockIn rw g c t b
  | TRangeInclusive t, VRangeInclusive a b e => LockIn rw g c t a \/ LockIn rw g c t b
  | TRangeFrom t, VHalfRange a | TRangeTo t, VHalfRange a | TRangeToInclusive t, VHalfRange a => LockIn rw g c t a
  | TBound t, VIncluded v => LockIn rw g c t v
  | TBound t, VExcluded v => LockIn rw g c t v
  | THashMap k u, VMap kvs => Exists (fun p => LockIn rw g c k (fst p) \/ LockIn rw g c u (snd p)) kvs
  | THashSet k, VSet ks => Exists (LockIn rw g c k) ks
  | TEnum _ vs, VEnum i fs => match nth_error (map (fun x => map (LockIn rw g c) (snd x)) vs) i with Some gs => Some_of gs fs | None => False end
  | _, _ => False
  end.

(* All but poison is the same. *)
Definition Unpoisoned (x : guarded) := (g_val x, g_borrowed x, g_readers x, g_locked x).
