(* Vocabulary of C125. Definitions only. *)
From Verif Require Import Base Streams Types Encode Shared Lazy.
Set Implicit Arguments.

(* any number of steps, of the encoder only *)
Inductive Alone : store * output * prog -> store * output * prog -> Prop :=
| Alone_end c : Alone c c
| Alone_step c c1 c2 : lown c c1 -> Alone c1 c2 -> Alone c c2.

(* any number of steps, of all *)
Inductive LRuns : store * output * prog -> store * output * prog -> Prop :=
| LRuns_end c : LRuns c c
| LRuns_step c c1 c2 : lstep c c1 -> LRuns c1 c2 -> LRuns c c2.

(* Nothing has been computed yet. *)
Definition Fresh (s : store) : Prop := l_calls s = [] /\ forall a, exists f, l_cells s a = Waiting f.

(* what looking at the cell gives, now or later; [None] for a panic *)
Definition view (s : store) (a : Z) : option val := match l_cells s a with Waiting f => f | Ready x => Some x | Poisoned => None end.

Fixpoint each (fs : list (val -> val)) (vs : list val) : list val :=
  match fs, vs with
  | f :: fs', v :: vs' => f v :: each fs' vs'
  | _, _ => vs
  end.

(* The value with each lazy part computed, if the cells are computed to [d]. All else is the same. *)
Fixpoint forced (d : Z -> val) (t : ty) (v : val) {struct t} : val :=
  match t, v with
  | TWrap WLazyCell t, VWrap (VInt a) | TWrap WLazyLock t, VWrap (VInt a) => VWrap (forced d t (d a))
  | TOption t, VSome v => VSome (forced d t v)
  | TResult t _, VOk v => VOk (forced d t v)
  | TResult _ e, VErr v => VErr (forced d e v)
  | TTuple ts, VTuple vs | TStruct ts, VTuple vs => VTuple (each (map (forced d) ts) vs)
  | TArray t _, VSeq vs | TSlice t, VSeq vs | TVec t, VSeq vs | TSizedSlice t _, VSeq vs | TLinked t, VSeq vs => VSeq (map (forced d t) vs)
  | TWrap _ t, VWrap v => VWrap (forced d t v)
  | TCow t, VCow b v => VCow b (forced d t v)
  | TRefCell t, VRefCell b v => VRefCell b (forced d t v)
  | TLock _ t, VLock p v => VLock p (forced d t v)
  | TRange t, VRange a b => VRange (forced d t a) (forced d t b)
  | TRangeInclusive t, VRangeInclusive a b e => VRangeInclusive (forced d t a) (forced d t b) e
  | TRangeFrom t, VHalfRange a | TRangeTo t, VHalfRange a | TRangeToInclusive t, VHalfRange a => VHalfRange (forced d t a)
  | TBound t, VIncluded v => VIncluded (forced d t v)
  | TBound t, VExcluded v => VExcluded (forced d t v)
  | THashMap k u, VMap kvs => VMap (map (fun p => (forced d k (fst p), forced d u (snd p))) kvs)
  | THashSet k, VSet ks => VSet (map (forced d k) ks)
  | TEnum _ vs, VEnum i fs => VEnum i match nth_error (map (fun x => map (forced d) (snd x)) vs) i with Some gs => each gs fs | None => fs end
  | _, _ => v
  end.

Fixpoint Some_of (fs : list (val -> Prop)) (vs : list val) : Prop :=
  match fs, vs with
  | f :: fs', v :: vs' => f v \/ Some_of fs' vs'
  | _, _ => False
  end.

(* The cell is a lazy part of the value, or of what such a part is computed to. *)
Fixpoint Part (w : Z -> option val) (c : Z) (t : ty) (v : val) {struct t} : Prop :=
  match t, v with
  | TWrap WLazyCell t, VWrap (VInt a) | TWrap WLazyLock t, VWrap (VInt a) => c = a \/ match w a with Some x => Part w c t x | None => False end
  | TOption t, VSome v => Part w c t v
  | TResult t _, VOk v => Part w c t v
  | TResult _ e, VErr v => Part w c e v
  | TTuple ts, VTuple vs | TStruct ts, VTuple vs => Some_of (map (Part w c) ts) vs
  | TArray t _, VSeq vs | TSlice t, VSeq vs | TVec t, VSeq vs | TSizedSlice t _, VSeq vs | TLinked t, VSeq vs => Exists (Part w c t) vs
  | TWrap _ t, VWrap v => Part w c t v
  | TCow t, VCow b v => Part w c t v
  | TRefCell t, VRefCell b v => Part w c t v
  | TLock _ t, VLock p v => Part w c t v
  | TRange t, VRange a b => Part w c t a \/ Part w c t b
  | TRangeInclusive t, VRangeInclusive a b e => Part w c t a \/ Part w c t b
  | TRangeFrom t, VHalfRange a | TRangeTo t, VHalfRange a | TRangeToInclusive t, VHalfRange a => Part w c t a
  | TBound t, VIncluded v => Part w c t v
  | TBound t, VExcluded v => Part w c t v
  | THashMap k u, VMap kvs => Exists (fun p => Part w c k (fst p) \/ Part w c u (snd p)) kvs
  | THashSet k, VSet ks => Exists (Part w c k) ks
  | TEnum _ vs, VEnum i fs => match nth_error (map (fun x => map (Part w c) (snd x)) vs) i with Some gs => Some_of gs fs | None => False end
  | _, _ => False
  end.
