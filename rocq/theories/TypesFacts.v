(* Induction over types and values. *)
From Coq Require Import Lia ZifyBool ZifyNat ZifyN.
From Verif Require Import Base BaseFacts Utf8 Types.
Set Implicit Arguments.

Section TyInd.
  Variable P : ty -> Prop.
  Hypothesis HInt : forall i, P (TInt i).
  Hypothesis HF32 : P TF32.
  Hypothesis HF64 : P TF64.
  Hypothesis HBool : P TBool.
  Hypothesis HChar : P TChar.
  Hypothesis HUnit : P TUnit.
  Hypothesis HNonZero : forall i, P (TNonZero i).
  Hypothesis HOption : forall t, P t -> P (TOption t).
  Hypothesis HResult : forall t e, P t -> P e -> P (TResult t e).
  Hypothesis HTuple : forall ts, Forall P ts -> P (TTuple ts).
  Hypothesis HArray : forall t n, P t -> P (TArray t n).
  Hypothesis HSlice : forall t, P t -> P (TSlice t).
  Hypothesis HVec : forall t, P t -> P (TVec t).
  Hypothesis HLinked : forall t, P t -> P (TLinked t).
  Hypothesis HSizedSlice : forall t n, P t -> P (TSizedSlice t n).
  Hypothesis HStr : P TStr.
  Hypothesis HString : P TString.
  Hypothesis HSizedStr : forall n, P (TSizedStr n).
  Hypothesis HCStr : P TCStr.
  Hypothesis HCString : P TCString.
  Hypothesis HWrap : forall w t, P t -> P (TWrap w t).
  Hypothesis HCow : forall t, P t -> P (TCow t).
  Hypothesis HRefCell : forall t, P t -> P (TRefCell t).
  Hypothesis HLock : forall l t, P t -> P (TLock l t).
  Hypothesis HDuration : P TDuration.
  Hypothesis HSystemTime : P TSystemTime.
  Hypothesis HIpv4 : P TIpv4.
  Hypothesis HIpv6 : P TIpv6.
  Hypothesis HIpAddr : P TIpAddr.
  Hypothesis HSockV4 : P TSockV4.
  Hypothesis HSockV6 : P TSockV6.
  Hypothesis HSockAddr : P TSockAddr.
  Hypothesis HRange : forall t, P t -> P (TRange t).
  Hypothesis HRangeFrom : forall t, P t -> P (TRangeFrom t).
  Hypothesis HRangeFull : P TRangeFull.
  Hypothesis HRangeInclusive : forall t, P t -> P (TRangeInclusive t).
  Hypothesis HRangeTo : forall t, P t -> P (TRangeTo t).
  Hypothesis HRangeToInclusive : forall t, P t -> P (TRangeToInclusive t).
  Hypothesis HBound : forall t, P t -> P (TBound t).
  Hypothesis HPhantomData : P TPhantomData.
  Hypothesis HPhantomPinned : P TPhantomPinned.
  Hypothesis HInfallible : P TInfallible.
  Hypothesis HHashMap : forall k v, P k -> P v -> P (THashMap k v).
  Hypothesis HHashSet : forall k, P k -> P (THashSet k).
  Hypothesis HStruct : forall ts, Forall P ts -> P (TStruct ts).
  Hypothesis HEnum : forall r vs, Forall (fun x => Forall P (snd x)) vs -> P (TEnum r vs).

  Fixpoint ty_ind_strong (t : ty) : P t :=
    let all := fix all (ts : list ty) : Forall P ts :=
      match ts with
      | [] => Forall_nil P
      | t :: ts' => Forall_cons t (ty_ind_strong t) (all ts')
      end in
    match t with
    | TInt i => HInt i | TF32 => HF32 | TF64 => HF64 | TBool => HBool | TChar => HChar | TUnit => HUnit
    | TNonZero i => HNonZero i
    | TOption t => HOption (ty_ind_strong t)
    | TResult t e => HResult (ty_ind_strong t) (ty_ind_strong e)
    | TTuple ts => HTuple (all ts)
    | TArray t n => HArray n (ty_ind_strong t)
    | TSlice t => HSlice (ty_ind_strong t)
    | TVec t => HVec (ty_ind_strong t)
    | TLinked t => HLinked (ty_ind_strong t)
    | TSizedSlice t n => HSizedSlice n (ty_ind_strong t)
    | TStr => HStr | TString => HString | TSizedStr n => HSizedStr n | TCStr => HCStr | TCString => HCString
    | TWrap w t => HWrap w (ty_ind_strong t)
    | TCow t => HCow (ty_ind_strong t)
    | TRefCell t => HRefCell (ty_ind_strong t)
    | TLock l t => HLock l (ty_ind_strong t)
    | TDuration => HDuration | TSystemTime => HSystemTime
    | TIpv4 => HIpv4 | TIpv6 => HIpv6 | TIpAddr => HIpAddr
    | TSockV4 => HSockV4 | TSockV6 => HSockV6 | TSockAddr => HSockAddr
    | TRange t => HRange (ty_ind_strong t)
    | TRangeFrom t => HRangeFrom (ty_ind_strong t)
    | TRangeFull => HRangeFull
    | TRangeInclusive t => HRangeInclusive (ty_ind_strong t)
    | TRangeTo t => HRangeTo (ty_ind_strong t)
    | TRangeToInclusive t => HRangeToInclusive (ty_ind_strong t)
    | TBound t => HBound (ty_ind_strong t)
    | TPhantomData => HPhantomData | TPhantomPinned => HPhantomPinned | TInfallible => HInfallible
    | THashMap k v => HHashMap (ty_ind_strong k) (ty_ind_strong v)
    | THashSet k => HHashSet (ty_ind_strong k)
    | TStruct ts => HStruct (all ts)
    | TEnum r vs =>
      HEnum r
        ((fix allv (vs : list (option Z * list ty)) : Forall (fun x => Forall P (snd x)) vs :=
            match vs with
            | [] => Forall_nil _
            | x :: vs' =>
              Forall_cons x (match x as y return Forall P (snd y) with (_, ts) => all ts end) (allv vs')
            end) vs)
    end.
End TyInd.

Section ValInd.
  Variable P : val -> Prop.
  Hypothesis HInt : forall z, P (VInt z).
  Hypothesis HBool : forall b, P (VBool b).
  Hypothesis HChar : forall c, P (VChar c).
  Hypothesis HUnit : P VUnit.
  Hypothesis HNone : P VNone.
  Hypothesis HSome : forall v, P v -> P (VSome v).
  Hypothesis HOk : forall v, P v -> P (VOk v).
  Hypothesis HErr : forall v, P v -> P (VErr v).
  Hypothesis HTuple : forall vs, Forall P vs -> P (VTuple vs).
  Hypothesis HSeq : forall vs, Forall P vs -> P (VSeq vs).
  Hypothesis HStr : forall s, P (VStr s).
  Hypothesis HWrap : forall v, P v -> P (VWrap v).
  Hypothesis HCow : forall o v, P v -> P (VCow o v).
  Hypothesis HRefCell : forall b v, P v -> P (VRefCell b v).
  Hypothesis HLock : forall b v, P v -> P (VLock b v).
  Hypothesis HDuration : forall s n, P (VDuration s n).
  Hypothesis HTime : forall s n, P (VTime s n).
  Hypothesis HIp4 : forall o, P (VIp4 o).
  Hypothesis HIp6 : forall o, P (VIp6 o).
  Hypothesis HIpV4 : forall o, P (VIpV4 o).
  Hypothesis HIpV6 : forall o, P (VIpV6 o).
  Hypothesis HSock4 : forall o p, P (VSock4 o p).
  Hypothesis HSock6 : forall o p f s, P (VSock6 o p f s).
  Hypothesis HSockV4 : forall o p, P (VSockV4 o p).
  Hypothesis HSockV6 : forall o p f s, P (VSockV6 o p f s).
  Hypothesis HRange : forall a b, P a -> P b -> P (VRange a b).
  Hypothesis HRangeInclusive : forall a b e, P a -> P b -> P (VRangeInclusive a b e).
  Hypothesis HHalfRange : forall a, P a -> P (VHalfRange a).
  Hypothesis HIncluded : forall v, P v -> P (VIncluded v).
  Hypothesis HExcluded : forall v, P v -> P (VExcluded v).
  Hypothesis HUnbounded : P VUnbounded.
  Hypothesis HMap : forall kvs, Forall (fun p => P (fst p) /\ P (snd p)) kvs -> P (VMap kvs).
  Hypothesis HSet : forall ks, Forall P ks -> P (VSet ks).
  Hypothesis HEnum : forall i vs, Forall P vs -> P (VEnum i vs).

  Fixpoint val_ind_strong (v : val) : P v :=
    let all := fix all (vs : list val) : Forall P vs :=
      match vs with
      | [] => Forall_nil P
      | v :: vs' => Forall_cons v (val_ind_strong v) (all vs')
      end in
    match v with
    | VInt z => HInt z | VBool b => HBool b | VChar c => HChar c | VUnit => HUnit | VNone => HNone
    | VSome v => HSome (val_ind_strong v) | VOk v => HOk (val_ind_strong v) | VErr v => HErr (val_ind_strong v)
    | VTuple vs => HTuple (all vs) | VSeq vs => HSeq (all vs) | VStr s => HStr s
    | VWrap v => HWrap (val_ind_strong v) | VCow o v => HCow o (val_ind_strong v)
    | VRefCell b v => HRefCell b (val_ind_strong v) | VLock b v => HLock b (val_ind_strong v)
    | VDuration s n => HDuration s n | VTime s n => HTime s n
    | VIp4 o => HIp4 o | VIp6 o => HIp6 o | VIpV4 o => HIpV4 o | VIpV6 o => HIpV6 o
    | VSock4 o p => HSock4 o p | VSock6 o p f s => HSock6 o p f s
    | VSockV4 o p => HSockV4 o p | VSockV6 o p f s => HSockV6 o p f s
    | VRange a b => HRange (val_ind_strong a) (val_ind_strong b)
    | VRangeInclusive a b e => HRangeInclusive e (val_ind_strong a) (val_ind_strong b)
    | VHalfRange a => HHalfRange (val_ind_strong a)
    | VIncluded v => HIncluded (val_ind_strong v) | VExcluded v => HExcluded (val_ind_strong v) | VUnbounded => HUnbounded
    | VMap kvs =>
      HMap ((fix allp (kvs : list (val * val)) : Forall (fun p => P (fst p) /\ P (snd p)) kvs :=
               match kvs with
               | [] => Forall_nil _
               | p :: kvs' =>
                 Forall_cons p
                   (match p as q return P (fst q) /\ P (snd q) with (a, b) => conj (val_ind_strong a) (val_ind_strong b) end)
                   (allp kvs')
               end) kvs)
    | VSet ks => HSet (all ks)
    | VEnum i vs => HEnum i (all vs)
    end.
End ValInd.
