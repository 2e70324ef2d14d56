(* Vocabulary of the properties about implementations that the user writes. Definitions only. *)
From Verif Require Import Base Streams Utf8 Types Encode Decode Sized Spec SpecCalls SpecDecode SpecSize User.
Set Implicit Arguments.

(* The call always does the same: given room it appends exactly [bs] and returns [r]; without room it panics. *)
Definition Sends (m : E) (bs : list byte) (r : res eerr unit) : Prop :=
  forall o, output_position o <= output_capacity o ->
  (length bs <= output_remaining o -> exists o', m o = (o', r) /\ output_as_slice o' = output_as_slice o ++ bs /\
     output_position o' = output_position o + length bs /\ output_capacity o' = output_capacity o) /\
  (output_remaining o < length bs -> exists o' p, m o = (o', Panic p)).

(* What the author of a type promises: of which values, and when two values count as the same. *)
Record contract := Contract { c_valid : val -> Prop; c_same : val -> val -> Prop }.

(* The promise: encoding a valid value always does the same, and if it succeeds, decoding the octets, wherever they stand, consumes exactly
   them and gives the same value. *)
Definition Inverts (c : contract) (encode : val -> E) (decode : D val) : Prop :=
  forall v, c_valid c v -> exists bs r, Sends (encode v) bs r /\ (r = Ok tt -> exists v', Yields decode bs v' /\ c_same c v v').
Definition Honours (u : impl) (c : contract) : Prop := Inverts c (u_encode u) (u_decode u).

(* The values of a type built from user types on which the round trip can be expected: as [RoundTrips], every SizedSlice is full. *)
Fixpoint Fit (cs : nat -> contract) (t : uty) (v : val) {struct t} : Prop :=
  match t, v with
  | UUser k, v => c_valid (cs k) v
  | UStd t, v => wt t v /\ RoundTrips t v
  | UOption _, VNone | UBound _, VUnbounded => True
  | UOption t, VSome v | UResult _ t _, VOk v | UResult _ _ t, VErr v | UWrap _ t, VWrap v | URefCell t, VRefCell _ v | ULock _ t, VLock _ v
  | URangeFrom t, VHalfRange v | URangeTo t, VHalfRange v | URangeToInclusive t, VHalfRange v
  | UBound t, VIncluded v | UBound t, VExcluded v => Fit cs t v
  | URange t, VRange a b | URangeInclusive t, VRangeInclusive a b _ => Fit cs t a /\ Fit cs t b
  | UTuple ts, VTuple vs | UStruct _ _ ts, VTuple vs => all2 (map (Fit cs) ts) vs
  | UArray t n, VSeq vs | USizedSlice t n, VSeq vs => length vs = n /\ Forall (Fit cs t) vs
  | UVec t, VSeq vs | ULinked t, VSeq vs => Forall (Fit cs t) vs
  | UCow b, VCow _ v => match b, v with USlice t, VSeq vs => Forall (Fit cs t) vs | _, _ => Fit cs b v end
  | UEnum _ _ r vs, VEnum i fs =>
    enum_ok r (map (fun x => (fst x, [])) vs) /\
    match nth_error (map (fun x => map (Fit cs) (snd x)) vs) i with Some ps => all2 ps fs | None => False end
  | _, _ => False
  end.

(* [v'] is [v] again: the parts that are of user types are the same as their authors say, other parts are equal up to what [norm] says;
   cells are not borrowed, locks not poisoned, Cows owned, and inclusive ranges not exhausted. *)
Fixpoint Again (cs : nat -> contract) (t : uty) (v v' : val) {struct t} : Prop :=
  let fields ts vs vs' := length vs = length vs' /\ all2 (map (fun t p => Again cs t (fst p) (snd p)) ts) (combine vs vs') in
  match t, v, v' with
  | UUser k, v, v' => c_same (cs k) v v'
  | UStd t, v, v' => v' = norm v
  | UOption _, VNone, VNone | UBound _, VUnbounded, VUnbounded => True
  | UOption t, VSome v, VSome v' | UResult _ t _, VOk v, VOk v' | UResult _ _ t, VErr v, VErr v' | UWrap _ t, VWrap v, VWrap v'
  | URefCell t, VRefCell _ v, VRefCell false v' | ULock _ t, VLock _ v, VLock false v' | UCow t, VCow _ v, VCow true v'
  | URangeFrom t, VHalfRange v, VHalfRange v' | URangeTo t, VHalfRange v, VHalfRange v' | URangeToInclusive t, VHalfRange v, VHalfRange v'
  | UBound t, VIncluded v, VIncluded v' | UBound t, VExcluded v, VExcluded v' => Again cs t v v'
  | URange t, VRange a b, VRange a' b' | URangeInclusive t, VRangeInclusive a b _, VRangeInclusive a' b' false => Again cs t a a' /\ Again cs t b b'
  | UTuple ts, VTuple vs, VTuple vs' | UStruct _ _ ts, VTuple vs, VTuple vs' => fields ts vs vs'
  | UArray t _, VSeq vs, VSeq vs' | USizedSlice t _, VSeq vs, VSeq vs' | USlice t, VSeq vs, VSeq vs' | UVec t, VSeq vs, VSeq vs'
  | ULinked t, VSeq vs, VSeq vs' => Forall2 (Again cs t) vs vs'
  | UEnum _ _ _ vs, VEnum i fs, VEnum i' fs' =>
    i' = i /\ length fs = length fs' /\
    match nth_error (map (fun x => map (fun t p => Again cs t (fst p) (snd p)) (snd x)) vs) i with
    | Some ps => all2 ps (combine fs fs')
    | None => False
    end
  | _, _, _ => False
  end.

(* The type with standard types for the user types; and what the compiler selects for conversions then. *)
Fixpoint plain (f : nat -> ty) (t : uty) : ty :=
  match t with
  | UUser k => f k
  | UStd t => t
  | UOption t => TOption (plain f t)
  | UResult _ t e => TResult (plain f t) (plain f e)
  | UTuple ts => TTuple (map (plain f) ts)
  | UArray t n => TArray (plain f t) n
  | USlice t => TSlice (plain f t)
  | UVec t => TVec (plain f t)
  | ULinked t => TLinked (plain f t)
  | USizedSlice t n => TSizedSlice (plain f t) n
  | UWrap w t => TWrap w (plain f t)
  | UCow t => TCow (plain f t)
  | URefCell t => TRefCell (plain f t)
  | ULock l t => TLock l (plain f t)
  | URange t => TRange (plain f t)
  | URangeInclusive t => TRangeInclusive (plain f t)
  | URangeFrom t => TRangeFrom (plain f t)
  | URangeTo t => TRangeTo (plain f t)
  | URangeToInclusive t => TRangeToInclusive (plain f t)
  | UBound t => TBound (plain f t)
  | UHashMap _ k v => THashMap (plain f k) (plain f v)
  | UHashSet _ k => THashSet (plain f k)
  | UStruct _ _ ts => TStruct (map (plain f) ts)
  | UEnum _ _ r vs => TEnum r (map (fun x => (fst x, map (plain f) (snd x))) vs)
  end.
Fixpoint plain_conversions (f : nat -> ty) (t : uty) : Prop :=
  match t with
  | UResult conv t e => conv = result_conv (plain f t) (plain f e) /\ plain_conversions f t /\ plain_conversions f e
  | UStruct ce cd ts => ce = into_generic_enc /\ cd = into_generic_dec /\ fold_right and True (map (plain_conversions f) ts)
  | UEnum ce cd _ vs =>
    ce = into_generic_enc /\ cd = into_generic_dec /\ fold_right and True (map (fun x => fold_right and True (map (plain_conversions f) (snd x))) vs)
  | UTuple ts => fold_right and True (map (plain_conversions f) ts)
  | UCow b => match b with USlice _ => True | _ => match plain f b with TSlice _ | TStr | TCStr => False | _ => True end end /\ plain_conversions f b
  | UOption t | UArray t _ | USlice t | UVec t | ULinked t | USizedSlice t _ | UWrap _ t | URefCell t | ULock _ t
  | URange t | URangeInclusive t | URangeFrom t | URangeTo t | URangeToInclusive t | UBound t => plain_conversions f t
  | UHashMap insert k v => insert = map_insert /\ plain_conversions f k /\ plain_conversions f v
  | UHashSet insert k => insert = set_insert /\ plain_conversions f k
  | UUser _ | UStd _ => True
  end.

(* Code that does nothing to its output but write to it, and nothing to its input but read from it: any sequence of calls. *)
Inductive Wrote : output -> output -> Prop :=
| Wrote_nothing o : Wrote o o
| Wrote_more o o1 data o2 r : Wrote o o1 -> output_write o1 data = (o2, r) -> Wrote o o2.
Inductive Took : input -> input -> Prop :=
| Took_nothing i : Took i i
| Took_more i i1 n i2 r : Took i i1 -> input_read i1 n = (i2, r) -> Took i i2
| Took_into i i1 dst i2 dst' r : Took i i1 -> input_read_into i1 dst = (i2, dst', r) -> Took i i2.
Definition OnlyWrites (m : E) : Prop := forall o, Wrote o (fst (m o)).
Definition OnlyReads {A : Type} (m : D A) : Prop := forall i, Took i (fst (m i)).

(* The values of a type: those of the user types are valid as their authors say. *)
Fixpoint Typed (cs : nat -> contract) (t : uty) (v : val) {struct t} : Prop :=
  match t, v with
  | UUser k, v => c_valid (cs k) v
  | UStd t, v => wt t v
  | UOption _, VNone | UBound _, VUnbounded => True
  | UOption t, VSome v | UResult _ t _, VOk v | UResult _ _ t, VErr v | UWrap _ t, VWrap v | URefCell t, VRefCell _ v | ULock _ t, VLock _ v
  | URangeFrom t, VHalfRange v | URangeTo t, VHalfRange v | URangeToInclusive t, VHalfRange v
  | UBound t, VIncluded v | UBound t, VExcluded v | UCow t, VCow _ v => Typed cs t v
  | UHashMap _ k v, VMap kvs => Forall (fun p => Typed cs k (fst p) /\ Typed cs v (snd p)) kvs
  | UHashSet _ k, VSet ks => Forall (Typed cs k) ks
  | URange t, VRange a b | URangeInclusive t, VRangeInclusive a b _ => Typed cs t a /\ Typed cs t b
  | UTuple ts, VTuple vs | UStruct _ _ ts, VTuple vs => all2 (map (Typed cs) ts) vs
  | UArray t n, VSeq vs => length vs = n /\ Forall (Typed cs t) vs
  | USizedSlice t n, VSeq vs => length vs <= n /\ Forall (Typed cs t) vs
  | USlice t, VSeq vs | UVec t, VSeq vs | ULinked t, VSeq vs => Forall (Typed cs t) vs
  | UEnum _ _ r vs, VEnum i fs =>
    enum_ok r (map (fun x => (fst x, [])) vs) /\
    match nth_error (map (fun x => map (Typed cs) (snd x)) vs) i with Some ps => all2 ps fs | None => False end
  | _, _ => False
  end.

(* The constant of a user type is right: encoding a valid value, whatever the outcome, leaves the output in bounds and its position at most that much
   further. *)
Definition WithinSize (m : E) (n : N) : Prop :=
  forall o, output_position o <= output_capacity o ->
  output_position (fst (m o)) <= output_capacity (fst (m o)) /\ (N.of_nat (output_position (fst (m o)) - output_position o) <= n)%N.

(* As [SizeOk]. *)
Fixpoint USizeOk (sz : nat -> option N) (size_of : size_of_fn) (usize_of : uty -> N) (t : uty) : Prop :=
  let go := USizeOk sz size_of usize_of in
  match t with
  | USizedSlice _ _ => False
  | UResult _ a b =>
    go a /\ go b /\
    forall m n, umax_size sz size_of usize_of a = Some m -> umax_size sz size_of usize_of b = Some n ->
    (N.max m n <= N.max (usize_of a) (usize_of b))%N
  | UUser _ => True
  | UStd t => SizeOk size_of t
  | UOption t | UArray t _ | USlice t | UVec t | ULinked t | UWrap _ t | UCow t | URefCell t | ULock _ t
  | URange t | URangeFrom t | URangeInclusive t | URangeTo t | URangeToInclusive t | UBound t => go t
  | UTuple ts | UStruct _ _ ts => fold_right and True (map go ts)
  | UEnum _ _ _ vs => fold_right and True (map (fun x => fold_right and True (map go (snd x))) vs)
  | UHashMap _ k v => go k /\ go v
  | UHashSet _ k => go k
  end.
