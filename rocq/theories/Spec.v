(* The specification of the wire format, independent of the model's encoder and decoder. It mentions only types, values and
   octets. Definitions only. *)
From Verif Require Import Base Utf8 Types.
Set Implicit Arguments.
Local Open Scope Z_scope.

(* [bs] is the little-endian representation of [z] in [w] octets: octet k holds bits 8k..8k+7. *)
Definition le_repr (w : nat) (z : Z) (bs : list byte) : Prop :=
  length bs = w /\
  forall k b, nth_error bs k = Some b -> b2z b = (z / 2 ^ (8 * Z.of_nat k)) mod 256.

(* Integers: `usize` and `isize` are written as u16 and i16, the others in their own width. *)
Inductive WireInt : ity -> Z -> list byte -> Prop :=
| WI_fixed i z bs : i <> Usize -> i <> Isize -> le_repr (iwidth i) z bs -> WireInt i z bs
| WI_usize z bs : 0 <= z <= 65535 -> le_repr 2 z bs -> WireInt Usize z bs
| WI_isize z bs : -32768 <= z <= 32767 -> le_repr 2 z bs -> WireInt Isize z bs.

(* The discriminant of variant [i] by the rules of the Rust reference: explicit, or zero for the first variant, or one
   more than that of the previous variant. *)
Inductive Assigned (vs : list (option Z)) : nat -> Z -> Prop :=
| A_explicit i d : nth_error vs i = Some (Some d) -> Assigned vs i d
| A_first : nth_error vs 0 = Some None -> Assigned vs 0 0
| A_next i d : nth_error vs (S i) = Some None -> Assigned vs i d -> Assigned vs (S i) (d + 1).

(* A sequence is preceded by the number of its items as a u16. *)
Definition WireLen (n : nat) (bs : list byte) : Prop := Z.of_nat n <= 65535 /\ le_repr 2 (Z.of_nat n) bs.

(* Nanoseconds since the epoch. *)
Definition time_ns (s n : Z) : Z := s * 1000000000 + n.

(* [Wire checks t v bs]: [bs] is the encoding of the value [v] of type [t]. The parameter only matters for the lowest
   whole second of SystemTime, which has no encoding in a program built with overflow checks. *)
Inductive Wire (checks : bool) : ty -> val -> list byte -> Prop :=
(* numbers *)
| W_int i z bs : WireInt i z bs -> Wire checks (TInt i) (VInt z) bs
| W_nonzero i z bs : WireInt i z bs -> Wire checks (TNonZero i) (VInt z) bs
| W_f32 z bs : le_repr 4 z bs -> Wire checks TF32 (VInt z) bs
| W_f64 z bs : le_repr 8 z bs -> Wire checks TF64 (VInt z) bs
| W_false : Wire checks TBool (VBool false) [x00]
| W_true : Wire checks TBool (VBool true) [x01]
| W_char c bs : le_repr 4 c bs -> Wire checks TChar (VChar c) bs
(* nothing *)
| W_unit : Wire checks TUnit VUnit []
| W_phantom : Wire checks TPhantomData VUnit []
| W_pinned : Wire checks TPhantomPinned VUnit []
| W_full : Wire checks TRangeFull VUnit []
(* sums: a sign octet, then the payload *)
| W_none t : Wire checks (TOption t) VNone [x00]
| W_some t v bs : Wire checks t v bs -> Wire checks (TOption t) (VSome v) (x01 :: bs)
| W_ok t e v bs : Wire checks t v bs -> Wire checks (TResult t e) (VOk v) (x00 :: bs)
| W_err t e v bs : Wire checks e v bs -> Wire checks (TResult t e) (VErr v) (x01 :: bs)
| W_included t v bs : Wire checks t v bs -> Wire checks (TBound t) (VIncluded v) (x00 :: bs)
| W_excluded t v bs : Wire checks t v bs -> Wire checks (TBound t) (VExcluded v) (x01 :: bs)
| W_unbounded t : Wire checks (TBound t) VUnbounded [x02]
(* products: the parts in order *)
| W_tuple ts vs bs : WireFields checks ts vs bs -> Wire checks (TTuple ts) (VTuple vs) bs
| W_struct ts vs bs : WireFields checks ts vs bs -> Wire checks (TStruct ts) (VTuple vs) bs
| W_range t a b x y : Wire checks t a x -> Wire checks t b y -> Wire checks (TRange t) (VRange a b) (x ++ y)
| W_range_incl t a b e x y :
    Wire checks t a x -> Wire checks t b y -> Wire checks (TRangeInclusive t) (VRangeInclusive a b e) (x ++ y)
| W_range_from t a x : Wire checks t a x -> Wire checks (TRangeFrom t) (VHalfRange a) x
| W_range_to t a x : Wire checks t a x -> Wire checks (TRangeTo t) (VHalfRange a) x
| W_range_to_incl t a x : Wire checks t a x -> Wire checks (TRangeToInclusive t) (VHalfRange a) x
(* enumerations: the discriminant in the representation type, then the fields *)
| W_enum r vs i e ts fs d db bs :
    nth_error vs i = Some (e, ts) -> Assigned (map fst vs) i d -> WireInt r d db -> WireFields checks ts fs bs ->
    Wire checks (TEnum r vs) (VEnum i fs) (db ++ bs)
(* sequences *)
| W_array t n vs bs : length vs = n -> WireItems checks t vs bs -> Wire checks (TArray t n) (VSeq vs) bs
| W_slice t vs lb bs : WireLen (length vs) lb -> WireItems checks t vs bs -> Wire checks (TSlice t) (VSeq vs) (lb ++ bs)
| W_vec t vs lb bs : WireLen (length vs) lb -> WireItems checks t vs bs -> Wire checks (TVec t) (VSeq vs) (lb ++ bs)
| W_linked t vs lb bs : WireLen (length vs) lb -> WireItems checks t vs bs -> Wire checks (TLinked t) (VSeq vs) (lb ++ bs)
| W_sized_slice t n vs lb bs :
    (length vs <= n)%nat -> WireLen (length vs) lb -> WireItems checks t vs bs ->
    Wire checks (TSizedSlice t n) (VSeq vs) (lb ++ bs)
| W_str s lb : WireLen (length s) lb -> Wire checks TStr (VStr s) (lb ++ s)
| W_string s lb : WireLen (length s) lb -> Wire checks TString (VStr s) (lb ++ s)
| W_sized_str n s lb : (length s <= n)%nat -> WireLen (length s) lb -> Wire checks (TSizedStr n) (VStr s) (lb ++ s)
| W_cstr s lb : WireLen (length s) lb -> Wire checks TCStr (VStr s) (lb ++ s)
| W_cstring s lb : WireLen (length s) lb -> Wire checks TCString (VStr s) (lb ++ s)
(* maps and sets: the entries in iteration order, with no length *)
| W_map k v kvs bs : WireEntries checks k v kvs bs -> Wire checks (THashMap k v) (VMap kvs) bs
| W_set k ks bs : WireItems checks k ks bs -> Wire checks (THashSet k) (VSet ks) bs
(* transparent containers *)
| W_wrap w t v bs : Wire checks t v bs -> Wire checks (TWrap w t) (VWrap v) bs
| W_cow t o v bs : Wire checks t v bs -> Wire checks (TCow t) (VCow o v) bs
| W_refcell t v bs : Wire checks t v bs -> Wire checks (TRefCell t) (VRefCell false v) bs
| W_lock l t p v bs : Wire checks t v bs -> Wire checks (TLock l t) (VLock p v) bs
(* times *)
| W_duration s n sb nb : le_repr 8 s sb -> le_repr 4 n nb -> Wire checks TDuration (VDuration s n) (sb ++ nb)
| W_time s n bs :
    (checks = true -> time_ns s n <> - 2 ^ 63 * 1000000000) ->
    le_repr 8 (Z.quot (time_ns s n) 1000000000) bs -> Wire checks TSystemTime (VTime s n) bs
(* addresses: the octets in reverse *)
| W_ipv4 o : length o = 4%nat -> Wire checks TIpv4 (VIp4 o) (rev o)
| W_ipv6 o : length o = 16%nat -> Wire checks TIpv6 (VIp6 o) (rev o)
| W_ip_v4 o : length o = 4%nat -> Wire checks TIpAddr (VIpV4 o) (x04 :: rev o)
| W_ip_v6 o : length o = 16%nat -> Wire checks TIpAddr (VIpV6 o) (x06 :: rev o)
| W_sock4 o p pb : length o = 4%nat -> le_repr 2 p pb -> Wire checks TSockV4 (VSock4 o p) (rev o ++ pb)
| W_sock6 o p f s pb fb sb :
    length o = 16%nat -> le_repr 2 p pb -> le_repr 4 f fb -> le_repr 4 s sb -> Wire checks TSockV6 (VSock6 o p f s) (rev o ++ pb ++ fb ++ sb)
| W_sock_v4 o p pb : length o = 4%nat -> le_repr 2 p pb -> Wire checks TSockAddr (VSockV4 o p) (x04 :: rev o ++ pb)
| W_sock_v6 o p f s pb fb sb :
    length o = 16%nat -> le_repr 2 p pb -> le_repr 4 f fb -> le_repr 4 s sb ->
    Wire checks TSockAddr (VSockV6 o p f s) (x06 :: rev o ++ pb ++ fb ++ sb)
(* values of different types, one after another *)
with WireFields (checks : bool) : list ty -> list val -> list byte -> Prop :=
| WF_nil : WireFields checks [] [] []
| WF_cons t ts v vs x y : Wire checks t v x -> WireFields checks ts vs y -> WireFields checks (t :: ts) (v :: vs) (x ++ y)
(* values of the same type, one after another *)
with WireItems (checks : bool) : ty -> list val -> list byte -> Prop :=
| WL_nil t : WireItems checks t [] []
| WL_cons t v vs x y : Wire checks t v x -> WireItems checks t vs y -> WireItems checks t (v :: vs) (x ++ y)
(* keys and values, alternating *)
with WireEntries (checks : bool) : ty -> ty -> list (val * val) -> list byte -> Prop :=
| WE_nil k v : WireEntries checks k v [] []
| WE_cons k v a b kvs x y z :
    Wire checks k a x -> Wire checks v b y -> WireEntries checks k v kvs z -> WireEntries checks k v ((a, b) :: kvs) (x ++ y ++ z).

(* Which valid values have an encoding: all numbers of type usize and isize (and lengths) are in range, discriminants too,
   and no RefCell is mutably borrowed. *)
Definition int_fits (i : ity) (z : Z) : Prop :=
  match i with Usize => 0 <= z <= 65535 | Isize => -32768 <= z <= 32767 | _ => True end.

Fixpoint Representable (t : ty) (v : val) {struct t} : Prop :=
  match t, v with
  | TInt i, VInt z | TNonZero i, VInt z => int_fits i z
  | TOption t, VSome v | TResult t _, VOk v | TBound t, VIncluded v | TBound t, VExcluded v
  | TWrap _ t, VWrap v | TCow t, VCow _ v | TLock _ t, VLock _ v
  | TRangeFrom t, VHalfRange v | TRangeTo t, VHalfRange v | TRangeToInclusive t, VHalfRange v => Representable t v
  | TResult _ e, VErr v => Representable e v
  | TRefCell t, VRefCell b v => b = false /\ Representable t v
  | TTuple ts, VTuple vs | TStruct ts, VTuple vs => all2 (map Representable ts) vs
  | TArray t _, VSeq vs => Forall (Representable t) vs
  | TSlice t, VSeq vs | TVec t, VSeq vs | TLinked t, VSeq vs | TSizedSlice t _, VSeq vs =>
    Z.of_nat (length vs) <= 65535 /\ Forall (Representable t) vs
  | TStr, VStr s | TString, VStr s | TSizedStr _, VStr s | TCStr, VStr s | TCString, VStr s => Z.of_nat (length s) <= 65535
  | TRange t, VRange a b | TRangeInclusive t, VRangeInclusive a b _ => Representable t a /\ Representable t b
  | THashMap k v, VMap kvs => Forall (fun p => Representable k (fst p) /\ Representable v (snd p)) kvs
  | THashSet k, VSet ks => Forall (Representable k) ks
  | TEnum r vs, VEnum i fs =>
    (forall d, Assigned (map fst vs) i d -> int_fits r d) /\
    match nth_error (map (fun x => map Representable (snd x)) vs) i with Some ps => all2 ps fs | None => False end
  | _, _ => True
  end.

(* Does the value contain a SystemTime at the lowest whole second, -2^63? *)
Fixpoint has_lowest_second (v : val) : bool :=
  match v with
  | VTime s n => time_ns s n =? - 2 ^ 63 * 1000000000
  | VSome v | VOk v | VErr v | VWrap v | VCow _ v | VRefCell _ v | VLock _ v | VHalfRange v | VIncluded v | VExcluded v =>
    has_lowest_second v
  | VTuple vs | VSeq vs | VSet vs | VEnum _ vs => existsb has_lowest_second vs
  | VRange a b | VRangeInclusive a b _ => has_lowest_second a || has_lowest_second b
  | VMap kvs => existsb (fun p => has_lowest_second (fst p) || has_lowest_second (snd p)) kvs
  | _ => false
  end.

(* What decoding makes of an encoded value: locks come back unpoisoned, cells not borrowed, copy-on-write values owned,
   inclusive ranges not exhausted, and times at the whole second towards the epoch. *)
Fixpoint norm (v : val) : val :=
  match v with
  | VSome v => VSome (norm v) | VOk v => VOk (norm v) | VErr v => VErr (norm v)
  | VTuple vs => VTuple (map norm vs) | VSeq vs => VSeq (map norm vs)
  | VWrap v => VWrap (norm v) | VCow _ v => VCow true (norm v)
  | VRefCell _ v => VRefCell false (norm v) | VLock _ v => VLock false (norm v)
  | VTime s n => VTime (Z.quot (time_ns s n) 1000000000) 0
  | VRange a b => VRange (norm a) (norm b)
  | VRangeInclusive a b _ => VRangeInclusive (norm a) (norm b) false
  | VHalfRange a => VHalfRange (norm a)
  | VIncluded v => VIncluded (norm v) | VExcluded v => VExcluded (norm v)
  | VMap kvs => VMap (map (fun p => (norm (fst p), norm (snd p))) kvs)
  | VSet ks => VSet (map norm ks)
  | VEnum i vs => VEnum i (map norm vs)
  | _ => v
  end.

(* Types and values on which decoding inverts encoding: no HashMap or HashSet inside, every SizedSlice full, and no
   unsized type other than behind Cow. *)
Fixpoint RoundTrips (t : ty) (v : val) {struct t} : Prop :=
  match t, v with
  | TOption t, VSome v | TResult t _, VOk v | TBound t, VIncluded v | TBound t, VExcluded v
  | TWrap _ t, VWrap v | TLock _ t, VLock _ v | TRefCell t, VRefCell _ v
  | TRangeFrom t, VHalfRange v | TRangeTo t, VHalfRange v | TRangeToInclusive t, VHalfRange v => RoundTrips t v
  | TResult _ e, VErr v => RoundTrips e v
  | TCow b, VCow _ v =>
    match b, v with
    | TSlice t, VSeq vs => Forall (RoundTrips t) vs
    | TStr, _ | TCStr, _ => True
    | _, _ => RoundTrips b v
    end
  | TTuple ts, VTuple vs | TStruct ts, VTuple vs => all2 (map RoundTrips ts) vs
  | TArray t _, VSeq vs | TVec t, VSeq vs | TLinked t, VSeq vs => Forall (RoundTrips t) vs
  | TSizedSlice t n, VSeq vs => length vs = n /\ Forall (RoundTrips t) vs
  | TRange t, VRange a b | TRangeInclusive t, VRangeInclusive a b _ => RoundTrips t a /\ RoundTrips t b
  | THashMap _ _, _ | THashSet _, _ => False
  | TSlice _, _ | TStr, _ | TCStr, _ => False
  | TEnum r vs, VEnum i fs =>
    match nth_error (map (fun x => map RoundTrips (snd x)) vs) i with Some ps => all2 ps fs | None => False end
  | _, _ => True
  end.
