(* The specification of decoding, independent of the model's decoder: which octets stand for which value of a type. It is
   wider than the wire format of Spec.v, because decoders accept octets that encoders never write. Definitions only. *)
From Verif Require Import Base Utf8 Types Spec.
Set Implicit Arguments.
Local Open Scope Z_scope.

(* The sized type that is read for a type behind Cow. *)
Definition owned (t : ty) : ty :=
  match t with TSlice t => TVec t | TStr => TString | TCStr => TCString | _ => t end.

(* Reading entries into a map one after another: a new key is added, and a later value for a key already there replaces
   the earlier one. [PutAll m l m'] leads from the map [m] through the entries [l] to the map [m']. *)
Inductive Put {K V : Type} (k : K) (v : V) : list (K * V) -> list (K * V) -> Prop :=
| Put_new m : ~ In k (map fst m) -> Put k v m (m ++ [(k, v)])
| Put_old a v' b : ~ In k (map fst a) -> Put k v (a ++ (k, v') :: b) (a ++ (k, v) :: b).
Inductive PutAll {K V : Type} : list (K * V) -> list (K * V) -> list (K * V) -> Prop :=
| PutAll_nil m : PutAll m [] m
| PutAll_cons m k v m1 l m2 : Put k v m m1 -> PutAll m1 l m2 -> PutAll m ((k, v) :: l) m2.

(* Reading keys into a set. *)
Inductive AddAll {K : Type} : list K -> list K -> list K -> Prop :=
| AddAll_nil s : AddAll s [] s
| AddAll_new s k l s' : ~ In k s -> AddAll (s ++ [k]) l s' -> AddAll s (k :: l) s'
| AddAll_old s k l s' : In k s -> AddAll s l s' -> AddAll s (k :: l) s'.

(* [Accepts t bs v]: the octets [bs] are read as the value [v] of type [t]. *)
Inductive Accepts : ty -> list byte -> val -> Prop :=
(* numbers *)
| A_int i z bs : in_ity i z -> WireInt i z bs -> Accepts (TInt i) bs (VInt z)
| A_nonzero i z bs : in_ity i z -> z <> 0 -> WireInt i z bs -> Accepts (TNonZero i) bs (VInt z)
| A_f32 z bs : 0 <= z < 2 ^ 32 -> le_repr 4 z bs -> Accepts TF32 bs (VInt z)
| A_f64 z bs : 0 <= z < 2 ^ 64 -> le_repr 8 z bs -> Accepts TF64 bs (VInt z)
| A_false : Accepts TBool [x00] (VBool false)
| A_true b : b <> x00 -> Accepts TBool [b] (VBool true)
| A_char c bs : 0 <= c <= 55295 \/ 56832 <= c <= 1114111 -> le_repr 4 c bs -> Accepts TChar bs (VChar c)
(* nothing *)
| A_unit : Accepts TUnit [] VUnit
| A_phantom : Accepts TPhantomData [] VUnit
| A_pinned : Accepts TPhantomPinned [] VUnit
| A_full : Accepts TRangeFull [] VUnit
(* sums *)
| A_none t : Accepts (TOption t) [x00] VNone
| A_some t b bs v : b <> x00 -> Accepts t bs v -> Accepts (TOption t) (b :: bs) (VSome v)
| A_ok t e bs v : Accepts t bs v -> Accepts (TResult t e) (x00 :: bs) (VOk v)
| A_err t e b bs v : b <> x00 -> Accepts e bs v -> Accepts (TResult t e) (b :: bs) (VErr v)
| A_included t bs v : Accepts t bs v -> Accepts (TBound t) (x00 :: bs) (VIncluded v)
| A_excluded t bs v : Accepts t bs v -> Accepts (TBound t) (x01 :: bs) (VExcluded v)
| A_unbounded t : Accepts (TBound t) [x02] VUnbounded
(* products *)
| A_tuple ts bs vs : AcceptsFields ts bs vs -> Accepts (TTuple ts) bs (VTuple vs)
| A_struct ts bs vs : AcceptsFields ts bs vs -> Accepts (TStruct ts) bs (VTuple vs)
| A_range t a b x y : Accepts t x a -> Accepts t y b -> Accepts (TRange t) (x ++ y) (VRange a b)
| A_range_incl t a b x y :
    Accepts t x a -> Accepts t y b -> Accepts (TRangeInclusive t) (x ++ y) (VRangeInclusive a b false)
| A_range_from t bs a : Accepts t bs a -> Accepts (TRangeFrom t) bs (VHalfRange a)
| A_range_to t bs a : Accepts t bs a -> Accepts (TRangeTo t) bs (VHalfRange a)
| A_range_to_incl t bs a : Accepts t bs a -> Accepts (TRangeToInclusive t) bs (VHalfRange a)
(* enumerations *)
| A_enum r vs i e ts d db bs fs :
    enum_ok r vs -> nth_error vs i = Some (e, ts) -> Assigned (map fst vs) i d -> WireInt r d db ->
    AcceptsFields ts bs fs -> Accepts (TEnum r vs) (db ++ bs) (VEnum i fs)
(* sequences *)
| A_array t n bs vs : length vs = n -> AcceptsItems t bs vs -> Accepts (TArray t n) bs (VSeq vs)
| A_vec t lb bs vs : WireLen (length vs) lb -> AcceptsItems t bs vs -> Accepts (TVec t) (lb ++ bs) (VSeq vs)
| A_linked t lb bs vs : WireLen (length vs) lb -> AcceptsItems t bs vs -> Accepts (TLinked t) (lb ++ bs) (VSeq vs)
| A_sized_slice t n len lb bs vs :      (* always N items, of which the first `len` are kept *)
    (len <= n)%nat -> WireLen len lb -> length vs = n -> AcceptsItems t bs vs ->
    Accepts (TSizedSlice t n) (lb ++ bs) (VSeq (firstn len vs))
| A_string s lb : WireLen (length s) lb -> valid_utf8 s -> Accepts TString (lb ++ s) (VStr s)
| A_sized_str n s lb :
    (length s <= n)%nat -> WireLen (length s) lb -> valid_utf8 s -> Accepts (TSizedStr n) (lb ++ s) (VStr s)
| A_cstring s lb : WireLen (length s) lb -> ~ In x00 s -> Accepts TCString (lb ++ s) (VStr s)
(* maps and sets: a length, then the entries, which the encoder does not write *)
| A_map k v lb bs l m :
    WireLen (length l) lb -> AcceptsEntries k v bs l -> PutAll [] l m ->
    Accepts (THashMap k v) (lb ++ bs) (VMap m)
| A_set k lb bs l s :
    WireLen (length l) lb -> AcceptsItems k bs l -> AddAll [] l s ->
    Accepts (THashSet k) (lb ++ bs) (VSet s)
(* transparent containers *)
| A_wrap w t bs v : Accepts t bs v -> Accepts (TWrap w t) bs (VWrap v)
| A_cow t bs v : Accepts (owned t) bs v -> Accepts (TCow t) bs (VCow true v)
| A_refcell t bs v : Accepts t bs v -> Accepts (TRefCell t) bs (VRefCell false v)
| A_lock l t bs v : Accepts t bs v -> Accepts (TLock l t) bs (VLock false v)
(* times *)
| A_duration s n sb nb :
    0 <= s < 2 ^ 64 -> 0 <= n < 2 ^ 32 -> le_repr 8 s sb -> le_repr 4 n nb -> s + n / 1000000000 < 2 ^ 64 ->
    Accepts TDuration (sb ++ nb) (VDuration (s + n / 1000000000) (n mod 1000000000))
| A_time t bs : - 2 ^ 63 <= t < 2 ^ 63 -> le_repr 8 t bs -> Accepts TSystemTime bs (VTime t 0)
(* addresses: the octets in reverse *)
| A_ipv4 o : length o = 4%nat -> Accepts TIpv4 (rev o) (VIp4 o)
| A_ipv6 o : length o = 16%nat -> Accepts TIpv6 (rev o) (VIp6 o)
| A_ip_v4 o : length o = 4%nat -> Accepts TIpAddr (x04 :: rev o) (VIpV4 o)
| A_ip_v6 o : length o = 16%nat -> Accepts TIpAddr (x06 :: rev o) (VIpV6 o)
| A_sock4 o p pb : length o = 4%nat -> in_u16 p -> le_repr 2 p pb -> Accepts TSockV4 (rev o ++ pb) (VSock4 o p)
| A_sock6 o p f s pb fb sb :
    length o = 16%nat -> in_u16 p -> in_u32 f -> in_u32 s -> le_repr 2 p pb -> le_repr 4 f fb -> le_repr 4 s sb ->
    Accepts TSockV6 (rev o ++ pb ++ fb ++ sb) (VSock6 o p f s)
| A_sock_v4 o p pb : length o = 4%nat -> in_u16 p -> le_repr 2 p pb -> Accepts TSockAddr (x04 :: rev o ++ pb) (VSockV4 o p)
| A_sock_v6 o p f s pb fb sb :
    length o = 16%nat -> in_u16 p -> in_u32 f -> in_u32 s -> le_repr 2 p pb -> le_repr 4 f fb -> le_repr 4 s sb ->
    Accepts TSockAddr (x06 :: rev o ++ pb ++ fb ++ sb) (VSockV6 o p f s)
with AcceptsFields : list ty -> list byte -> list val -> Prop :=
| AF_nil : AcceptsFields [] [] []
| AF_cons t ts x y v vs : Accepts t x v -> AcceptsFields ts y vs -> AcceptsFields (t :: ts) (x ++ y) (v :: vs)
with AcceptsItems : ty -> list byte -> list val -> Prop :=
| AL_nil t : AcceptsItems t [] []
| AL_cons t x y v vs : Accepts t x v -> AcceptsItems t y vs -> AcceptsItems t (x ++ y) (v :: vs)
with AcceptsEntries : ty -> ty -> list byte -> list (val * val) -> Prop :=
| AE_nil k v : AcceptsEntries k v [] []
| AE_cons k v a b l x y z :
    Accepts k x a -> Accepts v y b -> AcceptsEntries k v z l ->
    AcceptsEntries k v (x ++ y ++ z) ((a, b) :: l).

(* Every enumeration inside the type is one that rustc accepts. *)
Fixpoint EnumsOk (t : ty) : Prop :=
  match t with
  | TOption t | TArray t _ | TSlice t | TVec t | TLinked t | TSizedSlice t _ | TWrap _ t | TCow t | TRefCell t | TLock _ t
  | TRange t | TRangeFrom t | TRangeInclusive t | TRangeTo t | TRangeToInclusive t | TBound t | THashSet t => EnumsOk t
  | TResult a b | THashMap a b => EnumsOk a /\ EnumsOk b
  | TTuple ts | TStruct ts => fold_right and True (map EnumsOk ts)
  | TEnum r vs => enum_ok r vs /\ fold_right and True (map (fun x => fold_right and True (map EnumsOk (snd x))) vs)
  | _ => True
  end.

(* No `char` inside the type. *)
Fixpoint char_free (t : ty) : bool :=
  match t with
  | TChar => false
  | TOption t | TArray t _ | TSlice t | TVec t | TLinked t | TSizedSlice t _ | TWrap _ t | TCow t | TRefCell t | TLock _ t
  | TRange t | TRangeFrom t | TRangeInclusive t | TRangeTo t | TRangeToInclusive t | TBound t | THashSet t => char_free t
  | TResult a b | THashMap a b => char_free a && char_free b
  | TTuple ts | TStruct ts => forallb char_free ts
  | TEnum r vs => forallb (fun x => forallb char_free (snd x)) vs
  | _ => true
  end.

(* Types of which every value has a single accepted encoding. *)
Fixpoint strict (t : ty) : bool :=
  match t with
  | TBool | TOption _ | TResult _ _ | TDuration | TSizedSlice _ _ | THashMap _ _ | THashSet _ => false
  | TArray t _ | TSlice t | TVec t | TLinked t | TWrap _ t | TCow t | TRefCell t | TLock _ t
  | TRange t | TRangeFrom t | TRangeInclusive t | TRangeTo t | TRangeToInclusive t | TBound t => strict t
  | TTuple ts | TStruct ts => forallb strict ts
  | TEnum r vs => forallb (fun x => forallb strict (snd x)) vs
  | _ => true
  end.

(* The number of octets a number takes. *)
Definition wire_width (i : ity) : nat := match i with Usize | Isize => 2 | _ => iwidth i end.

(* The first two octets are the little-endian number [n]. *)
Definition declares (bs : list byte) (n : nat) : Prop := exists a b post, bs = a :: b :: post /\ Z.of_nat n = b2z a + 256 * b2z b.

(* How many items a sequence or text has. *)
Definition seq_length (v : val) : nat := match v with VSeq vs => length vs | VStr s => length s | _ => 0 end.

(* Does the predicate hold of the type or of a type inside it? *)
Fixpoint contains (p : ty -> bool) (t : ty) : bool :=
  p t ||
  match t with
  | TOption t | TArray t _ | TSlice t | TVec t | TLinked t | TSizedSlice t _ | TWrap _ t | TCow t | TRefCell t | TLock _ t
  | TRange t | TRangeFrom t | TRangeInclusive t | TRangeTo t | TRangeToInclusive t | TBound t | THashSet t => contains p t
  | TResult a b | THashMap a b => contains p a || contains p b
  | TTuple ts | TStruct ts => existsb (contains p) ts
  | TEnum r vs => existsb (fun x => existsb (contains p) (snd x)) vs
  | _ => false
  end.
Definition is_duration (t : ty) : bool := match t with TDuration => true | _ => false end.
Definition is_infallible (t : ty) : bool := match t with TInfallible => true | _ => false end.
