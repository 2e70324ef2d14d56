(* The specification of errors, independent of the model's encoder and decoder: which values cannot be encoded and which
   octets cannot be decoded, with what error, and how far the call gets. Definitions only. *)
From Verif Require Import Base Utf8 Types Traits Spec SpecDecode SpecDerive.
Set Implicit Arguments.
Local Open Scope Z_scope.

(* ---- Encoding *)

(* The generic error [y] for the error [x]: the variant for its cause. *)
Definition EGeneric (x y : eerr) : Prop := exists c, EWithin c x /\ ERoot c y.

(* An integer that does not fit its encoding. *)
Inductive IntFails : ity -> Z -> eerr -> Prop :=
| IF_usize z : ~ 0 <= z <= 65535 -> IntFails Usize z (EUsize z)
| IF_isize z : ~ -32768 <= z <= 32767 -> IntFails Isize z (EIsize z).

(* Types that are written as a length and then the items, and how the error of an item is presented. *)
Inductive Sequence : ty -> ty -> (nat -> eerr -> eerr) -> Prop :=
| Sq_slice t : Sequence (TSlice t) t EItem
| Sq_vec t : Sequence (TVec t) t EItem
| Sq_sized_slice t n : Sequence (TSizedSlice t n) t EItem
| Sq_linked t : Sequence (TLinked t) t EItemTuple.
Inductive Text : ty -> Prop :=
| Tx_str : Text TStr | Tx_string : Text TString | Tx_sized_str n : Text (TSizedStr n) | Tx_cstr : Text TCStr | Tx_cstring : Text TCString.

(* [Fails checks t v bs e]: encoding the value [v] of type [t] writes [bs] and then returns the error [e]. *)
Inductive Fails (checks : bool) : ty -> val -> list byte -> eerr -> Prop :=
| F_int i z e : IntFails i z e -> Fails checks (TInt i) (VInt z) [] e
| F_nonzero i z e : IntFails i z e -> Fails checks (TNonZero i) (VInt z) [] e
| F_some t v bs e : Fails checks t v bs e -> Fails checks (TOption t) (VSome v) (x01 :: bs) e
| F_ok t x v bs e : Fails checks t v bs e -> Fails checks (TResult t x) (VOk v) (x00 :: bs) e
| F_err_same t x v bs e :              (* both halves have the same error type *)
    enc_ety t = enc_ety x -> Fails checks x v bs e -> Fails checks (TResult t x) (VErr v) (x01 :: bs) e
| F_err_generic t x y v bs e e' :
    enc_ety t = Some YGeneric -> enc_ety x = Some y -> y <> YGeneric -> Fails checks x v bs e -> EGeneric e e' ->
    Fails checks (TResult t x) (VErr v) (x01 :: bs) e'
| F_included t v bs e : Fails checks t v bs e -> Fails checks (TBound t) (VIncluded v) (x00 :: bs) (EField e)
| F_excluded t v bs e : Fails checks t v bs e -> Fails checks (TBound t) (VExcluded v) (x01 :: bs) (EField e)
| F_tuple ts vs bs e : FailsFields checks ts vs bs e -> Fails checks (TTuple ts) (VTuple vs) bs e
| F_struct ts vs bs e e' : FailsFields checks ts vs bs e -> EGeneric e e' -> Fails checks (TStruct ts) (VTuple vs) bs e'
| F_range_start t a b bs e : Fails checks t a bs e -> Fails checks (TRange t) (VRange a b) bs e
| F_range_end t a b x bs e : Wire checks t a x -> Fails checks t b bs e -> Fails checks (TRange t) (VRange a b) (x ++ bs) e
| F_range_incl_start t a b c bs e : Fails checks t a bs e -> Fails checks (TRangeInclusive t) (VRangeInclusive a b c) bs e
| F_range_incl_end t a b c x bs e :
    Wire checks t a x -> Fails checks t b bs e -> Fails checks (TRangeInclusive t) (VRangeInclusive a b c) (x ++ bs) e
| F_range_from t a bs e : Fails checks t a bs e -> Fails checks (TRangeFrom t) (VHalfRange a) bs e
| F_range_to t a bs e : Fails checks t a bs e -> Fails checks (TRangeTo t) (VHalfRange a) bs e
| F_range_to_incl t a bs e : Fails checks t a bs e -> Fails checks (TRangeToInclusive t) (VHalfRange a) bs e
| F_disc r vs i d fs e :
    Assigned (map fst vs) i d -> IntFails r d e -> Fails checks (TEnum r vs) (VEnum i fs) [] (EDisc e)
| F_field r vs i x ts d db fs bs e e' :
    nth_error vs i = Some (x, ts) -> Assigned (map fst vs) i d -> WireInt r d db -> FailsFields checks ts fs bs e ->
    EGeneric e e' -> Fails checks (TEnum r vs) (VEnum i fs) (db ++ bs) (EField e')
| F_array t n vs k bs e : FailsItems checks t vs k bs e -> Fails checks (TArray t n) (VSeq vs) bs (EItem k e)
| F_long s t w vs :
    Sequence s t w -> 65535 < Z.of_nat (length vs) -> Fails checks s (VSeq vs) [] (ELen (EUsize (Z.of_nat (length vs))))
| F_item s t w vs lb k bs e :
    Sequence s t w -> WireLen (length vs) lb -> FailsItems checks t vs k bs e -> Fails checks s (VSeq vs) (lb ++ bs) (w k e)
| F_long_text t s : Text t -> 65535 < Z.of_nat (length s) -> Fails checks t (VStr s) [] (ELen (EUsize (Z.of_nat (length s))))
| F_map k v kvs bs e : FailsEntries checks k v kvs bs e -> Fails checks (THashMap k v) (VMap kvs) bs e
| F_set k ks n bs e : FailsItems checks k ks n bs e -> Fails checks (THashSet k) (VSet ks) bs e
| F_wrap w t v bs e : Fails checks t v bs e -> Fails checks (TWrap w t) (VWrap v) bs e
| F_cow t o v bs e : Fails checks t v bs e -> Fails checks (TCow t) (VCow o v) bs e
| F_borrowed t v : Fails checks (TRefCell t) (VRefCell true v) [] EBadBorrow
| F_refcell t v bs e : Fails checks t v bs e -> Fails checks (TRefCell t) (VRefCell false v) bs (EBadValue e)
| F_lock l t p v bs e : Fails checks t v bs e -> Fails checks (TLock l t) (VLock p v) bs e
(* the first field that fails *)
with FailsFields (checks : bool) : list ty -> list val -> list byte -> eerr -> Prop :=
| FF_here t ts v vs bs e : Fails checks t v bs e -> FailsFields checks (t :: ts) (v :: vs) bs e
| FF_later t ts v vs x bs e :
    Wire checks t v x -> FailsFields checks ts vs bs e -> FailsFields checks (t :: ts) (v :: vs) (x ++ bs) e
(* the first item that fails, and how many there are before it *)
with FailsItems (checks : bool) : ty -> list val -> nat -> list byte -> eerr -> Prop :=
| FI_here t v vs bs e : Fails checks t v bs e -> FailsItems checks t (v :: vs) 0 bs e
| FI_later t v vs x k bs e :
    Wire checks t v x -> FailsItems checks t vs k bs e -> FailsItems checks t (v :: vs) (S k) (x ++ bs) e
(* the first key or value that fails *)
with FailsEntries (checks : bool) : ty -> ty -> list (val * val) -> list byte -> eerr -> Prop :=
| FE_key k v a b kvs bs e : Fails checks k a bs e -> FailsEntries checks k v ((a, b) :: kvs) bs e
| FE_value k v a b kvs x bs e :
    Wire checks k a x -> Fails checks v b bs e -> FailsEntries checks k v ((a, b) :: kvs) (x ++ bs) e
| FE_later k v a b kvs x y bs e :
    Wire checks k a x -> Wire checks v b y -> FailsEntries checks k v kvs bs e ->
    FailsEntries checks k v ((a, b) :: kvs) (x ++ y ++ bs) e.

(* ---- Decoding *)

(* The generic error for an error. A negative discriminant turns into its 128-bit pattern. *)
Definition DGeneric (x y : derr) : Prop :=
  exists c, DWithin c x /\ (DRoot c y \/ exists r d, c = DUnassigned r d /\ in_ity r d /\ d < 0 /\ y = DGUnassigned (2 ^ 128 + d)).

(* The octets [s] are not UTF-8: [k] octets are the longest prefix that is. *)
Definition BadText (s : list byte) (k : nat) (c : byte) : Prop :=
  nth_error s k = Some c /\ valid_utf8 (firstn k s) /\ forall n, (k < n <= length s)%nat -> ~ valid_utf8 (firstn n s).

(* [Rejects t bs e]: a value of type [t] cannot be read where [bs] stands. The call consumes exactly [bs] and returns [e]. *)
Inductive Rejects : ty -> list byte -> derr -> Prop :=
| Rj_nonzero i bs : WireInt i 0 bs -> Rejects (TNonZero i) bs DNonZero
| Rj_char c bs :
    55295 < c < 56832 \/ 1114111 < c < 2 ^ 32 -> le_repr 4 c bs -> Rejects TChar bs (DChar c)
| Rj_some t b bs e : b <> x00 -> Rejects t bs e -> Rejects (TOption t) (b :: bs) e
| Rj_ok t x bs e : Rejects t bs e -> Rejects (TResult t x) (x00 :: bs) (DField e)
| Rj_err t x b bs e : b <> x00 -> Rejects x bs e -> Rejects (TResult t x) (b :: bs) (DField e)
| Rj_included t bs e : Rejects t bs e -> Rejects (TBound t) (x00 :: bs) (DField e)
| Rj_excluded t bs e : Rejects t bs e -> Rejects (TBound t) (x01 :: bs) (DField e)
| Rj_bound t b : ~ In b [x00; x01; x02] -> Rejects (TBound t) [b] (DUnassigned U8 (b2z b))
| Rj_ip b : ~ In b [x04; x06] -> Rejects TIpAddr [b] (DUnassigned U8 (b2z b))
| Rj_sock b : ~ In b [x04; x06] -> Rejects TSockAddr [b] (DUnassigned U8 (b2z b))
| Rj_tuple ts bs e : RejectsFields ts bs e -> Rejects (TTuple ts) bs e
| Rj_struct ts bs e e' : RejectsFields ts bs e -> DGeneric e e' -> Rejects (TStruct ts) bs e'
| Rj_range_start t bs e : Rejects t bs e -> Rejects (TRange t) bs e
| Rj_range_end t x a bs e : Accepts t x a -> Rejects t bs e -> Rejects (TRange t) (x ++ bs) e
| Rj_range_incl_start t bs e : Rejects t bs e -> Rejects (TRangeInclusive t) bs e
| Rj_range_incl_end t x a bs e : Accepts t x a -> Rejects t bs e -> Rejects (TRangeInclusive t) (x ++ bs) e
| Rj_range_from t bs e : Rejects t bs e -> Rejects (TRangeFrom t) bs e
| Rj_range_to t bs e : Rejects t bs e -> Rejects (TRangeTo t) bs e
| Rj_range_to_incl t bs e : Rejects t bs e -> Rejects (TRangeToInclusive t) bs e
| Rj_disc r vs d bs :
    enum_ok r vs -> in_ity r d -> WireInt r d bs -> (forall i, ~ Assigned (map fst vs) i d) ->
    Rejects (TEnum r vs) bs (DUnassigned r d)
| Rj_field r vs i x ts d db bs e e' :
    enum_ok r vs -> nth_error vs i = Some (x, ts) -> Assigned (map fst vs) i d -> WireInt r d db -> RejectsFields ts bs e ->
    DGeneric e e' -> Rejects (TEnum r vs) (db ++ bs) (DField e')
| Rj_array t n k bs e : (k < n)%nat -> RejectsItems t k bs e -> Rejects (TArray t n) bs (DItem k e)
| Rj_vec t n lb k bs e : WireLen n lb -> (k < n)%nat -> RejectsItems t k bs e -> Rejects (TVec t) (lb ++ bs) (DItem k e)
| Rj_linked t n lb k bs e : WireLen n lb -> (k < n)%nat -> RejectsItems t k bs e -> Rejects (TLinked t) (lb ++ bs) (DItem k e)
| Rj_sized_slice_long t n len lb : WireLen len lb -> (n < len)%nat -> Rejects (TSizedSlice t n) lb (DLen (DLength n len))
| Rj_sized_slice t n len lb k bs e :        (* whatever the length, up to N items are read *)
    WireLen len lb -> (len <= n)%nat -> (k < n)%nat -> RejectsItems t k bs e -> Rejects (TSizedSlice t n) (lb ++ bs) (DItem k e)
| Rj_string s lb k c : WireLen (length s) lb -> BadText s k c -> Rejects TString (lb ++ s) (DBad (DUtf8 c k))
| Rj_sized_str_long n s lb :                (* the text is consumed even so *)
    WireLen (length s) lb -> (n < length s)%nat -> Rejects (TSizedStr n) (lb ++ s) (DLen (DLength n (length s)))
| Rj_sized_str n s lb k c :
    WireLen (length s) lb -> (length s <= n)%nat -> BadText s k c -> Rejects (TSizedStr n) (lb ++ s) (DBad (DUtf8 c k))
| Rj_cstring s lb k :
    WireLen (length s) lb -> nth_error s k = Some x00 -> ~ In x00 (firstn k s) -> Rejects TCString (lb ++ s) (DCString k)
| Rj_map kt vt n lb k bs e :
    WireLen n lb -> (k < n)%nat -> RejectsEntries kt vt k bs e -> Rejects (THashMap kt vt) (lb ++ bs) (DItem k e)
| Rj_set kt n lb k bs e : WireLen n lb -> (k < n)%nat -> RejectsItems kt k bs e -> Rejects (THashSet kt) (lb ++ bs) (DItem k e)
| Rj_wrap w t bs e : Rejects t bs e -> Rejects (TWrap w t) bs e
| Rj_cow t bs e : Rejects (owned t) bs e -> Rejects (TCow t) bs e
| Rj_refcell t bs e : Rejects t bs e -> Rejects (TRefCell t) bs e
| Rj_lock l t bs e : Rejects t bs e -> Rejects (TLock l t) bs e
(* the first field that cannot be read *)
with RejectsFields : list ty -> list byte -> derr -> Prop :=
| RF_here t ts bs e : Rejects t bs e -> RejectsFields (t :: ts) bs e
| RF_later t ts x v bs e : Accepts t x v -> RejectsFields ts bs e -> RejectsFields (t :: ts) (x ++ bs) e
(* the first item that cannot be read, and how many there are before it *)
with RejectsItems : ty -> nat -> list byte -> derr -> Prop :=
| RI_here t bs e : Rejects t bs e -> RejectsItems t 0 bs e
| RI_later t x v k bs e : Accepts t x v -> RejectsItems t k bs e -> RejectsItems t (S k) (x ++ bs) e
with RejectsEntries : ty -> ty -> nat -> list byte -> derr -> Prop :=
| RE_key k v bs e : Rejects k bs e -> RejectsEntries k v 0 bs e
| RE_value k v x a bs e : Accepts k x a -> Rejects v bs e -> RejectsEntries k v 0 (x ++ bs) e
| RE_later k v x y a b n bs e :
    Accepts k x a -> Accepts v y b -> RejectsEntries k v n bs e -> RejectsEntries k v (S n) (x ++ y ++ bs) e.
