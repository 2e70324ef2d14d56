(* The universe of supported types, their values, and error values. Definitions only. *)
From Verif Require Import Base Utf8.
Set Implicit Arguments.
Local Open Scope Z_scope.

(* ---- Primitive integers *)

(* the types of impl_numeric, oct/src/encode/encode/mod.rs:930-943, and `usize`, `isize`, 820 and 439 *)
Inductive ity := U8 | U16 | U32 | U64 | U128 | I8 | I16 | I32 | I64 | I128 | Usize | Isize.

(* octets of the in-memory type; `usize` and `isize` have 64 bits here (modelling assumption) *)
Definition iwidth (i : ity) : nat :=
  match i with
  | U8 | I8 => 1 | U16 | I16 => 2 | U32 | I32 => 4 | U64 | I64 => 8 | U128 | I128 => 16
  | Usize | Isize => 8
  end%nat.

(* core: the signed ones among them; `to_le_bytes` at oct/src/encode/encode/mod.rs:861 needs no such distinction *)
Definition isigned (i : ity) : bool :=
  match i with I8 | I16 | I32 | I64 | I128 | Isize => true | _ => false end.

(* the values of the type *)
(* core: `MIN..=MAX` of the types that oct/src/encode/encode/mod.rs:930-943 lists *)
Definition in_ity (i : ity) (z : Z) : Prop :=
  if isigned i then - 2 ^ (8 * Z.of_nat (iwidth i) - 1) <= z < 2 ^ (8 * Z.of_nat (iwidth i) - 1)
  else 0 <= z < 2 ^ (8 * Z.of_nat (iwidth i)).

(* ---- Types *)

(* Types that hold one value of another type and encode as that value. *)
Inductive wrapper :=
| WRef          (* &T:             encode/encode/mod.rs:149-156 *)
| WRefMut       (* &mut T:         158-165 *)
| WBox          (* Box<T>:         265-272, decode/decode/mod.rs:216-226 *)
| WRc           (* Rc<T>:          617-624, 580-587 *)
| WArc          (* Arc<T>:         219-226, 156-166 *)
| WCell         (* Cell<T>:        274-281, 228-238 *)
| WLazyCell     (* LazyCell<T>:    453-460; no Decode *)
| WLazyLock     (* LazyLock<T>:    464-471; no Decode *)
| WWrapping     (* Wrapping<T>:    845-852, 807-817 *)
| WSaturating   (* Saturating<T>:  690-697, 643-653 *)
| WAtomic.      (* AtomicBool, AtomicU8, ..: 906-928, 883-903; the payload is the primitive type *)

Inductive lock := Mutex | RwLock.  (* 497-507 and 678-688; 463-473 and 631-641 *)

(* the types with an implementation in oct/src/encode/encode/mod.rs or oct/src/decode/decode/mod.rs, the containers, and what the derive macros accept *)
Inductive ty :=
| TInt (i : ity)
| TF32 | TF64                          (* as bit patterns *)
| TBool | TChar | TUnit
| TNonZero (i : ity)
| TOption (t : ty)
| TResult (t e : ty)
| TTuple (ts : list ty)                (* one to twelve members *)
| TArray (t : ty) (n : nat)
| TSlice (t : ty)                      (* [T], unsized: encode only *)
| TVec (t : ty)
| TLinked (t : ty)                     (* LinkedList<T> *)
| TSizedSlice (t : ty) (n : nat)
| TStr                                 (* str, unsized: encode only *)
| TString
| TSizedStr (n : nat)
| TCStr                                (* CStr, unsized: encode only *)
| TCString
| TWrap (w : wrapper) (t : ty)
| TCow (t : ty)                        (* Cow<'_, T> *)
| TRefCell (t : ty)
| TLock (l : lock) (t : ty)
| TDuration
| TSystemTime
| TIpv4 | TIpv6 | TIpAddr
| TSockV4 | TSockV6 | TSockAddr
| TRange (t : ty) | TRangeFrom (t : ty) | TRangeFull | TRangeInclusive (t : ty) | TRangeTo (t : ty) | TRangeToInclusive (t : ty)
| TBound (t : ty)
| TPhantomData | TPhantomPinned
| TInfallible
| THashMap (k v : ty)
| THashSet (k : ty)
| TStruct (ts : list ty)               (* #[derive] on a struct: the field types in declaration order *)
| TEnum (r : ity) (vs : list (option Z * list ty)).
    (* #[derive] on an enum: representation, and for each variant the explicit discriminant, if any, and the field types *)

(* ---- Values *)

(* what a program can hold in a variable of one of these types; the lines at each case are those of the type *)
Inductive val :=
| VInt (z : Z)                         (* integers, NonZero, and the bit pattern of floats *)
| VBool (b : bool)
| VChar (c : Z)
| VUnit                                (* (), PhantomData, PhantomPinned, RangeFull *)
| VNone | VSome (v : val)
| VOk (v : val) | VErr (v : val)
| VTuple (vs : list val)               (* tuples and derived structs *)
| VSeq (vs : list val)                 (* arrays, slices, vectors, lists, SizedSlice *)
| VStr (bs : list byte)                (* str, String, SizedStr, CStr, CString (without the final null) *)
| VWrap (v : val)
| VCow (owned : bool) (v : val)
| VRefCell (mut_borrowed : bool) (v : val)   (* is a mutable borrow outstanding? *)
| VLock (poisoned : bool) (v : val)
| VDuration (secs nanos : Z)
| VTime (secs nanos : Z)               (* SystemTime: seconds since the epoch, rounded down, and nanoseconds *)
| VIp4 (octets : list byte) | VIp6 (octets : list byte)
| VIpV4 (octets : list byte) | VIpV6 (octets : list byte)      (* IpAddr *)
| VSock4 (octets : list byte) (port : Z)
| VSock6 (octets : list byte) (port flow scope : Z)
| VSockV4 (octets : list byte) (port : Z)                       (* SocketAddr *)
| VSockV6 (octets : list byte) (port flow scope : Z)
| VRange (a b : val)
| VRangeInclusive (a b : val) (exhausted : bool)                (* `exhausted` as in core::ops::RangeInclusive *)
| VHalfRange (a : val)                 (* RangeFrom, RangeTo, RangeToInclusive *)
| VIncluded (v : val) | VExcluded (v : val) | VUnbounded
| VMap (kvs : list (val * val))        (* entries in iteration order *)
| VSet (ks : list val)
| VEnum (i : nat) (vs : list val).     (* variant number, fields *)

(* ---- Discriminants assigned by the macro: oct-macros/src/discriminants/mod.rs:42-80 *)

(* One step of `Discriminants::next`: an explicit literal wins; otherwise one more than the previous one, checked
   against overflow of u128 (`None`: the macro panics); otherwise zero. [prev] is the field `prev`. *)
Definition next_discriminant (prev : option Z) (explicit : option Z) : option Z :=
  match explicit with
  | Some d => Some d
  | None =>
    match prev with
    | Some p => if p + 1 <? 2 ^ 128 then Some (p + 1) else None
    | None => Some 0
    end
  end.

(* The whole iteration; `None` when the macro panics. *)
(* oct-macros/src/discriminants/mod.rs:46-77 *)
Fixpoint discriminants_from (prev : option Z) (vs : list (option Z)) : option (list Z) :=
  match vs with
  | [] => Some []
  | v :: vs' =>
    match next_discriminant prev v with
    | None => None
    | Some d => option_map (cons d) (discriminants_from (Some d) vs')
    end
  end.
(* oct-macros/src/discriminants/mod.rs:34-39 `new`: `prev` is None *)
Definition discriminants (vs : list (option Z)) : option (list Z) := discriminants_from None vs.

(* Does the definition `enum { .. }` compile (rustc's own checks): the macro assigns discriminants, each is a value of
   the representation, and no two are equal. *)
(* (no code of the repository: E0081 and the check of `repr` in rustc) *)
Definition enum_ok (r : ity) (vs : list (option Z * list ty)) : Prop :=
  match discriminants (map fst vs) with
  | None => False
  | Some ds => Forall (in_ity r) ds /\ NoDup ds
  end.

(* ---- Validity *)

(* (core: the validity invariant of `str`) *)
Definition valid_utf8 (bs : list byte) : Prop :=
  exists cs, Forall (fun c => is_scalar c = true) cs /\ bs = flat_map encode_utf8 cs.

(* (core: the values of `u16`; the port of oct/src/encode/encode/mod.rs:725-750) *)
Definition in_u16 (z : Z) : Prop := 0 <= z < 65536.
(* (core: the values of `u32`; flow info and scope, oct/src/encode/encode/mod.rs:737-750) *)
Definition in_u32 (z : Z) : Prop := 0 <= z < 4294967296.

(* fields against their types, pointwise and of equal number *)
(* (auxiliary to [wt]; no code of its own) *)
Fixpoint all2 {A : Type} (ps : list (A -> Prop)) (xs : list A) : Prop :=
  match ps, xs with
  | [], [] => True
  | p :: ps', x :: xs' => p x /\ all2 ps' xs'
  | _, _ => False
  end.

(* [wt t v]: [v] is a valid value of the Rust type [t]. *)
(* (core, std: the validity invariants of the types that oct/src/encode/encode/mod.rs and oct/src/decode/decode/mod.rs implement) *)
Fixpoint wt (t : ty) (v : val) {struct t} : Prop :=
  match t, v with
  | TInt i, VInt z => in_ity i z
  | TF32, VInt z => 0 <= z < 2 ^ 32
  | TF64, VInt z => 0 <= z < 2 ^ 64
  | TBool, VBool _ => True
  | TChar, VChar c => is_scalar c = true
  | TUnit, VUnit => True
  | TNonZero i, VInt z => in_ity i z /\ z <> 0
  | TOption _, VNone => True
  | TOption t, VSome v => wt t v
  | TResult t _, VOk v => wt t v
  | TResult _ e, VErr v => wt e v
  | TTuple ts, VTuple vs => all2 (map wt ts) vs
  | TArray t n, VSeq vs => length vs = n /\ Forall (wt t) vs
  | TSlice t, VSeq vs | TVec t, VSeq vs | TLinked t, VSeq vs => Forall (wt t) vs
  | TSizedSlice t n, VSeq vs => (length vs <= n)%nat /\ Forall (wt t) vs
  | TStr, VStr bs | TString, VStr bs => valid_utf8 bs
  | TSizedStr n, VStr bs => (length bs <= n)%nat /\ valid_utf8 bs
  | TCStr, VStr bs | TCString, VStr bs => ~ In x00 bs
  | TWrap _ t, VWrap v => wt t v
  | TCow t, VCow _ v => wt t v
  | TRefCell t, VRefCell _ v => wt t v
  | TLock _ t, VLock _ v => wt t v
  | TDuration, VDuration s n => 0 <= s < 2 ^ 64 /\ 0 <= n < 1000000000
  | TSystemTime, VTime s n => - 2 ^ 63 <= s < 2 ^ 63 /\ 0 <= n < 1000000000
  | TIpv4, VIp4 o | TIpAddr, VIpV4 o => length o = 4%nat
  | TIpv6, VIp6 o | TIpAddr, VIpV6 o => length o = 16%nat
  | TSockV4, VSock4 o p | TSockAddr, VSockV4 o p => length o = 4%nat /\ in_u16 p
  | TSockV6, VSock6 o p f s | TSockAddr, VSockV6 o p f s => length o = 16%nat /\ in_u16 p /\ in_u32 f /\ in_u32 s
  | TRange t, VRange a b => wt t a /\ wt t b
  | TRangeInclusive t, VRangeInclusive a b _ => wt t a /\ wt t b
  | TRangeFrom t, VHalfRange a | TRangeTo t, VHalfRange a | TRangeToInclusive t, VHalfRange a => wt t a
  | TRangeFull, VUnit | TPhantomData, VUnit | TPhantomPinned, VUnit => True
  | TBound t, VIncluded v | TBound t, VExcluded v => wt t v
  | TBound _, VUnbounded => True
  | THashMap k v, VMap kvs => NoDup (map fst kvs) /\ Forall (fun p => wt k (fst p) /\ wt v (snd p)) kvs
  | THashSet k, VSet ks => NoDup ks /\ Forall (wt k) ks
  | TStruct ts, VTuple vs => all2 (map wt ts) vs
  | TEnum r vs, VEnum i fs =>
    enum_ok r vs /\
    match nth_error (map (fun x => map wt (snd x)) vs) i with
    | Some ps => all2 ps fs
    | None => False
    end
  | _, _ => False     (* in particular [TInfallible] has no value *)
  end.

(* ---- Errors of encoding: oct/src/error/*_encode_error.rs *)

Inductive eerr :=
| EUsize (z : Z)                (* UsizeEncodeError(usize) *)
| EIsize (z : Z)                (* IsizeEncodeError(isize) *)
| ELen (e : eerr)               (* CollectionEncodeError::BadLength *)
| EItem (i : nat) (e : eerr)    (* CollectionEncodeError::BadItem(ItemEncodeError { index, error }) *)
| EItemTuple (i : nat) (e : eerr)  (* CollectionEncodeError::BadItem((index, error)), LinkedList only: encode/encode/mod.rs:488 *)
| EDisc (e : eerr)              (* EnumEncodeError::BadDiscriminant *)
| EField (e : eerr)             (* EnumEncodeError::BadField *)
| EBadBorrow                    (* RefCellEncodeError::BadBorrow *)
| EBadValue (e : eerr)          (* RefCellEncodeError::BadValue *)
| EGBorrow                      (* GenericEncodeError::BadBorrow *)
| EGIsize (z : Z)               (* GenericEncodeError::LargeIsize *)
| EGUsize (z : Z)               (* GenericEncodeError::LargeUsize *)
| ENoImpl.                      (* no `From` implementation exists: the program does not compile *)

(* `Into::<GenericEncodeError>::into`: oct/src/error/generic_encode_error.rs:85-154. There is no implementation for
   RefCellEncodeError nor for the tuple error of LinkedList. *)
Fixpoint into_generic_enc (e : eerr) : eerr :=
  match e with
  | EUsize z => EGUsize z
  | EIsize z => EGIsize z
  | ELen e | EItem _ e | EDisc e | EField e => into_generic_enc e
  | EGBorrow | EGIsize _ | EGUsize _ => e
  | EItemTuple _ _ | EBadBorrow | EBadValue _ | ENoImpl => ENoImpl
  end.

(* ---- Errors of decoding: oct/src/error/*_decode_error.rs and others *)

Inductive derr :=
| DChar (cp : Z)                (* CharDecodeError { code_point } *)
| DNonZero                      (* NonZeroDecodeError *)
| DCString (i : nat)            (* CStringDecodeError { index } *)
| DUtf8 (b : byte) (i : nat)    (* Utf8Error { value, index } *)
| DLength (cap len : nat)       (* LengthError { capacity, len } *)
| DTime (t : Z)                 (* SystemTimeDecodeError { timestamp } *)
| DLen (e : derr)               (* CollectionDecodeError::BadLength *)
| DItem (i : nat) (e : derr)    (* CollectionDecodeError::BadItem(ItemDecodeError { index, error }) *)
| DBad (e : derr)               (* CollectionDecodeError::BadItem(error), for strings *)
| DUnassigned (r : ity) (d : Z) (* EnumDecodeError::UnassignedDiscriminant { value }, with the type of the value *)
| DField (e : derr)             (* EnumDecodeError::BadField *)
| DGUtf8 (b : byte) (i : nat)   (* GenericDecodeError::BadString *)
| DGNull (i : nat)              (* GenericDecodeError::NullString *)
| DGNonZero                     (* GenericDecodeError::NullInteger *)
| DGSmall (cap len : nat)       (* GenericDecodeError::SmallBuffer *)
| DGUnassigned (d : Z)          (* GenericDecodeError::UnassignedDiscriminant { value: u128 } *)
| DGTime (t : Z)                (* GenericDecodeError::NarrowSystemTime *)
| DNoImpl.                      (* no `From` implementation exists: the program does not compile *)

(* `PrimitiveDiscriminant::to_u128`: oct/src/primitive_discriminant/mod.rs:55-57, `self as u128`, which sign-extends *)
Definition to_u128 (z : Z) : Z := z mod 2 ^ 128.

(* `Into::<GenericDecodeError>::into`: oct/src/error/generic_decode_error.rs:125-214. There is no implementation for
   CharDecodeError. *)
Fixpoint into_generic_dec (e : derr) : derr :=
  match e with
  | DNonZero => DGNonZero
  | DCString i => DGNull i
  | DUtf8 b i => DGUtf8 b i
  | DLength c l => DGSmall c l
  | DTime t => DGTime t
  | DLen e | DItem _ e | DBad e | DField e => into_generic_dec e
  | DUnassigned _ d => DGUnassigned (to_u128 d)
  | DGUtf8 _ _ | DGNull _ | DGNonZero | DGSmall _ _ | DGUnassigned _ | DGTime _ => e
  | DChar _ | DNoImpl => DNoImpl
  end.
