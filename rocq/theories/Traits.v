(* Which types implement Encode and Decode: the static error types and `From` implementations. This is what the Rust
   compiler checks before any of the code can run. Definitions only. *)
From Verif Require Import Base Utf8 Types.
Set Implicit Arguments.

(* ---- Encode *)

(* The associated type `Encode::Error`. *)
(* `type Error` in oct/src/encode/encode/mod.rs:135 and in each implementation *)
Inductive ety :=
| YInfallible | YUsize | YIsize
| YColl (l i : ety)     (* CollectionEncodeError<L, I> *)
| YItem (e : ety)       (* ItemEncodeError<usize, E> *)
| YTuple (e : ety)      (* (usize, E) *)
| YEnum (d : ity) (f : ety)   (* EnumEncodeError<D, F> *)
| YRefCell (e : ety)    (* RefCellEncodeError<E> *)
| YGeneric.             (* GenericEncodeError *)

(* (rustc: equality of types; no code of the repository) *)
Definition ity_eqb (a b : ity) : bool :=
  match a, b with
  | U8, U8 | U16, U16 | U32, U32 | U64, U64 | U128, U128 | I8, I8 | I16, I16 | I32, I32 | I64, I64 | I128, I128
  | Usize, Usize | Isize, Isize => true
  | _, _ => false
  end.

(* (rustc: equality of types; no code of the repository) *)
Fixpoint ety_eqb (a b : ety) : bool :=
  match a, b with
  | YInfallible, YInfallible | YUsize, YUsize | YIsize, YIsize | YGeneric, YGeneric => true
  | YColl l i, YColl l' i' => ety_eqb l l' && ety_eqb i i'
  | YItem e, YItem e' | YTuple e, YTuple e' | YRefCell e, YRefCell e' => ety_eqb e e'
  | YEnum d f, YEnum d' f' => ity_eqb d d' && ety_eqb f f'
  | _, _ => false
  end.

(* The error type of an integer: encode/encode/mod.rs:440, 821, 857 *)
Definition int_ety (i : ity) : ety := match i with Usize => YUsize | Isize => YIsize | _ => YInfallible end.

(* `X: Into<GenericEncodeError>`: the implementations at oct/src/error/generic_encode_error.rs:85-154 *)
Fixpoint into_generic_ety (x : ety) : bool :=
  match x with
  | YInfallible | YUsize | YIsize | YGeneric => true
  | YColl l i => into_generic_ety l && into_generic_ety i
  | YItem e => into_generic_ety e
  | YEnum _ f => into_generic_ety f
  | YTuple _ | YRefCell _ => false
  end.

(* `X: Into<Infallible>`: oct/src/error/collection_encode_error.rs:72, enum_encode_error.rs:71, item_encode_error.rs:61 *)
Fixpoint into_infallible_ety (x : ety) : bool :=
  match x with
  | YInfallible => true
  | YColl l i => into_infallible_ety l && into_infallible_ety i
  | YItem e => into_infallible_ety e
  | YEnum d f => match int_ety d with YInfallible => true | _ => false end && into_infallible_ety f
  | _ => false
  end.

(* `X: Into<Y>`: reflexive, or one of the above *)
(* the bound at oct/src/encode/encode/mod.rs:642-674; core: `impl From<T> for T` *)
Definition into_ety (x y : ety) : bool :=
  ety_eqb x y ||
  match y with YGeneric => into_generic_ety x | YInfallible => into_infallible_ety x | _ => false end.

(* all components implement the trait with the same error type *)
(* the bound of impl_tuple, oct/src/encode/encode/mod.rs:869-891 *)
Fixpoint all_same (l : list (option ety)) (e : ety) : bool :=
  match l with
  | [] => true
  | Some e' :: l' => ety_eqb e' e && all_same l' e
  | None :: _ => false
  end.

(* all components implement the trait with an error that converts to the generic one *)
(* the conversions that oct-macros/src/impls/encode_struct.rs:50-64 and encode_enum.rs:68-93 write *)
Fixpoint all_generic (l : list (option ety)) : bool :=
  match l with
  | [] => true
  | Some e :: l' => into_generic_ety e && all_generic l'
  | None :: _ => false
  end.

(* `<T as Encode>::Error`, or `None` when T does not implement Encode. Other bounds (`Copy` for Cell, the payload of
   Wrapping and atomics) are not checked: the universe has a few more types than Rust. *)
(* the headers of the implementations in oct/src/encode/encode/mod.rs:149-943, oct/src/sized_slice/code.rs:52 and oct/src/sized_str/code.rs:49 *)
Fixpoint enc_ety (t : ty) : option ety :=
  match t with
  | TInt i | TNonZero i => Some (int_ety i)
  | TF32 | TF64 | TBool | TChar | TUnit | TDuration | TSystemTime | TIpv4 | TIpv6 | TSockV4 | TSockV6 | TSockAddr
  | TRangeFull | TPhantomData | TPhantomPinned | TInfallible => Some YInfallible
  | TOption t | TWrap _ t | TCow t | TLock _ t
  | TRange t | TRangeFrom t | TRangeInclusive t | TRangeTo t | TRangeToInclusive t | THashSet t => enc_ety t
  | TResult t e =>
    match enc_ety t, enc_ety e with
    | Some y, Some x => if into_ety x y then Some y else None
    | _, _ => None
    end
  | TTuple ts =>
    match map enc_ety ts with
    | Some e :: l => if all_same l e then Some e else None
    | _ => None
    end
  | TArray t _ => option_map (fun e => YColl YInfallible (YItem e)) (enc_ety t)
  | TSlice t | TVec t | TSizedSlice t _ => option_map (fun e => YColl YUsize (YItem e)) (enc_ety t)
  | TLinked t => option_map (fun e => YColl YUsize (YTuple e)) (enc_ety t)
  | TStr | TString | TSizedStr _ | TCStr | TCString => Some (YColl YUsize (YItem YInfallible))
  | TRefCell t => option_map YRefCell (enc_ety t)
  | TIpAddr => Some (YEnum U8 YInfallible)
  | TBound t => option_map (YEnum U8) (enc_ety t)
  | THashMap k v =>
    match enc_ety k, enc_ety v with
    | Some a, Some b => if ety_eqb a b then Some a else None
    | _, _ => None
    end
  | TStruct ts => if all_generic (map enc_ety ts) then Some YGeneric else None
  | TEnum r vs => if forallb (fun x => all_generic (map enc_ety (snd x))) vs then Some (YEnum r YGeneric) else None
  end.

(* ---- Decode *)

(* The associated type `Decode::Error`. *)
(* `type Error` in oct/src/decode/decode/mod.rs:104 and in each implementation *)
Inductive dety :=
| ZInfallible | ZChar | ZNonZero | ZCString | ZUtf8 | ZLength | ZTime
| ZColl (l i : dety)          (* CollectionDecodeError<L, I> *)
| ZItem (e : dety)            (* ItemDecodeError<usize, E> *)
| ZEnum (d : option ity) (f : dety)   (* EnumDecodeError<D, F>; `None` is D = bool, for Result *)
| ZGeneric.                   (* GenericDecodeError *)

(* (rustc: equality of types; no code of the repository) *)
Fixpoint dety_eqb (a b : dety) : bool :=
  match a, b with
  | ZInfallible, ZInfallible | ZChar, ZChar | ZNonZero, ZNonZero | ZCString, ZCString | ZUtf8, ZUtf8
  | ZLength, ZLength | ZTime, ZTime | ZGeneric, ZGeneric => true
  | ZColl l i, ZColl l' i' => dety_eqb l l' && dety_eqb i i'
  | ZItem e, ZItem e' => dety_eqb e e'
  | ZEnum (Some d) f, ZEnum (Some d') f' => ity_eqb d d' && dety_eqb f f'
  | ZEnum None f, ZEnum None f' => dety_eqb f f'
  | _, _ => false
  end.

(* `X: Into<GenericDecodeError>`: oct/src/error/generic_decode_error.rs:125-214. `bool` is not a PrimitiveDiscriminant
   (oct/src/primitive_discriminant/mod.rs:63-74), so the error of Result does not convert; nor does CharDecodeError. *)
Fixpoint into_generic_dety (x : dety) : bool :=
  match x with
  | ZInfallible | ZNonZero | ZCString | ZUtf8 | ZLength | ZTime | ZGeneric => true
  | ZChar => false
  | ZColl l i => into_generic_dety l && into_generic_dety i
  | ZItem e => into_generic_dety e
  | ZEnum (Some _) f => into_generic_dety f
  | ZEnum None _ => false
  end.

(* `X: Into<Infallible>`: oct/src/error/collection_decode_error.rs:83, enum_decode_error.rs:85, item_decode_error.rs:61.
   The last has no bound on the error of the item. *)
Fixpoint into_infallible_dety (x : dety) : bool :=
  match x with
  | ZInfallible => true
  | ZColl l i => into_infallible_dety l && into_infallible_dety i
  | ZItem _ => true
  | ZEnum _ f => into_infallible_dety f     (* every discriminant type here decodes infallibly *)
  | _ => false
  end.

(* the bound of impl_tuple, oct/src/decode/decode/mod.rs:836-857 *)
Fixpoint all_same_d (l : list (option dety)) (e : dety) : bool :=
  match l with
  | [] => true
  | Some e' :: l' => dety_eqb e' e && all_same_d l' e
  | None :: _ => false
  end.

(* the conversions that oct-macros/src/impls/decode_struct.rs:52-60 and decode_enum.rs:64-81 write *)
Fixpoint all_generic_d (l : list (option dety)) : bool :=
  match l with
  | [] => true
  | Some e :: l' => into_generic_dety e && all_generic_d l'
  | None :: _ => false
  end.

(* `<T as Decode>::Error`, or `None` when T does not implement Decode. `Eq + Hash` of keys is not checked, nor that the
   parameter of Cow is Sized, for want of which Rust has no Decode for Cow<str>, Cow<CStr> and Cow<[T]> (C129). *)
(* the headers of the implementations in oct/src/decode/decode/mod.rs:116-918, oct/src/sized_slice/code.rs:29 and oct/src/sized_str/code.rs:27 *)
Fixpoint dec_ety (t : ty) : option dety :=
  match t with
  | TInt _ | TF32 | TF64 | TBool | TUnit | TDuration | TIpv4 | TIpv6 | TSockV4 | TSockV6
  | TRangeFull | TPhantomData | TPhantomPinned | TInfallible => Some ZInfallible
  | TChar => Some ZChar
  | TNonZero _ => Some ZNonZero
  | TOption t | TRefCell t | TLock _ t
  | TRange t | TRangeFrom t | TRangeInclusive t | TRangeTo t | TRangeToInclusive t => dec_ety t
  | TWrap w t =>
    match w with
    | WRef | WRefMut | WLazyCell | WLazyLock => None
    | WBox | WRc | WArc | WCell | WWrapping | WSaturating | WAtomic => dec_ety t
    end
  | TCow b =>
    match b with
    | TSlice t => option_map (fun e => ZColl ZInfallible (ZItem e)) (dec_ety t)
    | TStr => Some (ZColl ZInfallible ZUtf8)
    | TCStr => Some ZCString
    | _ => dec_ety b
    end
  | TResult t e =>
    match dec_ety t, dec_ety e with
    | Some a, Some b => if dety_eqb a b then Some (ZEnum None a) else None
    | _, _ => None
    end
  | TTuple ts =>
    match map dec_ety ts with
    | Some e :: l => if all_same_d l e then Some e else None
    | _ => None
    end
  | TArray t _ | TVec t | TLinked t | THashSet t => option_map (fun e => ZColl ZInfallible (ZItem e)) (dec_ety t)
  | TSizedSlice t _ => option_map (fun e => ZColl ZLength (ZItem e)) (dec_ety t)
  | TSlice _ | TStr | TCStr => None
  | TString => Some (ZColl ZInfallible ZUtf8)
  | TSizedStr _ => Some (ZColl ZLength ZUtf8)
  | TCString => Some ZCString
  | TSystemTime => Some ZTime
  | TIpAddr | TSockAddr => Some (ZEnum (Some U8) ZInfallible)
  | TBound t => option_map (ZEnum (Some U8)) (dec_ety t)
  | THashMap k v =>
    match dec_ety k, dec_ety v with
    | Some a, Some b => if dety_eqb a b then Some (ZColl ZInfallible (ZItem a)) else None
    | _, _ => None
    end
  | TStruct ts => if all_generic_d (map dec_ety ts) then Some ZGeneric else None
  | TEnum r vs =>
    if forallb (fun x => all_generic_d (map dec_ety (snd x))) vs then Some (ZEnum (Some r) ZGeneric) else None
  end.
