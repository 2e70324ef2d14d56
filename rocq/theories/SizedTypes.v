(* Which types implement SizedEncode. Definitions only. *)
From Verif Require Import Base Utf8 Types Traits.

(* `T: SizedEncode`. The implementation for Result asks for the same error of both parts, where that of Encode asks for errors that convert;
   PhantomPinned has none. *)
(* the headers in oct/src/encode/sized_encode/mod.rs:85-345, oct/src/sized_slice/code.rs:61 and oct/src/sized_str/code.rs:58; derived implementations
   are for types that implement Encode: oct/src/encode/sized_encode/mod.rs:78, oct-macros/src/impls/sized_encode_struct.rs:33-35, sized_encode_enum.rs:32-60 *)
Fixpoint sized (t : ty) : bool :=
  match t with
  | TInt _ | TNonZero _ | TF32 | TF64 | TBool | TChar | TUnit | TPhantomData | TRangeFull | TInfallible | TSizedStr _
  | TDuration | TSystemTime | TIpv4 | TIpv6 | TIpAddr | TSockV4 | TSockV6 | TSockAddr => true
  | TOption t | TBound t | TArray t _ | TSizedSlice t _ | TWrap _ t | TCow t | TRefCell t | TLock _ t
  | TRange t | TRangeFrom t | TRangeInclusive t | TRangeTo t | TRangeToInclusive t => sized t
  | TResult a b =>
    sized a && sized b && match enc_ety a, enc_ety b with Some x, Some y => ety_eqb x y | _, _ => false end
  | TTuple ts | TStruct ts => forallb sized ts && match enc_ety t with Some _ => true | None => false end
  | TEnum _ vs => forallb (fun v => forallb sized (snd v)) vs && match enc_ety t with Some _ => true | None => false end
  | TSlice _ | TVec _ | TLinked _ | TStr | TString | TCStr | TCString | TPhantomPinned | THashMap _ _ | THashSet _ => false
  end.
