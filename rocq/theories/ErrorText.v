(* Errors as `dyn Error`: their sources and their messages. oct/src/error. Definitions only. *)
From Coq Require Import String Ascii.
From Verif Require Import Base Streams Utf8 Types Traits SizedSlice SizedStr.
Set Implicit Arguments.
Local Open Scope list_scope.

(* ---- core: formatting of numbers *)

(* the digits of [n] to the base [b], most significant first *)
(* core: core/src/fmt/num.rs, used by `write!` throughout oct/src/error *)
Fixpoint digits (b : N) (fuel : nat) (n : N) : list N :=
  match fuel with
  | O => []
  | S fuel' => if (n <? b)%N then [n] else digits b fuel' (n / b)%N ++ [(n mod b)%N]
  end.
(* 0..=9, A..=Z *)
(* core: core/src/fmt/num.rs, `{:X}` *)
Definition digit (d : N) : byte := z2b (if (d <? 10)%N then 48 + Z.of_N d else 55 + Z.of_N d).
(* core: core/src/fmt/num.rs *)
Definition radix (b n : N) : list byte := map digit (digits b (S (N.to_nat (N.log2 n))) n).
(* `{}` of an unsigned and of a signed number *)
(* as at oct/src/error/length_error.rs:45-47 *)
Definition fmt_unsigned (n : N) : list byte := radix 10 n.
(* as at oct/src/error/isize_encode_error.rs:37-45 *)
Definition fmt_signed (z : Z) : list byte := if (z <? 0)%Z then x2d :: fmt_unsigned (Z.to_N (- z)) else fmt_unsigned (Z.to_N z).
(* as at oct/src/error/length_error.rs:45-47 *)
Definition fmt_nat (n : nat) : list byte := fmt_unsigned (N.of_nat n).
(* zeros up to the width *)
(* core: `Formatter::pad_integral` *)
Definition pad (w : nat) (s : list byte) : list byte := repeat x30 (w - List.length s) ++ s.
(* `{:04X}`; `{:#02X}`, `{:#04X}` and `{:#X}`: the width counts the prefix as well *)
(* as at oct/src/error/char_decode_error.rs:41-43 *)
Definition fmt_hex (w : nat) (n : N) : list byte := pad w (radix 16 n).
(* as at oct/src/error/utf8_error.rs:38-40 *)
Definition fmt_hex_prefix (w : nat) (n : N) : list byte := [x30; x78] ++ pad (w - 2) (radix 16 n).

(* (a string literal as octets; no code of its own) *)
Definition txt (s : string) : list byte := list_byte_of_string s.

(* ---- The errors. The flag of an error that exists for encoding and for decoding is true for encoding. *)
Inductive rerr :=
| RUsize (z : Z)                       (* UsizeEncodeError *)
| RIsize (z : Z)                       (* IsizeEncodeError *)
| RBorrow                              (* core::cell::BorrowError *)
| RChar (cp : Z)                       (* CharDecodeError *)
| RNonZero                             (* NonZeroDecodeError *)
| RCString (i : nat)                   (* CStringDecodeError *)
| RUtf8 (b : byte) (i : nat)           (* Utf8Error *)
| RUtf16 (h : N) (i : nat)             (* Utf16Error *)
| RLength (cap len : nat)              (* LengthError *)
| RTime (t : Z)                        (* SystemTimeDecodeError *)
| RBadLength (enc : bool) (e : rerr)   (* CollectionEncodeError::BadLength, CollectionDecodeError::BadLength *)
| RBadItem (enc : bool) (e : rerr)     (* CollectionEncodeError::BadItem, CollectionDecodeError::BadItem *)
| RItem (enc : bool) (i : nat) (e : rerr)  (* ItemEncodeError, ItemDecodeError *)
| RBadDisc (enc : bool) (e : rerr)     (* EnumEncodeError::BadDiscriminant, EnumDecodeError::InvalidDiscriminant *)
| RUnassigned (d : Z)                  (* EnumDecodeError::UnassignedDiscriminant *)
| RBadField (enc : bool) (e : rerr)    (* EnumEncodeError::BadField, EnumDecodeError::BadField *)
| RRefBorrow (e : rerr)                (* RefCellEncodeError::BadBorrow *)
| RRefValue (e : rerr)                 (* RefCellEncodeError::BadValue *)
| RGeneric (e : rerr)                  (* every variant of GenericEncodeError, and of GenericDecodeError but for the next *)
| RGenUnassigned (d : Z)               (* GenericDecodeError::UnassignedDiscriminant *)
| RStrUtf16 (e : rerr) | RStrUtf8 (e : rerr) | RStrSmall (e : rerr)   (* StringError *)
| RInput (e : stream_error) | ROutput (e : stream_error).                      (* InputError, OutputError *)

(* Error values as such. An error of LinkedList holds a tuple, which is neither Display nor Error: [None]. *)
(* the types of oct/src/error, as named at [rerr] *)
Fixpoint of_eerr (e : eerr) : option rerr :=
  match e with
  | EUsize z => Some (RUsize z)
  | EIsize z => Some (RIsize z)
  | ELen e => option_map (RBadLength true) (of_eerr e)
  | EItem i e => option_map (fun x => RBadItem true (RItem true i x)) (of_eerr e)
  | EDisc e => option_map (RBadDisc true) (of_eerr e)
  | EField e => option_map (RBadField true) (of_eerr e)
  | EBadBorrow => Some (RRefBorrow RBorrow)
  | EBadValue e => option_map RRefValue (of_eerr e)
  | EGBorrow => Some (RGeneric RBorrow)
  | EGIsize z => Some (RGeneric (RIsize z))
  | EGUsize z => Some (RGeneric (RUsize z))
  | EItemTuple _ _ | ENoImpl => None
  end.
(* the types of oct/src/error, as named at [rerr] *)
Fixpoint of_derr (e : derr) : option rerr :=
  match e with
  | DChar cp => Some (RChar cp)
  | DNonZero => Some RNonZero
  | DCString i => Some (RCString i)
  | DUtf8 b i => Some (RUtf8 b i)
  | DLength c l => Some (RLength c l)
  | DTime t => Some (RTime t)
  | DLen e => option_map (RBadLength false) (of_derr e)
  | DItem i e => option_map (fun x => RBadItem false (RItem false i x)) (of_derr e)
  | DBad e => option_map (RBadItem false) (of_derr e)
  | DUnassigned _ d => Some (RUnassigned d)
  | DField e => option_map (RBadField false) (of_derr e)
  | DGUtf8 b i => Some (RGeneric (RUtf8 b i))
  | DGNull i => Some (RGeneric (RCString i))
  | DGNonZero => Some (RGeneric RNonZero)
  | DGSmall c l => Some (RGeneric (RLength c l))
  | DGUnassigned d => Some (RGenUnassigned d)
  | DGTime t => Some (RGeneric (RTime t))
  | DNoImpl => None
  end.
(* oct/src/error/string_error.rs *)
Definition of_string_error (e : string_error) : rerr :=
  match e with
  | BadUtf8 b i => RStrUtf8 (RUtf8 b i)
  | SmallBuffer e => RStrSmall (RLength (le_capacity e) (le_len e))
  end.

(* Which error types implement Error (and Display): the bounds of the implementations in oct/src/error. A tuple does not. *)
Fixpoint ety_is_error (y : ety) : bool :=
  match y with
  | YInfallible | YUsize | YIsize | YGeneric => true
  | YColl l i => ety_is_error l && ety_is_error i       (* collection_encode_error.rs:57-61 *)
  | YItem e => ety_is_error e                           (* item_encode_error.rs:50-53 *)
  | YTuple _ => false
  | YEnum _ f => ety_is_error f                         (* enum_encode_error.rs:56-60; the errors of all integers do *)
  | YRefCell e => ety_is_error e                        (* ref_cell_encode_error.rs:54 *)
  end.
Fixpoint dety_is_error (z : dety) : bool :=
  match z with
  | ZInfallible | ZChar | ZNonZero | ZCString | ZUtf8 | ZLength | ZTime | ZGeneric => true
  | ZColl l i => dety_is_error l && dety_is_error i     (* collection_decode_error.rs:68-72 *)
  | ZItem e => dety_is_error e                          (* item_decode_error.rs:50-53 *)
  | ZEnum _ f => dety_is_error f                        (* enum_decode_error.rs:68-72; every discriminant type decodes infallibly *)
  end.

(* `Error::source`. Errors that do not define it have none. *)
Definition source (e : rerr) : option rerr :=
  match e with
  | RBadLength _ e | RBadItem _ e        (* collection_encode_error.rs:62-69, collection_decode_error.rs:73-80 *)
  | RItem _ _ e                          (* item_encode_error.rs:55-58, item_decode_error.rs:55-58 *)
  | RBadDisc _ e | RBadField _ e         (* enum_encode_error.rs:61-68, enum_decode_error.rs:73-82 *)
  | RRefBorrow e | RRefValue e           (* ref_cell_encode_error.rs:55-62 *)
  | RGeneric e                           (* generic_encode_error.rs:73-82, generic_decode_error.rs:105-121 *)
  | RStrUtf16 e | RStrUtf8 e | RStrSmall e   (* string_error.rs:59-68 *)
      => Some e
  | _ => None
  end.

(* `Display::fmt` *)
Fixpoint display (e : rerr) : list byte :=
  match e with
  | RUsize z =>                          (* usize_encode_error.rs:37-44 *)
    txt "unsigned size value (" ++ fmt_signed z ++ txt ") cannot be serialised: must be at most (65535)"
  | RIsize z =>                          (* isize_encode_error.rs:37-45 *)
    txt "signed size value (" ++ fmt_signed z ++ txt ") cannot be serialised: must be in the range (-32768) to (32767)"
  | RBorrow => txt "already mutably borrowed"      (* core/src/cell.rs *)
  | RChar cp =>                          (* char_decode_error.rs:41-43 *)
    txt "code point U+" ++ fmt_hex 4 (Z.to_N cp) ++ txt " is not defined"
  | RNonZero => txt "expected non-zero integer but found `0`"    (* non_zero_decode_error.rs:33-35 *)
  | RCString i =>                        (* c_string_decode_error.rs:41-43 *)
    txt "expected c string but found null value within bounds at '" ++ fmt_nat i ++ txt "`"
  | RUtf8 b i =>                         (* utf8_error.rs:38-40 *)
    txt "found invalid utf-8 octet " ++ fmt_hex_prefix 2 (Z.to_N (b2z b)) ++ txt " at offset (" ++ fmt_nat i ++ txt ")"
  | RUtf16 h i =>                        (* utf16_error.rs:38-40 *)
    txt "found invalid utf-16 hextet " ++ fmt_hex_prefix 4 h ++ txt " at offset (" ++ fmt_nat i ++ txt ")"
  | RLength c l =>                       (* length_error.rs:45-47 *)
    txt "collection of size (" ++ fmt_nat c ++ txt ") cannot hold (" ++ fmt_nat l ++ txt ") elements"
  | RTime t =>                           (* system_time_decode_error.rs:40-42 *)
    txt "could not represent `" ++ fmt_signed t ++ txt "` as a system timestamp"
  | RBadLength true e => txt "unable to encode collection length: " ++ display e    (* collection_encode_error.rs:46-54 *)
  | RBadItem true e => txt "unable to encode collection item: " ++ display e
  | RBadLength false e => txt "unable to decode collection length: " ++ display e   (* collection_decode_error.rs:57-65 *)
  | RBadItem false e => txt "unable to decode collection item: " ++ display e
  | RItem true i e => txt "could not encode item at `" ++ fmt_nat i ++ txt "`: " ++ display e    (* item_encode_error.rs:45-47 *)
  | RItem false i e => txt "could not decode item at `" ++ fmt_nat i ++ txt "`: " ++ display e   (* item_decode_error.rs:45-47 *)
  | RBadDisc true e => txt "discriminant could not be encoded: " ++ display e       (* enum_encode_error.rs:45-53 *)
  | RBadField true e => txt "field could not be encoded: " ++ display e
  | RBadDisc false e => txt "discriminant could not be decoded: " ++ display e      (* enum_decode_error.rs:54-65 *)
  | RUnassigned d => txt "`" ++ fmt_signed d ++ txt "` is not an assigned discriminant for the given enumeration"
  | RBadField false e => txt "variant could not be decoded: " ++ display e
  | RRefBorrow e | RRefValue e => txt "unable to encode reference cell: " ++ display e  (* ref_cell_encode_error.rs:43-51 *)
  | RGeneric e => display e              (* generic_encode_error.rs:57-69, generic_decode_error.rs:80-101 *)
  | RGenUnassigned d => txt "discriminant value `" ++ fmt_hex_prefix 0 (Z.to_N d) ++ txt " has not been assigned"
  | RStrUtf16 e => txt "bad utf-16: " ++ display e      (* string_error.rs:44-55 *)
  | RStrUtf8 e => txt "bad utf-8: " ++ display e
  | RStrSmall e => txt "buffer too small: " ++ display e
  | RInput e =>                          (* input_error.rs:43-51 *)
    txt "cannot read (" ++ fmt_nat (se_count e) ++ txt ") bytes at (" ++ fmt_nat (se_position e) ++
    txt ") from input stream with capacity of (" ++ fmt_nat (se_capacity e) ++ txt ")"
  | ROutput e =>                         (* output_error.rs:43-51 *)
    txt "cannot write (" ++ fmt_nat (se_count e) ++ txt ") bytes at (" ++ fmt_nat (se_position e) ++
    txt ") to output stream with capacity of (" ++ fmt_nat (se_capacity e) ++ txt ")"
  end.
