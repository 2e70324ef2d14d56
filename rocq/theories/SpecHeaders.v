(* Which types of Rust the error types of the model are. *)
From Verif Require Import Base Types Traits SourceNames SourceSyntax SourceText SourceHeaders.

Fixpoint rust_ety (y : ety) : rty :=
  match y with
  | YInfallible => plain id_Infallible
  | YUsize => plain id_UsizeEncodeError
  | YIsize => plain id_IsizeEncodeError
  | YColl l i => applied id_CollectionEncodeError [rust_ety l; rust_ety i]
  | YItem e => applied id_ItemEncodeError [plain id_usize; rust_ety e]
  | YTuple e => YTup [plain id_usize; rust_ety e]
  | YEnum d f => applied id_EnumEncodeError [plain (int_name d); rust_ety f]
  | YRefCell e => applied id_RefCellEncodeError [rust_ety e]
  | YGeneric => plain id_GenericEncodeError
  end.
Fixpoint rust_dety (z : dety) : rty :=
  match z with
  | ZInfallible => plain id_Infallible
  | ZChar => plain id_CharDecodeError
  | ZNonZero => plain id_NonZeroDecodeError
  | ZCString => plain id_CStringDecodeError
  | ZUtf8 => plain id_Utf8Error
  | ZLength => plain id_LengthError
  | ZTime => plain id_SystemTimeDecodeError
  | ZColl l i => applied id_CollectionDecodeError [rust_dety l; rust_dety i]
  | ZItem e => applied id_ItemDecodeError [plain id_usize; rust_dety e]
  | ZEnum (Some d) f => applied id_EnumDecodeError [plain (int_name d); rust_dety f]
  | ZEnum None f => applied id_EnumDecodeError [plain id_bool; rust_dety f]
  | ZGeneric => plain id_GenericDecodeError
  end.

(* rustc's search for implementations ends, with this answer: the same for every depth that suffices. *)
Definition Decided {A} (answer : nat -> A) (a : A) : Prop := exists d, forall n, d <= n -> answer n = a.

(* A Result, both parts of which can be encoded, though with different errors. *)
Definition mixed_result (t : ty) : bool :=
  match t with
  | TResult a b => match enc_ety a, enc_ety b with Some x, Some y => negb (ety_eqb x y) | _, _ => false end
  | _ => false
  end.
