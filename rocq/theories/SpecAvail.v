(* Vocabulary of C110 and C111: what a message mentions, and which containers hold one type. Definitions only. *)
From Verif Require Import Base Utf8 Types Traits.
Set Implicit Arguments.

(* The text [s] mentions the word [w]. *)
Definition Mentions (w s : list byte) : Prop := exists a b, s = a ++ w ++ b.

(* The generic types with one parameter that can be encoded, *)
Inductive Holder : (ty -> ty) -> Prop :=
| Ho_option : Holder TOption
| Ho_array n : Holder (fun t => TArray t n)
| Ho_slice : Holder TSlice
| Ho_vec : Holder TVec
| Ho_linked : Holder TLinked
| Ho_sized n : Holder (fun t => TSizedSlice t n)
| Ho_set : Holder THashSet
| Ho_wrap w : Holder (TWrap w)
| Ho_cow : Holder TCow
| Ho_refcell : Holder TRefCell
| Ho_lock l : Holder (TLock l)
| Ho_range : Holder TRange
| Ho_range_from : Holder TRangeFrom
| Ho_range_inclusive : Holder TRangeInclusive
| Ho_range_to : Holder TRangeTo
| Ho_range_to_inclusive : Holder TRangeToInclusive
| Ho_bound : Holder TBound.
(* and those that can be decoded: not those that borrow, nor what has no size. *)
Inductive OwningHolder : (ty -> ty) -> Prop :=
| Ow_option : OwningHolder TOption
| Ow_array n : OwningHolder (fun t => TArray t n)
| Ow_vec : OwningHolder TVec
| Ow_linked : OwningHolder TLinked
| Ow_sized n : OwningHolder (fun t => TSizedSlice t n)
| Ow_set : OwningHolder THashSet
| Ow_wrap w : ~ In w [WRef; WRefMut; WLazyCell; WLazyLock] -> OwningHolder (TWrap w)
| Ow_refcell : OwningHolder TRefCell
| Ow_lock l : OwningHolder (TLock l)
| Ow_range : OwningHolder TRange
| Ow_range_from : OwningHolder TRangeFrom
| Ow_range_inclusive : OwningHolder TRangeInclusive
| Ow_range_to : OwningHolder TRangeTo
| Ow_range_to_inclusive : OwningHolder TRangeToInclusive
| Ow_bound : OwningHolder TBound.

(* `X: Into<Y>` for errors of encoding: the conversions that the library and core offer. *)
Inductive Converts : ety -> ety -> Prop :=
| Cv_same y : Converts y y
| Cv_infallible : Converts YInfallible YGeneric
| Cv_usize : Converts YUsize YGeneric
| Cv_isize : Converts YIsize YGeneric
| Cv_coll y l i : y = YGeneric \/ y = YInfallible -> Converts l y -> Converts i y -> Converts (YColl l i) y
| Cv_item y e : y = YGeneric \/ y = YInfallible -> Converts e y -> Converts (YItem e) y
| Cv_enum d f : Converts f YGeneric -> Converts (YEnum d f) YGeneric
| Cv_never d f : d <> Usize -> d <> Isize -> Converts f YInfallible -> Converts (YEnum d f) YInfallible.
