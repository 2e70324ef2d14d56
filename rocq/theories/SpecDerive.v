(* Vocabulary of the properties about derived implementations and errors. Definitions only. *)
From Verif Require Import Base Streams Utf8 Types Traits Encode Decode Spec SpecCalls SpecDecode.
Set Implicit Arguments.

(* [bss] are the encodings of the fields, in order. *)
Inductive FieldBytes (checks : bool) : list ty -> list val -> list (list byte) -> Prop :=
| FB_nil : FieldBytes checks [] [] []
| FB_cons t v b ts vs bs : Appends (encode checks t v) b (Ok tt) -> FieldBytes checks ts vs bs ->
    FieldBytes checks (t :: ts) (v :: vs) (b :: bs).

(* The first field that fails has number [k] and error [e]; [bs] is what was written before and by it. *)
Definition FieldFailure (checks : bool) (ts : list ty) (vs : list val) (k : nat) (e : eerr) (bs : list byte) : Prop :=
  exists t v bss b, nth_error ts k = Some t /\ nth_error vs k = Some v /\
    FieldBytes checks (firstn k ts) (firstn k vs) bss /\ Appends (encode checks t v) b (Err e) /\ bs = concat bss ++ b.

(* [EWithin e c]: the error [e] is the cause [c] inside any number of collections, items and enumerations. *)
Inductive EWithin (c : eerr) : eerr -> Prop :=
| EW_here : EWithin c c
| EW_len e : EWithin c e -> EWithin c (ELen e)
| EW_item i e : EWithin c e -> EWithin c (EItem i e)
| EW_disc e : EWithin c e -> EWithin c (EDisc e)
| EW_field e : EWithin c e -> EWithin c (EField e).
Inductive DWithin (c : derr) : derr -> Prop :=
| DW_here : DWithin c c
| DW_len e : DWithin c e -> DWithin c (DLen e)
| DW_item i e : DWithin c e -> DWithin c (DItem i e)
| DW_bad e : DWithin c e -> DWithin c (DBad e)
| DW_field e : DWithin c e -> DWithin c (DField e).

(* The variant of GenericEncodeError for a cause. *)
Inductive ERoot : eerr -> eerr -> Prop :=
| ER_usize z : ERoot (EUsize z) (EGUsize z)
| ER_isize z : ERoot (EIsize z) (EGIsize z)
| ER_gborrow : ERoot EGBorrow EGBorrow
| ER_gusize z : ERoot (EGUsize z) (EGUsize z)
| ER_gisize z : ERoot (EGIsize z) (EGIsize z).
(* The variant of GenericDecodeError for a cause. A discriminant is given as a u128, which is its value if that is not
   negative. *)
Inductive DRoot : derr -> derr -> Prop :=
| DR_nonzero : DRoot DNonZero DGNonZero
| DR_cstring i : DRoot (DCString i) (DGNull i)
| DR_utf8 b i : DRoot (DUtf8 b i) (DGUtf8 b i)
| DR_length c l : DRoot (DLength c l) (DGSmall c l)
| DR_time t : DRoot (DTime t) (DGTime t)
| DR_unassigned r d : (0 <= d)%Z -> in_ity r d -> DRoot (DUnassigned r d) (DGUnassigned d)
| DR_gnonzero : DRoot DGNonZero DGNonZero
| DR_gnull i : DRoot (DGNull i) (DGNull i)
| DR_gutf8 b i : DRoot (DGUtf8 b i) (DGUtf8 b i)
| DR_gsmall c l : DRoot (DGSmall c l) (DGSmall c l)
| DR_gtime t : DRoot (DGTime t) (DGTime t)
| DR_gunassigned d : DRoot (DGUnassigned d) (DGUnassigned d).

(* The bits of a number of type [i], padded with zeros on the left. *)
Definition zero_extended (i : ity) (z : Z) : Z := (z mod 2 ^ (8 * Z.of_nat (iwidth i)))%Z.

(* Error values of an error type. *)
Inductive EOf : ety -> eerr -> Prop :=
| EO_usize z : EOf YUsize (EUsize z)
| EO_isize z : EOf YIsize (EIsize z)
| EO_len l i e : EOf l e -> EOf (YColl l i) (ELen e)
| EO_item l y k e : EOf y e -> EOf (YColl l (YItem y)) (EItem k e)
| EO_tuple l y k e : EOf y e -> EOf (YColl l (YTuple y)) (EItemTuple k e)
| EO_disc r f e : EOf (int_ety r) e -> EOf (YEnum r f) (EDisc e)
| EO_field r f e : EOf f e -> EOf (YEnum r f) (EField e)
| EO_borrow y : EOf (YRefCell y) EBadBorrow
| EO_value y e : EOf y e -> EOf (YRefCell y) (EBadValue e)
| EO_gborrow : EOf YGeneric EGBorrow
| EO_gusize z : EOf YGeneric (EGUsize z)
| EO_gisize z : EOf YGeneric (EGIsize z).
Inductive DOf : dety -> derr -> Prop :=
| DO_char c : DOf ZChar (DChar c)
| DO_nonzero : DOf ZNonZero DNonZero
| DO_cstring i : DOf ZCString (DCString i)
| DO_utf8 b i : DOf ZUtf8 (DUtf8 b i)
| DO_length c l : DOf ZLength (DLength c l)
| DO_time t : DOf ZTime (DTime t)
| DO_len l i e : DOf l e -> DOf (ZColl l i) (DLen e)
| DO_item l y k e : DOf y e -> DOf (ZColl l (ZItem y)) (DItem k e)
| DO_bad l y e : DOf y e -> DOf (ZColl l y) (DBad e)
| DO_unassigned r f d : DOf (ZEnum (Some r) f) (DUnassigned r d)
| DO_field d f e : DOf f e -> DOf (ZEnum d f) (DField e)
| DO_gutf8 b i : DOf ZGeneric (DGUtf8 b i)
| DO_gnull i : DOf ZGeneric (DGNull i)
| DO_gnonzero : DOf ZGeneric DGNonZero
| DO_gsmall c l : DOf ZGeneric (DGSmall c l)
| DO_gunassigned d : DOf ZGeneric (DGUnassigned d)
| DO_gtime t : DOf ZGeneric (DGTime t).

(* Types whose encoding (decoding) error has no conversion to the generic error. *)
Definition enc_opaque (t : ty) : bool := match t with TRefCell _ | TLinked _ => true | _ => false end.
Definition dec_opaque (t : ty) : bool := match t with TChar | TResult _ _ => true | _ => false end.
