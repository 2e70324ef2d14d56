(* Vocabulary of the properties about changing type definitions over time. Definitions only. *)
From Verif Require Import Base Types.
Set Implicit Arguments.

(* [Extends t t']: [t'] is [t] after new variants were added behind the existing ones of any enumerations inside it. Nothing else
   is changed. *)
Inductive Extends : ty -> ty -> Prop :=
| X_same t : Extends t t
| X_option t t' : Extends t t' -> Extends (TOption t) (TOption t')
| X_result t t' e e' : Extends t t' -> Extends e e' -> Extends (TResult t e) (TResult t' e')
| X_tuple ts ts' : ExtendsAll ts ts' -> Extends (TTuple ts) (TTuple ts')
| X_struct ts ts' : ExtendsAll ts ts' -> Extends (TStruct ts) (TStruct ts')
| X_array n t t' : Extends t t' -> Extends (TArray t n) (TArray t' n)
| X_slice t t' : Extends t t' -> Extends (TSlice t) (TSlice t')
| X_vec t t' : Extends t t' -> Extends (TVec t) (TVec t')
| X_linked t t' : Extends t t' -> Extends (TLinked t) (TLinked t')
| X_sized_slice n t t' : Extends t t' -> Extends (TSizedSlice t n) (TSizedSlice t' n)
| X_wrap w t t' : Extends t t' -> Extends (TWrap w t) (TWrap w t')
| X_cow t t' : Extends t t' -> Extends (TCow t) (TCow t')
| X_refcell t t' : Extends t t' -> Extends (TRefCell t) (TRefCell t')
| X_lock l t t' : Extends t t' -> Extends (TLock l t) (TLock l t')
| X_range t t' : Extends t t' -> Extends (TRange t) (TRange t')
| X_range_incl t t' : Extends t t' -> Extends (TRangeInclusive t) (TRangeInclusive t')
| X_range_from t t' : Extends t t' -> Extends (TRangeFrom t) (TRangeFrom t')
| X_range_to t t' : Extends t t' -> Extends (TRangeTo t) (TRangeTo t')
| X_range_to_incl t t' : Extends t t' -> Extends (TRangeToInclusive t) (TRangeToInclusive t')
| X_bound t t' : Extends t t' -> Extends (TBound t) (TBound t')
| X_map k k' v v' : Extends k k' -> Extends v v' -> Extends (THashMap k v) (THashMap k' v')
| X_set k k' : Extends k k' -> Extends (THashSet k) (THashSet k')
| X_enum r vs vs' new : ExtendsVariants vs vs' -> Extends (TEnum r vs) (TEnum r (vs' ++ new))
with ExtendsAll : list ty -> list ty -> Prop :=
| XA_nil : ExtendsAll [] []
| XA_cons t t' ts ts' : Extends t t' -> ExtendsAll ts ts' -> ExtendsAll (t :: ts) (t' :: ts')
with ExtendsVariants : list (option Z * list ty) -> list (option Z * list ty) -> Prop :=
| XV_nil : ExtendsVariants [] []
| XV_cons d ts ts' vs vs' : ExtendsAll ts ts' -> ExtendsVariants vs vs' -> ExtendsVariants ((d, ts) :: vs) ((d, ts') :: vs').
