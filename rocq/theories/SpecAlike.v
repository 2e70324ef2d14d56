(* Octets that differ only in what decoders do not tell apart. Definitions only. *)
From Verif Require Import Base Types Spec.
Set Implicit Arguments.
Local Open Scope Z_scope.

(* [Alike bs bs']: the same octets, but that signs other than zero may differ, and that twelve octets of seconds and nanoseconds
   may stand for the same time in another way. *)
Inductive Alike : list byte -> list byte -> Prop :=
| Al_nil : Alike [] []
| Al_same b x y : Alike x y -> Alike (b :: x) (b :: y)
| Al_sign b b' x y : b <> x00 -> b' <> x00 -> Alike x y -> Alike (b :: x) (b' :: y)
| Al_time s n s' n' sb nb sb' nb' x y :
    le_repr 8 s sb -> le_repr 4 n nb -> le_repr 8 s' sb' -> le_repr 4 n' nb' ->
    0 <= s < 2 ^ 64 -> 0 <= n < 2 ^ 32 -> 0 <= s' < 2 ^ 64 -> 0 <= n' < 2 ^ 32 ->
    1000000000 * s + n = 1000000000 * s' + n' -> Alike x y -> Alike (sb ++ nb ++ x) (sb' ++ nb' ++ y).

(* Collections that drop items they have read. *)
Definition drops_items (t : ty) : bool := match t with TSizedSlice _ _ | THashMap _ _ | THashSet _ => true | _ => false end.
