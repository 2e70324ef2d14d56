(* The specification of errors as `dyn Error`. Definitions only. *)
From Verif Require Import Base Types Traits ErrorText.
Set Implicit Arguments.
Local Open Scope Z_scope.

(* A list of the kind whose errors hold a tuple. *)
Definition is_linked (t : ty) : bool := match t with TLinked _ => true | _ => false end.

(* [LastSource e c]: following `source` from [e] ends at [c], which has none. *)
Inductive LastSource : rerr -> rerr -> Prop :=
| LS_here e : source e = None -> LastSource e e
| LS_next e e' c : source e = Some e' -> LastSource e' c -> LastSource e c.

(* What can be the matter with a value, and with octets. *)
Inductive EncodeCause : rerr -> Prop :=
| EC_usize z : z < 0 \/ 65535 < z -> EncodeCause (RUsize z)
| EC_isize z : z < -32768 \/ 32767 < z -> EncodeCause (RIsize z)
| EC_borrow : EncodeCause RBorrow.
Inductive DecodeCause : rerr -> Prop :=
| DC_char c : 55295 < c < 57344 \/ 1114111 < c < 2 ^ 32 -> DecodeCause (RChar c)
| DC_nonzero : DecodeCause RNonZero
| DC_cstring i : DecodeCause (RCString i)
| DC_utf8 b i : DecodeCause (RUtf8 b i)
| DC_length c l : (c < l)%nat -> DecodeCause (RLength c l)
| DC_unassigned d : DecodeCause (RUnassigned d)
| DC_gunassigned d : 0 <= d < 2 ^ 128 -> DecodeCause (RGenUnassigned d).
