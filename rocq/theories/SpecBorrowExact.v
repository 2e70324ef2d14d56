(* Which owned types have room for every value of the type they borrow as. Definitions only. *)
From Verif Require Import Base Types SpecReach.

(* A value of [b] that can be encoded has at most 65535 items, or octets of text; the type [o] has room for all that there are. *)
Definition roomy (o b : ty) : Prop :=
  match o, b with
  | TSizedSlice t n, TSlice _ => writable t = false \/ (65535 <= Z.of_nat n)%Z
  | TSizedStr n, TStr => (65535 <= Z.of_nat n)%Z
  | _, _ => True
  end.
