(* What the Rust reference says about definitions that the derive macros read. Definitions only. *)
From Verif Require Import Base Types Spec Macro Sized.
Set Implicit Arguments.
Local Open Scope Z_scope.

(* The value of a constant expression. *)
Fixpoint expr_value (e : expr) : Z :=
  match e with
  | XInt z | XByte z | XConst z => z
  | XNeg e => - expr_value e
  | XParen e => expr_value e
  | XAdd a b => expr_value a + expr_value b
  end.
(* literals are not negative, and byte literals are octets *)
Fixpoint expr_ok (e : expr) : Prop :=
  match e with
  | XInt z => 0 <= z
  | XByte z => 0 <= z < 256
  | XNeg e | XParen e => expr_ok e
  | XAdd a b => expr_ok a /\ expr_ok b
  | XConst _ => True
  end.
Definition exprs_ok (vs : list (option expr)) : Prop := Forall (fun v => match v with Some e => expr_ok e | None => True end) vs.

(* The discriminants of the variants: [Assigned] of Spec.v, with the expressions replaced by their values. *)
Definition RustAssigned (vs : list (option expr)) : nat -> Z -> Prop := Assigned (map (option_map expr_value) vs).

(* The hints of all `repr` attributes. *)
Definition hints (attrs : list attr) : list hint := flat_map (fun a => match a with ARepr hs => hs | AOther => [] end) attrs.
(* The type of the discriminants: the integer named in `repr`, or `isize`. Two different ones do not compile. *)
Inductive RustRepr (attrs : list attr) : ity -> Prop :=
| RR_named i : In (HInt i) (hints attrs) -> RustRepr attrs i
| RR_default : (forall i, ~ In (HInt i) (hints attrs)) -> RustRepr attrs Isize.
Definition repr_consistent (attrs : list attr) : Prop := forall i j, In (HInt i) (hints attrs) -> In (HInt j) (hints attrs) -> i = j.

(* The compiler accepts the enumeration: one representation; every variant has a discriminant in its range; and no two have the same. *)
Definition rust_enum_ok (attrs : list attr) (vs : list (option expr)) : Prop :=
  exprs_ok vs /\ repr_consistent attrs /\
  forall r, RustRepr attrs r ->
    (forall i d, RustAssigned vs i d -> in_ity r d) /\
    (forall i j d, RustAssigned vs i d -> RustAssigned vs j d -> i = j).

(* The header of an implementation that the compiler accepts for the type with the given parameters and `where` clause: no defaults; the arguments
   are the parameters, in order and of their kinds; and the bounds and the `where` clause of the definition, without which the type could not be
   named, are there. *)
Definition rust_header_ok (params : list gparam) (where_clause : list byte) (h : header) : Prop :=
  h_where h = where_clause /\
  Forall (fun p => g_default p = None) (h_params h) /\
  Forall2 (fun p a => fst a = g_kind p /\ snd a = g_name p) params (h_args h) /\
  Forall2 (fun p q => g_kind q = g_kind p /\ g_name q = g_name p /\ g_bounds q = g_bounds p) params (h_params h).
