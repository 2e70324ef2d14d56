(* The front end of the derive macros: oct-macros/src. What a definition looks like to the macro, and what the macro makes of it before
   any code is generated. The generated code is part of Encode.v, Decode.v and Sized.v. Definitions only. *)
From Verif Require Import Base Types.
Set Implicit Arguments.
Local Open Scope Z_scope.

(* ---- Definitions as `syn` presents them *)

(* The expression of an explicit discriminant, as far as the macro and the compiler look at it. *)
(* syn: `Expr`, matched at oct-macros/src/discriminants/mod.rs:49-64 *)
Inductive expr :=
| XInt (z : Z)              (* integer literal, any base, with or without suffix: `Expr::Lit(Lit::Int)`, never negative *)
| XByte (z : Z)             (* byte literal such as b'a': `Expr::Lit(Lit::Byte)` *)
| XNeg (e : expr)           (* `-e`: `Expr::Unary` *)
| XParen (e : expr)         (* `(e)`: `Expr::Paren`, and what a declarative macro passes on: `Expr::Group` *)
| XAdd (a b : expr)         (* `a + b`: `Expr::Binary` *)
| XConst (z : Z).           (* the path of a constant whose value is z: `Expr::Path` *)

(* What may stand in `#[repr(..)]`. *)
(* syn: the nested meta items read at oct-macros/src/repr/mod.rs:63-81 *)
Inductive hint := HInt (i : ity) | HC | HTransparent | HPacked | HAlign (n : Z).
(* syn: `Attribute`, oct-macros/src/repr/mod.rs:58-63 *)
Inductive attr := ARepr (hs : list hint) | AOther.

(* syn: `Variant`, oct-macros/src/discriminants/mod.rs:46-49 *)
Record variant := Variant { v_disc : option expr; v_fields : list ty }.

(* syn: `Data`, matched at oct-macros/src/impl_derive_macro.rs:54-64 *)
Inductive data := DStruct (fields : list ty) | DEnum (variants : list variant) | DUnion (fields : list ty).
(* syn: `DeriveInput`, oct-macros/src/impl_derive_macro.rs:35-52 *)
Record item := Item { it_attrs : list attr; it_data : data }.

(* ---- Discriminants::next, oct-macros/src/discriminants/mod.rs:46-77 *)

(* An explicit discriminant (49-64): an integer literal that `u128` can hold; anything else panics (`None`). *)
Definition read_expr (e : expr) : option Z :=
  match e with
  | XInt z => if z <? 2 ^ 128 then Some z else None    (* `.parse().or_else(..).unwrap()`; digits that do not fit u128 do not fit i128 *)
  | _ => None
  end.

(* The whole iteration. [prev] is the field `prev`. `None`: the macro panics. *)
(* oct-macros/src/discriminants/mod.rs:46-77 *)
Fixpoint read_from (prev : option Z) (vs : list (option expr)) : option (list Z) :=
  match vs with
  | [] => Some []
  | v :: vs' =>
    match (match v with Some e => option_map Some (read_expr e) | None => Some None end) with
    | None => None
    | Some x =>
      match next_discriminant prev x with
      | None => None
      | Some d => option_map (cons d) (read_from (Some d) vs')
      end
    end
  end.
(* oct-macros/src/discriminants/mod.rs:34-39 `new` *)
Definition read_discriminants (vs : list (option expr)) : option (list Z) := read_from None vs.

(* ---- Repr::get, oct-macros/src/repr/mod.rs:58-88 *)

(* One `repr` attribute (63-81): each hint in turn; an integer replaces what was found so far, anything else panics. *)
Fixpoint repr_hints (this : option ity) (hs : list hint) : option (option ity) :=
  match hs with
  | [] => Some this
  | HInt i :: hs' => repr_hints (Some i) hs'
  | _ :: _ => None
  end.
(* all attributes (59-87) *)
Fixpoint repr_attrs (this : option ity) (attrs : list attr) : option (option ity) :=
  match attrs with
  | [] => Some this
  | AOther :: l => repr_attrs this l
  | ARepr hs :: l =>
    match repr_hints this hs with
    | None => None
    | Some this => repr_attrs this l
    end
  end.
(* oct-macros/src/repr/mod.rs:58-88 *)
Definition repr_get (attrs : list attr) : option (option ity) := repr_attrs None attrs.
(* `Repr::get(..).unwrap_or_default()`, oct-macros/src/impl_derive_macro.rs:58 with repr/mod.rs:141-146 *)
Definition repr_of (attrs : list attr) : option ity :=
  option_map (fun x => match x with Some i => i | None => Isize end) (repr_get attrs).

(* ---- impl_derive_macro, oct-macros/src/impl_derive_macro.rs:35-80 *)

(* oct-macros/src/lib.rs:49-100: the three macros *)
Inductive trait := TrEncode | TrDecode | TrSizedEncode.

(* The type as the generated implementation of the trait treats it, or `None` when the macro panics. `SizedEncode` does not look at the
   discriminants (impls/sized_encode_enum.rs:30-59); for it the discriminants of the result have no meaning and are left out. *)
Definition derive (tr : trait) (it : item) : option ty :=
  match it_data it with
  | DUnion _ => None                                                                 (* 63 *)
  | DStruct fields => Some (TStruct fields)                                          (* 55 *)
  | DEnum vs =>                                                                      (* 57-61 *)
    match repr_of (it_attrs it) with
    | None => None
    | Some r =>
      match tr with
      | TrSizedEncode => Some (TEnum r (map (fun v => (None, v_fields v)) vs))
      | TrEncode | TrDecode =>                                       (* impls/encode_enum.rs:30, impls/decode_enum.rs:31 *)
        match read_discriminants (map v_disc vs) with
        | None => None
        | Some ds => Some (TEnum r (combine (map Some ds) (map v_fields vs)))
        end
      end
    end
  end.

(* ---- The header of the implementation, oct-macros/src/impl_derive_macro.rs:66-77 and generic_name/mod.rs:37-93 *)

(* syn: `GenericParam`, matched at oct-macros/src/generic_name/mod.rs:37-93 *)
Inductive gkind := GLifetime | GType | GConst.
(* a generic parameter: its kind, its name, its bounds (or the type of a constant), and its default, if any *)
(* syn: `GenericParam`, oct-macros/src/impl_derive_macro.rs:66-77 *)
Record gparam := GParam { g_kind : gkind; g_name : list byte; g_bounds : list byte; g_default : option (list byte) }.

(* oct-macros/src/impl_derive_macro.rs:66-77 *)
Record header := Header { h_params : list gparam; h_args : list (gkind * list byte); h_where : list byte }.
(* `impl<#generic_params> Trait for Self<#generic_names> #generic_where`: the parameters are copied as they are, defaults included *)
(* oct-macros/src/impl_derive_macro.rs:66-77 *)
Definition derive_header (params : list gparam) (where_clause : list byte) : header :=
  Header params (map (fun p => (g_kind p, g_name p)) params) where_clause.
