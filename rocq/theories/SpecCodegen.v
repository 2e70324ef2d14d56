(* Vocabulary of the properties about generated code. Definitions only. *)
From Coq Require Import String.
From Verif Require Import Base Types Macro ErrorText RustSyntax.
Local Open Scope list_scope.

(* A definition without its names. *)
Definition strip (def : ndata) : data :=
  match def with
  | NStruct f => DStruct (field_types f)
  | NEnum vs => DEnum (map (fun v => Variant (nv_disc v) (field_types (nv_fields v))) vs)
  | NUnion f => DUnion (field_types f)
  end.

(* The compiler accepts the names: no two fields, and no two variants, have the same. *)
Definition field_names (f : fields) : list ident := match f with FNamed fs => map fst fs | _ => [] end.
Definition names_distinct (def : ndata) : Prop :=
  match def with
  | NStruct f | NUnion f => NoDup (field_names f)
  | NEnum vs => NoDup (map nv_name vs) /\ Forall (fun v => NoDup (field_names (nv_fields v))) vs
  end.

(* The names that generated code gives to its own variables. *)
Definition own_name (x : ident) : Prop :=
  In x (map txt ["self"; "stream"; "this"; "discriminant"; "value"; "total_size"; "current_size"]%string) \/
  exists k, x = txt "value" ++ fmt_nat k.

(* No constant in scope has one of them, and no variant is called `Error`. *)
Definition no_clash (consts : list ident) (def : ndata) : Prop :=
  (forall x, In x consts -> ~ own_name x) /\
  match def with NEnum vs => ~ In (txt "Error") (map nv_name vs) | _ => True end.
