(* C82-C84: the front end of the derive macros. *)
From Coq Require Import Lia.
From Verif Require Import Base Types Spec Macro SpecMacro MacroProofs.

(* C82: what `#[derive(Encode)]` and `#[derive(Decode)]` take for the type has the representation, the fields and the discriminants that
   the compiler gives it; *)
Theorem C82_as_the_compiler : forall tr attrs vs t, tr <> TrSizedEncode -> repr_consistent attrs -> derive tr (Item attrs (DEnum vs)) = Some t ->
  exists r vs', t = TEnum r vs' /\ (forall i, RustRepr attrs i <-> i = r) /\ map snd vs' = map v_fields vs /\
                (forall i d, Assigned (map fst vs') i d <-> RustAssigned (map v_disc vs) i d).
Proof. exact C82_lemma. Qed.
Print Assumptions C82_as_the_compiler.

(* so that an enumeration which the compiler accepts is one of those that the other theorems speak of. *)
Theorem C82_enum_ok : forall tr attrs vs r vs', tr <> TrSizedEncode -> rust_enum_ok attrs (map v_disc vs) ->
  derive tr (Item attrs (DEnum vs)) = Some (TEnum r vs') -> enum_ok r vs'.
Proof. exact C82_compiles_lemma. Qed.
Print Assumptions C82_enum_ok.

(* #[repr(u8)] enum { A, B(bool) = 0x45, C = 3, D } with another attribute *)
Example C82_case : derive TrEncode (Item [AOther; ARepr [HInt U8]] (DEnum [Variant None []; Variant (Some (XInt 69)) [TBool]; Variant (Some (XInt 3)) []; Variant None []])) =
    Some (TEnum U8 [(Some 0%Z, []); (Some 69%Z, [TBool]); (Some 3%Z, []); (Some 4%Z, [])]) /\
  repr_consistent [AOther; ARepr [HInt U8]] /\ rust_enum_ok [] (map v_disc (one_variant (XInt 69))).
Proof.
  split; [reflexivity|]. split; [intros i j [Hi|[]] [Hj|[]]; congruence|]. apply one_variant_ok; cbn; lia.
Qed.

(* C83: of the definitions that the compiler accepts, exactly those cannot derive that have something other than an integer in `repr`, or,
   for `Encode` and `Decode`, an explicit discriminant that is not an integer literal. *)
Theorem C83_derives_partial : forall tr attrs vs, rust_enum_ok attrs (map v_disc vs) ->
  (derive tr (Item attrs (DEnum vs)) = None <->
   (exists h, In h (hints attrs) /\ forall i, h <> HInt i) \/
   (tr <> TrSizedEncode /\ exists e, In (Some e) (map v_disc vs) /\ forall z, e <> XInt z)).
Proof. exact C83_lemma. Qed.
Print Assumptions C83_derives_partial.

Theorem C83_derives_refuted : forall tr, tr <> TrSizedEncode ->
  (forall e, expr_ok e -> (-128 <= expr_value e < 127)%Z -> (forall z, e <> XInt z) ->
     rust_enum_ok [] (map v_disc (one_variant e)) /\ derive tr (Item [] (DEnum (one_variant e))) = None) /\
  rust_enum_ok [ARepr [HC; HInt U8]] [None; None] /\ derive tr (Item [ARepr [HC; HInt U8]] (DEnum [Variant None []; Variant None []])) = None /\
  rust_enum_ok [ARepr [HInt U8]; ARepr [HAlign 8]] [None; None] /\
  derive tr (Item [ARepr [HInt U8]; ARepr [HAlign 8]] (DEnum [Variant None []; Variant None []])) = None.
Proof. exact C83_refutation. Qed.
Print Assumptions C83_derives_refuted.

(* -1, b'a' and 1 + 1 *)
Example C83_case : Forall (fun e => expr_ok e /\ (-128 <= expr_value e < 127)%Z /\ forall z, e <> XInt z)
  [XNeg (XInt 1); XByte 97; XAdd (XInt 1) (XInt 1)] /\ rust_enum_ok [] (map v_disc (one_variant (XNeg (XInt 1)))).
Proof. split; [repeat constructor; cbn; try lia; discriminate | apply one_variant_ok; cbn; lia]. Qed.

(* C84: the header of the generated implementation is right exactly if no parameter has a default. *)
Theorem C84_generics_partial : forall params w,
  rust_header_ok params w (derive_header params w) <-> Forall (fun p => g_default p = None) params.
Proof. exact C84_exact_lemma. Qed.
Print Assumptions C84_generics_partial.

(* struct S<T = u8>(T); *)
Theorem C84_generics_refuted : exists params w, ~ rust_header_ok params w (derive_header params w).
Proof.
  exists [GParam GType [x54] [] (Some [x75; x38])], []. intros H. apply C84_exact_lemma in H. inversion H. discriminate.
Qed.
Print Assumptions C84_generics_refuted.

(* struct S<'a, T: Encode, const N: usize> *)
Example C84_case : let ps := [GParam GLifetime [x61] [] None; GParam GType [x54] [x45] None; GParam GConst [x4e] [x75] None] in
  rust_header_ok ps [x57] (derive_header ps [x57]).
Proof. apply C84_exact_lemma. repeat constructor. Qed.
