(* Generated by tools/rust2v.py from oct/src/primitive_discriminant/mod.rs. Do not edit. *)
From Coq Require Import String.
From Verif Require Import Base SourceNames SourceSyntax.
Local Open Scope list_scope.

(* oct/src/primitive_discriminant/mod.rs:52 *)
Definition src_SealedPrimitiveDiscriminant_u8_to_u128 : fn := Fn id_to_u128 [] [((PVar id_self), (YPath [(id_Self, [])]))] (YPath [(id_u128, [])])
    (ECast (EPath [(id_self, [])]) (YPath [(id_u128, [])])).

(* oct/src/primitive_discriminant/mod.rs:49 *)
Definition src_SealedPrimitiveDiscriminant_u8 : impl :=
  Impl [] [] [] (Some [(id_oct, []); (id_SealedPrimitiveDiscriminant, [])]) (YPath [(id_u8, [])])
    [] [] [src_SealedPrimitiveDiscriminant_u8_to_u128].

(* oct/src/primitive_discriminant/mod.rs:57 *)
Definition src_PrimitiveDiscriminant_u8 : impl :=
  Impl [] [] [] (Some [(id_oct, []); (id_PrimitiveDiscriminant, [])]) (YPath [(id_u8, [])])
    [] [] [].

(* oct/src/primitive_discriminant/mod.rs:52 *)
Definition src_SealedPrimitiveDiscriminant_i8_to_u128 : fn := Fn id_to_u128 [] [((PVar id_self), (YPath [(id_Self, [])]))] (YPath [(id_u128, [])])
    (ECast (EPath [(id_self, [])]) (YPath [(id_u128, [])])).

(* oct/src/primitive_discriminant/mod.rs:49 *)
Definition src_SealedPrimitiveDiscriminant_i8 : impl :=
  Impl [] [] [] (Some [(id_oct, []); (id_SealedPrimitiveDiscriminant, [])]) (YPath [(id_i8, [])])
    [] [] [src_SealedPrimitiveDiscriminant_i8_to_u128].

(* oct/src/primitive_discriminant/mod.rs:57 *)
Definition src_PrimitiveDiscriminant_i8 : impl :=
  Impl [] [] [] (Some [(id_oct, []); (id_PrimitiveDiscriminant, [])]) (YPath [(id_i8, [])])
    [] [] [].

(* oct/src/primitive_discriminant/mod.rs:52 *)
Definition src_SealedPrimitiveDiscriminant_u16_to_u128 : fn := Fn id_to_u128 [] [((PVar id_self), (YPath [(id_Self, [])]))] (YPath [(id_u128, [])])
    (ECast (EPath [(id_self, [])]) (YPath [(id_u128, [])])).

(* oct/src/primitive_discriminant/mod.rs:49 *)
Definition src_SealedPrimitiveDiscriminant_u16 : impl :=
  Impl [] [] [] (Some [(id_oct, []); (id_SealedPrimitiveDiscriminant, [])]) (YPath [(id_u16, [])])
    [] [] [src_SealedPrimitiveDiscriminant_u16_to_u128].

(* oct/src/primitive_discriminant/mod.rs:57 *)
Definition src_PrimitiveDiscriminant_u16 : impl :=
  Impl [] [] [] (Some [(id_oct, []); (id_PrimitiveDiscriminant, [])]) (YPath [(id_u16, [])])
    [] [] [].

(* oct/src/primitive_discriminant/mod.rs:52 *)
Definition src_SealedPrimitiveDiscriminant_i16_to_u128 : fn := Fn id_to_u128 [] [((PVar id_self), (YPath [(id_Self, [])]))] (YPath [(id_u128, [])])
    (ECast (EPath [(id_self, [])]) (YPath [(id_u128, [])])).

(* oct/src/primitive_discriminant/mod.rs:49 *)
Definition src_SealedPrimitiveDiscriminant_i16 : impl :=
  Impl [] [] [] (Some [(id_oct, []); (id_SealedPrimitiveDiscriminant, [])]) (YPath [(id_i16, [])])
    [] [] [src_SealedPrimitiveDiscriminant_i16_to_u128].

(* oct/src/primitive_discriminant/mod.rs:57 *)
Definition src_PrimitiveDiscriminant_i16 : impl :=
  Impl [] [] [] (Some [(id_oct, []); (id_PrimitiveDiscriminant, [])]) (YPath [(id_i16, [])])
    [] [] [].

(* oct/src/primitive_discriminant/mod.rs:52 *)
Definition src_SealedPrimitiveDiscriminant_u32_to_u128 : fn := Fn id_to_u128 [] [((PVar id_self), (YPath [(id_Self, [])]))] (YPath [(id_u128, [])])
    (ECast (EPath [(id_self, [])]) (YPath [(id_u128, [])])).

(* oct/src/primitive_discriminant/mod.rs:49 *)
Definition src_SealedPrimitiveDiscriminant_u32 : impl :=
  Impl [] [] [] (Some [(id_oct, []); (id_SealedPrimitiveDiscriminant, [])]) (YPath [(id_u32, [])])
    [] [] [src_SealedPrimitiveDiscriminant_u32_to_u128].

(* oct/src/primitive_discriminant/mod.rs:57 *)
Definition src_PrimitiveDiscriminant_u32 : impl :=
  Impl [] [] [] (Some [(id_oct, []); (id_PrimitiveDiscriminant, [])]) (YPath [(id_u32, [])])
    [] [] [].

(* oct/src/primitive_discriminant/mod.rs:52 *)
Definition src_SealedPrimitiveDiscriminant_i32_to_u128 : fn := Fn id_to_u128 [] [((PVar id_self), (YPath [(id_Self, [])]))] (YPath [(id_u128, [])])
    (ECast (EPath [(id_self, [])]) (YPath [(id_u128, [])])).

(* oct/src/primitive_discriminant/mod.rs:49 *)
Definition src_SealedPrimitiveDiscriminant_i32 : impl :=
  Impl [] [] [] (Some [(id_oct, []); (id_SealedPrimitiveDiscriminant, [])]) (YPath [(id_i32, [])])
    [] [] [src_SealedPrimitiveDiscriminant_i32_to_u128].

(* oct/src/primitive_discriminant/mod.rs:57 *)
Definition src_PrimitiveDiscriminant_i32 : impl :=
  Impl [] [] [] (Some [(id_oct, []); (id_PrimitiveDiscriminant, [])]) (YPath [(id_i32, [])])
    [] [] [].

(* oct/src/primitive_discriminant/mod.rs:52 *)
Definition src_SealedPrimitiveDiscriminant_u64_to_u128 : fn := Fn id_to_u128 [] [((PVar id_self), (YPath [(id_Self, [])]))] (YPath [(id_u128, [])])
    (ECast (EPath [(id_self, [])]) (YPath [(id_u128, [])])).

(* oct/src/primitive_discriminant/mod.rs:49 *)
Definition src_SealedPrimitiveDiscriminant_u64 : impl :=
  Impl [] [] [] (Some [(id_oct, []); (id_SealedPrimitiveDiscriminant, [])]) (YPath [(id_u64, [])])
    [] [] [src_SealedPrimitiveDiscriminant_u64_to_u128].

(* oct/src/primitive_discriminant/mod.rs:57 *)
Definition src_PrimitiveDiscriminant_u64 : impl :=
  Impl [] [] [] (Some [(id_oct, []); (id_PrimitiveDiscriminant, [])]) (YPath [(id_u64, [])])
    [] [] [].

(* oct/src/primitive_discriminant/mod.rs:52 *)
Definition src_SealedPrimitiveDiscriminant_i64_to_u128 : fn := Fn id_to_u128 [] [((PVar id_self), (YPath [(id_Self, [])]))] (YPath [(id_u128, [])])
    (ECast (EPath [(id_self, [])]) (YPath [(id_u128, [])])).

(* oct/src/primitive_discriminant/mod.rs:49 *)
Definition src_SealedPrimitiveDiscriminant_i64 : impl :=
  Impl [] [] [] (Some [(id_oct, []); (id_SealedPrimitiveDiscriminant, [])]) (YPath [(id_i64, [])])
    [] [] [src_SealedPrimitiveDiscriminant_i64_to_u128].

(* oct/src/primitive_discriminant/mod.rs:57 *)
Definition src_PrimitiveDiscriminant_i64 : impl :=
  Impl [] [] [] (Some [(id_oct, []); (id_PrimitiveDiscriminant, [])]) (YPath [(id_i64, [])])
    [] [] [].

(* oct/src/primitive_discriminant/mod.rs:52 *)
Definition src_SealedPrimitiveDiscriminant_u128_to_u128 : fn := Fn id_to_u128 [] [((PVar id_self), (YPath [(id_Self, [])]))] (YPath [(id_u128, [])])
    (ECast (EPath [(id_self, [])]) (YPath [(id_u128, [])])).

(* oct/src/primitive_discriminant/mod.rs:49 *)
Definition src_SealedPrimitiveDiscriminant_u128 : impl :=
  Impl [] [] [] (Some [(id_oct, []); (id_SealedPrimitiveDiscriminant, [])]) (YPath [(id_u128, [])])
    [] [] [src_SealedPrimitiveDiscriminant_u128_to_u128].

(* oct/src/primitive_discriminant/mod.rs:57 *)
Definition src_PrimitiveDiscriminant_u128 : impl :=
  Impl [] [] [] (Some [(id_oct, []); (id_PrimitiveDiscriminant, [])]) (YPath [(id_u128, [])])
    [] [] [].

(* oct/src/primitive_discriminant/mod.rs:52 *)
Definition src_SealedPrimitiveDiscriminant_i128_to_u128 : fn := Fn id_to_u128 [] [((PVar id_self), (YPath [(id_Self, [])]))] (YPath [(id_u128, [])])
    (ECast (EPath [(id_self, [])]) (YPath [(id_u128, [])])).

(* oct/src/primitive_discriminant/mod.rs:49 *)
Definition src_SealedPrimitiveDiscriminant_i128 : impl :=
  Impl [] [] [] (Some [(id_oct, []); (id_SealedPrimitiveDiscriminant, [])]) (YPath [(id_i128, [])])
    [] [] [src_SealedPrimitiveDiscriminant_i128_to_u128].

(* oct/src/primitive_discriminant/mod.rs:57 *)
Definition src_PrimitiveDiscriminant_i128 : impl :=
  Impl [] [] [] (Some [(id_oct, []); (id_PrimitiveDiscriminant, [])]) (YPath [(id_i128, [])])
    [] [] [].

(* oct/src/primitive_discriminant/mod.rs:52 *)
Definition src_SealedPrimitiveDiscriminant_usize_to_u128 : fn := Fn id_to_u128 [] [((PVar id_self), (YPath [(id_Self, [])]))] (YPath [(id_u128, [])])
    (ECast (EPath [(id_self, [])]) (YPath [(id_u128, [])])).

(* oct/src/primitive_discriminant/mod.rs:49 *)
Definition src_SealedPrimitiveDiscriminant_usize : impl :=
  Impl [] [] [] (Some [(id_oct, []); (id_SealedPrimitiveDiscriminant, [])]) (YPath [(id_usize, [])])
    [] [] [src_SealedPrimitiveDiscriminant_usize_to_u128].

(* oct/src/primitive_discriminant/mod.rs:57 *)
Definition src_PrimitiveDiscriminant_usize : impl :=
  Impl [] [] [] (Some [(id_oct, []); (id_PrimitiveDiscriminant, [])]) (YPath [(id_usize, [])])
    [] [] [].

(* oct/src/primitive_discriminant/mod.rs:52 *)
Definition src_SealedPrimitiveDiscriminant_isize_to_u128 : fn := Fn id_to_u128 [] [((PVar id_self), (YPath [(id_Self, [])]))] (YPath [(id_u128, [])])
    (ECast (EPath [(id_self, [])]) (YPath [(id_u128, [])])).

(* oct/src/primitive_discriminant/mod.rs:49 *)
Definition src_SealedPrimitiveDiscriminant_isize : impl :=
  Impl [] [] [] (Some [(id_oct, []); (id_SealedPrimitiveDiscriminant, [])]) (YPath [(id_isize, [])])
    [] [] [src_SealedPrimitiveDiscriminant_isize_to_u128].

(* oct/src/primitive_discriminant/mod.rs:57 *)
Definition src_PrimitiveDiscriminant_isize : impl :=
  Impl [] [] [] (Some [(id_oct, []); (id_PrimitiveDiscriminant, [])]) (YPath [(id_isize, [])])
    [] [] [].

(* all of them, in the order of the files *)
Definition src_discriminant_impls : list impl := [src_SealedPrimitiveDiscriminant_u8; src_PrimitiveDiscriminant_u8; src_SealedPrimitiveDiscriminant_i8; src_PrimitiveDiscriminant_i8; src_SealedPrimitiveDiscriminant_u16; src_PrimitiveDiscriminant_u16; src_SealedPrimitiveDiscriminant_i16; src_PrimitiveDiscriminant_i16; src_SealedPrimitiveDiscriminant_u32; src_PrimitiveDiscriminant_u32; src_SealedPrimitiveDiscriminant_i32; src_PrimitiveDiscriminant_i32; src_SealedPrimitiveDiscriminant_u64; src_PrimitiveDiscriminant_u64; src_SealedPrimitiveDiscriminant_i64; src_PrimitiveDiscriminant_i64; src_SealedPrimitiveDiscriminant_u128; src_PrimitiveDiscriminant_u128; src_SealedPrimitiveDiscriminant_i128; src_PrimitiveDiscriminant_i128; src_SealedPrimitiveDiscriminant_usize; src_PrimitiveDiscriminant_usize; src_SealedPrimitiveDiscriminant_isize; src_PrimitiveDiscriminant_isize].
