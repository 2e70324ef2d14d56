(* Which types of the model are types of Rust programs, as far as the model's type syntax allows more (C114). *)
From Verif Require Import Base Types Sized SpecDecode.

(* `std` has atomics of `bool` and of the integers of up to 64 bits; the crate has implementations for tuples of one to twelve
   members (oct/src/encode/encode/mod.rs:960-1070, oct/src/decode/decode/mod.rs:826-918). *)
Definition unlike_rust (t : ty) : bool :=
  match t with
  | TTuple ts => (length ts =? 0)%nat || (12 <? length ts)%nat
  | TWrap WAtomic t =>
    match t with
    | TBool => false
    | TInt i => match i with U128 | I128 => true | _ => false end
    | _ => true
    end
  | _ => false
  end.
Definition of_rust (t : ty) : Prop := contains unlike_rust t = false.

(* What `core::mem::size_of` is of the types whose sizes the language fixes. *)
Definition plain_sizes (size_of : ty -> N) : Prop :=
  (forall i, size_of (TInt i) = N.of_nat (iwidth i)) /\ size_of TF32 = 4%N /\ size_of TF64 = 8%N.

(* A constant of 2^64 or more does not compile, and neither does a program that needs it for a part of a type. *)
Definition too_large (size_of : ty -> N) (t : ty) : bool :=
  match max_size size_of t with Some n => (2 ^ 64 <=? n)%N | None => false end.
Definition sizes_fit (size_of : ty -> N) (t : ty) : Prop := contains (too_large size_of) t = false.
