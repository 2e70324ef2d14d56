(* Every `impl SizedEncode`: oct/src/encode/sized_encode/mod.rs, the containers' code.rs, and
   `#[derive(SizedEncode)]`. Definitions only. *)
From Verif Require Import Base Utf8 Types Traits.
Set Implicit Arguments.

(* `core::mem::size_of`, which the implementation for Result consults. It is a property of the compiler and target, so
   it is left open: every statement about [max_size] takes it as an argument. *)
Definition size_of_fn := ty -> N.

Local Open Scope N_scope.

(* sum of the sizes, if all are present *)
(* tuples, sized_encode/mod.rs:291-302; oct-macros/src/impls/sized_encode_struct.rs:33-35 *)
Fixpoint sum_opt (l : list (option N)) : option N :=
  match l with
  | [] => Some 0
  | Some n :: l' => option_map (N.add n) (sum_opt l')
  | None :: _ => None
  end.

Definition int_size (i : ity) : N := match i with Usize | Isize => 2 | _ => N.of_nat (iwidth i) end.  (* sized_encode/mod.rs:164, 275-288, 309 *)

(* the larger of the variants, oct-macros/src/impls/sized_encode_enum.rs:44-58: a fold of `max` starting from zero *)
Fixpoint max_opt (l : list (option N)) : option N :=
  match l with
  | [] => Some 0
  | Some n :: l' => option_map (N.max n) (max_opt l')
  | None :: _ => None
  end.

(* `<T as SizedEncode>::MAX_ENCODED_SIZE`, or `None` when T does not implement SizedEncode. Sizes are unbounded numbers:
   in Rust an overflowing constant does not compile. *)
Fixpoint max_size (size_of : size_of_fn) (t : ty) : option N :=
  match t with
  | TInt i | TNonZero i => Some (int_size i)
  | TF32 => Some 4
  | TF64 => Some 8
  | TBool => Some 1
  | TChar => Some 4
  | TUnit | TPhantomData | TRangeFull | TInfallible => Some 0
  | TOption t | TBound t => option_map (N.add 1) (max_size size_of t)   (* sized_encode/mod.rs:184-188, 114-118 *)
  | TResult t e =>                                                      (* sized_encode/mod.rs:228-236: `size_of`, not the encoded sizes *)
    match max_size size_of t, max_size size_of e with
    | Some _, Some _ => Some (1 + if size_of e <? size_of t then size_of t else size_of e)
    | _, _ => None
    end
  | TTuple ts | TStruct ts => sum_opt (map (max_size size_of) ts)       (* sized_encode/mod.rs:291-302; oct-macros/src/impls/sized_encode_struct.rs:33-35 *)
  | TArray t n => option_map (fun s => s * N.of_nat n) (max_size size_of t)        (* sized_encode/mod.rs:100-102 *)
  | TSizedSlice t n => option_map (fun s => s * N.of_nat n) (max_size size_of t)   (* oct/src/sized_slice/code.rs:61-63 *)
  | TSizedStr n => Some (2 + 1 * N.of_nat n)                            (* oct/src/sized_str/code.rs:58-62 *)
  | TWrap _ t | TCow t | TRefCell t | TLock _ t
  | TRangeFrom t | TRangeTo t | TRangeToInclusive t => max_size size_of t
  | TDuration => Some 12
  | TSystemTime => Some 8
  | TIpv4 => Some 4
  | TIpv6 => Some 16
  | TIpAddr => Some 17
  | TSockV4 => Some 6
  | TSockV6 => Some 26
  | TSockAddr => Some 27
  | TRange t | TRangeInclusive t => option_map (fun s => s * 2) (max_size size_of t)
  | TEnum r vs =>
    max_opt (map (fun x => option_map (N.add (int_size r)) (sum_opt (map (max_size size_of) (snd x)))) vs)
  | TSlice _ | TVec _ | TLinked _ | TStr | TString | TCStr | TCString | TPhantomPinned | THashMap _ _ | THashSet _ => None
  end.
