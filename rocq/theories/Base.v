(* Outcomes, octets and little-endian conversion: the vocabulary of the model. Definitions only, no proofs. *)
From Coq Require Export List ZArith Bool Init.Byte.
From Coq Require Import Strings.Byte.
Export ListNotations.
Set Implicit Arguments.

(* The value of an octet, 0..255. (Rust `u8`.) *)
Definition b2z (b : byte) : Z := Z.of_N (Strings.Byte.to_N b).

(* The octet holding the low eight bits of [z]. (Rust `z as u8`.) *)
Definition z2b (z : Z) : byte :=
  match Strings.Byte.of_N (Z.to_N (z mod 256)) with
  | Some b => b
  | None => x00
  end.

(* core: `==` of two octets, as in `u8: PartialEq`; used by the comparisons of oct/src/encode/output/mod.rs:130-156 *)
Definition byte_eqb (a b : byte) : bool := (b2z a =? b2z b)%Z.

(* `{integer}::to_le_bytes` of core, as called at oct/src/encode/encode/mod.rs:861: [w] octets, least significant
   first. A negative [z] stands for its two's complement: [Z.div] rounds down, so the shifted sign keeps entering from the top. *)
Fixpoint le_bytes (w : nat) (z : Z) : list byte :=
  match w with
  | O => []
  | S w' => z2b z :: le_bytes w' (z / 256)
  end.

(* `{unsigned}::from_le_bytes` of core, as called at oct/src/decode/decode/mod.rs:829. *)
Fixpoint of_le (bs : list byte) : Z :=
  match bs with
  | [] => 0
  | b :: r => b2z b + 256 * of_le r
  end.

(* Two's-complement reading of a [w]-octet number: what `{signed}::from_le_bytes` adds to the unsigned reading. *)
(* as called at oct/src/decode/decode/mod.rs:829 *)
Definition to_signed (w : nat) (z : Z) : Z :=
  if (z <? 2 ^ (8 * Z.of_nat w - 1))%Z then z else (z - 2 ^ (8 * Z.of_nat w))%Z.

(* `{unsigned}::from_be_bytes` / `to_be_bytes` of core; `Ipv4Addr::to_bits` and `from_bits` are these on the octets
   of the address, see oct/src/encode/encode/mod.rs:423 and oct/src/decode/decode/mod.rs:411. *)
Definition of_be (bs : list byte) : Z := of_le (rev bs).
(* `to_be_bytes`, see oct/src/decode/decode/mod.rs:411 *)
Definition be_bytes (w : nat) (z : Z) : list byte := rev (le_bytes w z).

(* The two stream errors (oct/src/error/input_error.rs and output_error.rs): capacity, position, count. *)
Record stream_error := StreamError { se_capacity : nat; se_position : nat; se_count : nat }.

(* Why the real program panics. [PStuck] is not a panic of the code: it marks a call the Rust type system rules out
   (a value that is not of the type); [wt] excludes it, and theorems prove so. *)
Inductive panic :=
| POutput (e : stream_error)   (* `output.write(..).unwrap()`, encode/encode/mod.rs:861 *)
| PInput (e : stream_error)    (* `input.read(..).unwrap()`, decode/decode/mod.rs:827 and others *)
| PDuration                    (* `Duration::new` overflow, called at decode/decode/mod.rs:315 *)
| PArith                       (* arithmetic overflow under overflow checks, encode/encode/mod.rs:804 *)
| PInfallible                  (* decode/decode/mod.rs:381 *)
| PUnreachable                 (* `unreachable!()` *)
| PIndex                       (* slice index out of bounds *)
| PAssert                      (* a failed `assert!`, slot/mod.rs:169,197 *)
| PUser                        (* a panic of the item type, in its `clone` *)
| PStuck.

(* What a call does: returns `Ok`, returns `Err`, or panics. *)
(* core: `Result`, and unwinding *)
Inductive res (E A : Type) :=
| Ok (a : A)
| Err (e : E)
| Panic (p : panic).
Arguments Ok {E A} _.
Arguments Err {E A} _.
Arguments Panic {E A} _.
