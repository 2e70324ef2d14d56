(* More vocabulary of the properties: numbers bit by bit, equality of values, borrowed forms. Definitions only. *)
From Verif Require Import Base Utf8 Types Spec SpecDecode.
Set Implicit Arguments.
Local Open Scope Z_scope.

(* The types that are numbers of [w] octets: integers, NonZero and atomic integers (but for the pointer-sized ones), the bit
   patterns of floats, and the code points of characters. [mk] makes the value of the number. *)
Inductive Numeric : ty -> (Z -> val) -> nat -> Prop :=
| Nu_int i : i <> Usize -> i <> Isize -> Numeric (TInt i) VInt (iwidth i)
| Nu_nonzero i : i <> Usize -> i <> Isize -> Numeric (TNonZero i) VInt (iwidth i)
| Nu_atomic i : i <> Usize -> i <> Isize -> Numeric (TWrap WAtomic (TInt i)) (fun z => VWrap (VInt z)) (iwidth i)
| Nu_f32 : Numeric TF32 VInt 4
| Nu_f64 : Numeric TF64 VInt 8
| Nu_char : Numeric TChar VChar 4.

(* Octet k of [bs] holds bits 8k .. 8k+7 of the two's complement of [z]. *)
Definition holds_bits (z : Z) (bs : list byte) : Prop :=
  forall k j b, nth_error bs k = Some b -> 0 <= j < 8 -> Z.testbit (b2z b) j = Z.testbit z (8 * Z.of_nat k + j).

(* The result of a call with a function applied to the value. *)
Definition rmap {A B : Type} (f : A -> B) (r : res derr A) : res derr B :=
  match r with Ok a => Ok (f a) | Err e => Err e | Panic p => Panic p end.

(* What `==` does not see: whether a Cow is borrowed or owned; and the state of locks and cells, which is not part of the
   value they hold. *)
Fixpoint erase (v : val) : val :=
  match v with
  | VSome v => VSome (erase v) | VOk v => VOk (erase v) | VErr v => VErr (erase v)
  | VTuple vs => VTuple (map erase vs) | VSeq vs => VSeq (map erase vs)
  | VWrap v => VWrap (erase v) | VCow _ v => VCow true (erase v)
  | VRefCell _ v => VRefCell false (erase v) | VLock _ v => VLock false (erase v)
  | VRange a b => VRange (erase a) (erase b)
  | VRangeInclusive a b e => VRangeInclusive (erase a) (erase b) e
  | VHalfRange a => VHalfRange (erase a)
  | VIncluded v => VIncluded (erase v) | VExcluded v => VExcluded (erase v)
  | VMap kvs => VMap (map (fun p => (erase (fst p), erase (snd p))) kvs)
  | VSet ks => VSet (map erase ks)
  | VEnum i vs => VEnum i (map erase vs)
  | _ => v
  end.

(* Every time inside is at a whole second and no inclusive range inside is exhausted. *)
Fixpoint lossless (v : val) : bool :=
  match v with
  | VTime s n => n =? 0
  | VRangeInclusive a b e => lossless a && lossless b && negb e
  | VSome v | VOk v | VErr v | VWrap v | VCow _ v | VRefCell _ v | VLock _ v | VHalfRange v | VIncluded v | VExcluded v =>
    lossless v
  | VTuple vs | VSeq vs | VSet vs | VEnum _ vs => forallb lossless vs
  | VRange a b => lossless a && lossless b
  | VMap kvs => forallb (fun p => lossless (fst p) && lossless (snd p)) kvs
  | _ => true
  end.

Definition is_hash (t : ty) : bool := match t with THashMap _ _ | THashSet _ => true | _ => false end.

(* The implementations of DecodeBorrowed: the owned type, the borrowed type, and the owned value for a borrowed one.
   oct/src/decode/decode_borrowed/mod.rs:61-87, sized_slice/code.rs:50, sized_str/code.rs:47. *)
Inductive Borrows : ty -> ty -> (val -> val) -> Prop :=
| Bo_same t : Borrows t t (fun v => v)
| Bo_box t : Borrows (TWrap WBox t) t VWrap
| Bo_rc t : Borrows (TWrap WRc t) t VWrap
| Bo_arc t : Borrows (TWrap WArc t) t VWrap
| Bo_cstr : Borrows TCString TCStr (fun v => v)
| Bo_str : Borrows TString TStr (fun v => v)
| Bo_slice t : Borrows (TVec t) (TSlice t) (fun v => v)
| Bo_sized_slice t n : Borrows (TSizedSlice t n) (TSlice t) (fun v => v)
| Bo_sized_str n : Borrows (TSizedStr n) TStr (fun v => v).

(* The value fits the capacity of the owned type: a SizedStr is long enough, and a SizedSlice has exactly the length. *)
Definition fills (o : ty) (v : val) : Prop :=
  match o, v with
  | TSizedSlice _ n, VSeq vs => length vs = n
  | TSizedStr n, VStr s => (length s <= n)%nat
  | _, _ => True
  end.
