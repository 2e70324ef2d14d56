(* Encoding values with RefCells, Mutexes and RwLocks, and the state in which these are left. Definitions only.

   In such a value a RefCell, Mutex or RwLock may hold, in place of its contents, the address of a cell: [VRefCell _ (VInt a)] and [VLock _ (VInt a)]. The
   contents, which may hold addresses again, and the state of the cell are in a store. Other threads do nothing meanwhile (see Shared.v for those). *)
From Verif Require Import Base Streams Utf8 Types Encode.
Set Implicit Arguments.

(* core::cell::RefCell: mutably borrowed, or the number of shared borrows. std::sync::Mutex: locked, poisoned. std::sync::RwLock: locked by a writer, or the
   number of readers, poisoned. Of one kind of cell only its own fields are used. *)
Record guarded := Guarded { g_val : val; g_borrowed : bool; g_readers : nat; g_locked : bool; g_poison : bool }.
(* (what the program holds; no code of its own) *)
Definition cells := Z -> guarded.
Definition put (a : Z) (x : guarded) (g : cells) : cells := fun b => if Z.eqb b a then x else g b.

(* core: `RefCell::try_borrow`, std: `RwLock::read`, and their guards' `drop` *)
Definition more_readers (a : Z) (g : cells) : cells := let x := g a in put a (Guarded (g_val x) (g_borrowed x) (S (g_readers x)) (g_locked x) (g_poison x)) g.
Definition less_readers (a : Z) (g : cells) : cells := let x := g a in put a (Guarded (g_val x) (g_borrowed x) (pred (g_readers x)) (g_locked x) (g_poison x)) g.
(* std: `Mutex::lock` *)
Definition acquire (a : Z) (g : cells) : cells := let x := g a in put a (Guarded (g_val x) (g_borrowed x) (g_readers x) true (g_poison x)) g.
(* std: `MutexGuard::drop`, which poisons the Mutex if the thread is panicking. (Unless it was when the Mutex was locked, which is not modelled.) *)
Definition release (panicking : bool) (a : Z) (g : cells) : cells :=
  let x := g a in put a (Guarded (g_val x) (g_borrowed x) (g_readers x) false (g_poison x || panicking)) g.

(* a call returns or panics, or it waits for a lock, forever as nobody else does anything *)
(* (the outcomes of oct/src/encode/encode/mod.rs:497-507 and 678-688; no code of its own) *)
Inductive outcome := Ends (r : res eerr unit) | Waits.
(* (auxiliary) *)
Definition G := cells -> output -> cells * output * outcome.
(* (auxiliary) *)
Definition gdo (m : E) : G := fun g o => let '(o1, r) := m o in (g, o1, Ends r).
(* `a?; b` *)
(* Used throughout oct/src/encode/encode/mod.rs *)
Definition gseq (p q : G) : G := fun g o => match p g o with (g1, o1, Ends (Ok _)) => q g1 o1 | x => x end.
(* `a.map_err(f)` *)
(* Used throughout oct/src/encode/encode/mod.rs *)
Definition gmap_err (f : eerr -> eerr) (p : G) : G := fun g o => match p g o with (g1, o1, Ends (Err e)) => (g1, o1, Ends (Err (f e))) | x => x end.

(* the loops and sequences of Encode.v, which see there *)
Fixpoint g_items (f : val -> G) (wrap : nat -> eerr -> eerr) (i : nat) (l : list val) : G :=
  match l with
  | [] => gdo eok
  | x :: l' => gseq (gmap_err (wrap i) (f x)) (g_items f wrap (S i) l')
  end.
(* oct/src/encode/encode/mod.rs:196-215, 475-493 *)
Definition g_slice (f : val -> G) (wrap : nat -> eerr -> eerr) (l : list val) : G :=
  gseq (gdo (emap_err ELen (enc_usize (Z.of_nat (length l))))) (g_items f wrap 0 l).
(* oct/src/encode/encode/mod.rs:869-891, oct-macros/src/impls/encode_struct.rs:50-64 *)
Fixpoint g_fields (fs : list (val -> G)) (conv : eerr -> eerr) (vs : list val) : G :=
  match fs, vs with
  | [], [] => gdo eok
  | f :: fs', v :: vs' => gseq (gmap_err conv (f v)) (g_fields fs' conv vs')
  | _, _ => gdo (epanic PStuck)
  end.
(* oct/src/encode/encode/mod.rs:349-356 *)
Fixpoint g_entries (fk fv : val -> G) (kvs : list (val * val)) : G :=
  match kvs with
  | [] => gdo eok
  | (k, v) :: l => gseq (fk k) (gseq (fv v) (g_entries fk fv l))
  end.
(* oct/src/encode/encode/mod.rs:369-375 *)
Fixpoint g_keys (fk : val -> G) (ks : list val) : G :=
  match ks with
  | [] => gdo eok
  | k :: l => gseq (fk k) (g_keys fk l)
  end.
(* oct-macros/src/impls/encode_enum.rs:68-93 *)
Definition g_enum (r : ity) (ds : option (list Z)) (fss : list (list (val -> G))) (i : nat) (vs : list val) : G :=
  match ds with
  | None => gdo (epanic PStuck)
  | Some ds =>
    match nth_error ds i, nth_error fss i with
    | Some d, Some fs => gseq (gdo (emap_err EDisc (enc_int r d))) (g_fields fs (fun e => EField (into_generic_enc e)) vs)
    | _, _ => gdo (epanic PStuck)
    end
  end.

(* a value read under a shared borrow or as a reader; the guard is dropped whether the call returns or panics *)
(* RefCell, oct/src/encode/encode/mod.rs:631-636; RwLock, 683-686 *)
Definition g_read (a : Z) (f : val -> G) : G := fun g o =>
  match f (g_val (g a)) (more_readers a g) o with
  | (g1, o1, Ends r) => (less_readers a g1, o1, Ends r)
  | x => x
  end.
(* RefCell, oct/src/encode/encode/mod.rs:626-640 *)
Definition g_refcell (a : Z) (f : val -> G) : G := fun g o =>
  if g_borrowed (g a) then (g, o, Ends (Err EBadBorrow)) else gmap_err EBadValue (g_read a f) g o.
(* RwLock, oct/src/encode/encode/mod.rs:678-688: poison is ignored *)
Definition g_rwlock (a : Z) (f : val -> G) : G := fun g o =>
  if g_locked (g a) then (g, o, Waits) else g_read a f g o.
(* Mutex, oct/src/encode/encode/mod.rs:497-507: poison is ignored *)
Definition g_mutex (a : Z) (f : val -> G) : G := fun g o =>
  if g_locked (g a) then (g, o, Waits) else
  match f (g_val (g a)) (acquire a g) o with
  | (g1, o1, Ends r) => (release (match r with Panic _ => true | _ => false end) a g1, o1, Ends r)
  | x => x
  end.

(* oct/src/encode/encode/mod.rs as in Encode.v; types without contents of another type, and values that the type does not have, are left to [encode] *)
Fixpoint guard_encode (checks : bool) (t : ty) (v : val) {struct t} : G :=
  match t, v with
  | TRefCell t, VRefCell _ (VInt a) => g_refcell a (guard_encode checks t)
  | TLock Mutex t, VLock _ (VInt a) => g_mutex a (guard_encode checks t)
  | TLock RwLock t, VLock _ (VInt a) => g_rwlock a (guard_encode checks t)
  (* contents that are given in place *)
  | TRefCell t, VRefCell b v => if b then gdo (eerror EBadBorrow) else gmap_err EBadValue (guard_encode checks t v)
  | TLock _ t, VLock _ v => guard_encode checks t v
  | TOption t, VSome v => gseq (gdo (enc_bool true)) (guard_encode checks t v)
  | TResult t _, VOk v => gseq (gdo (enc_bool false)) (guard_encode checks t v)
  | TResult t e, VErr v => gseq (gdo (enc_bool true)) (gmap_err (result_conv t e) (guard_encode checks e v))
  | TTuple ts, VTuple vs => g_fields (map (guard_encode checks) ts) (fun e => e) vs
  | TArray t _, VSeq vs => g_items (guard_encode checks t) EItem 0 vs
  | TSlice t, VSeq vs
  | TVec t, VSeq vs
  | TSizedSlice t _, VSeq vs => g_slice (guard_encode checks t) EItem vs
  | TLinked t, VSeq vs => g_slice (guard_encode checks t) EItemTuple vs
  | TWrap _ t, VWrap v => guard_encode checks t v
  | TCow t, VCow _ v => guard_encode checks t v
  | TRange t, VRange a b
  | TRangeInclusive t, VRangeInclusive a b _ => gseq (guard_encode checks t a) (guard_encode checks t b)
  | TRangeFrom t, VHalfRange a
  | TRangeTo t, VHalfRange a
  | TRangeToInclusive t, VHalfRange a => guard_encode checks t a
  | TBound t, VIncluded v => gseq (gdo (enc_u8 0)) (gmap_err EField (guard_encode checks t v))
  | TBound t, VExcluded v => gseq (gdo (enc_u8 1)) (gmap_err EField (guard_encode checks t v))
  | THashMap k v, VMap kvs => g_entries (guard_encode checks k) (guard_encode checks v) kvs
  | THashSet k, VSet ks => g_keys (guard_encode checks k) ks
  | TStruct ts, VTuple vs => g_fields (map (guard_encode checks) ts) into_generic_enc vs
  | TEnum r vs, VEnum i fs => g_enum r (discriminants (map fst vs)) (map (fun x => map (guard_encode checks) (snd x)) vs) i fs
  | _, _ => gdo (encode checks t v)
  end.
