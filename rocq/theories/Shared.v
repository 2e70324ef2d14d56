(* Encoding while other threads run. Definitions only.

   A shared value is a [val] in which an atomic holds, in place of its contents, the address of a cell: [VWrap (VInt a)]; and likewise a Mutex or
   RwLock: [VLock p (VInt a)]. The contents are in a memory that all threads change. A Mutex's contents may hold addresses again. *)
From Verif Require Import Base Streams Utf8 Types Encode.
Set Implicit Arguments.

(* (what all threads share; no code of its own) *)
Definition memory := Z -> val.

(* The encoding thread as a program: it uses its own output, which no other thread can reach, and loads cells. *)
(* (the thread that calls oct/src/encode/encode/mod.rs; no code of its own) *)
Inductive prog :=
| PDone (r : res eerr unit)
| PDo (m : E) (k : res eerr unit -> prog)
| PLoad (a : Z) (k : val -> prog).

(* (auxiliary) *)
Definition pdo (m : E) : prog := PDo m PDone.

(* `a?; b` *)
(* Used throughout oct/src/encode/encode/mod.rs *)
Fixpoint pseq (p q : prog) : prog :=
  match p with
  | PDone (Ok _) => q
  | PDone r => PDone r
  | PDo m k => PDo m (fun r => pseq (k r) q)
  | PLoad a k => PLoad a (fun x => pseq (k x) q)
  end.

(* `a.map_err(f)` *)
(* Used throughout oct/src/encode/encode/mod.rs *)
Fixpoint pmap_err (f : eerr -> eerr) (p : prog) : prog :=
  match p with
  | PDone (Err e) => PDone (Err (f e))
  | PDone r => PDone r
  | PDo m k => PDo m (fun r => pmap_err f (k r))
  | PLoad a k => PLoad a (fun x => pmap_err f (k x))
  end.

(* the loops and sequences of Encode.v, which see there *)
Fixpoint p_items (f : val -> prog) (wrap : nat -> eerr -> eerr) (i : nat) (l : list val) : prog :=
  match l with
  | [] => pdo eok
  | x :: l' => pseq (pmap_err (wrap i) (f x)) (p_items f wrap (S i) l')
  end.
(* oct/src/encode/encode/mod.rs:196-215, 475-493 *)
Definition p_slice (f : val -> prog) (wrap : nat -> eerr -> eerr) (l : list val) : prog :=
  pseq (pdo (emap_err ELen (enc_usize (Z.of_nat (length l))))) (p_items f wrap 0 l).
(* oct/src/encode/encode/mod.rs:869-891, oct-macros/src/impls/encode_struct.rs:50-64 *)
Fixpoint p_fields (fs : list (val -> prog)) (conv : eerr -> eerr) (vs : list val) : prog :=
  match fs, vs with
  | [], [] => pdo eok
  | f :: fs', v :: vs' => pseq (pmap_err conv (f v)) (p_fields fs' conv vs')
  | _, _ => pdo (epanic PStuck)
  end.
(* oct/src/encode/encode/mod.rs:349-356 *)
Fixpoint p_entries (fk fv : val -> prog) (kvs : list (val * val)) : prog :=
  match kvs with
  | [] => pdo eok
  | (k, v) :: l => pseq (fk k) (pseq (fv v) (p_entries fk fv l))
  end.
(* oct/src/encode/encode/mod.rs:369-375 *)
Fixpoint p_keys (fk : val -> prog) (ks : list val) : prog :=
  match ks with
  | [] => pdo eok
  | k :: l => pseq (fk k) (p_keys fk l)
  end.
(* oct-macros/src/impls/encode_enum.rs:68-93 *)
Definition p_enum (r : ity) (ds : option (list Z)) (fss : list (list (val -> prog))) (i : nat) (vs : list val) : prog :=
  match ds with
  | None => pdo (epanic PStuck)
  | Some ds =>
    match nth_error ds i, nth_error fss i with
    | Some d, Some fs => pseq (pdo (emap_err EDisc (enc_int r d))) (p_fields fs (fun e => EField (into_generic_enc e)) vs)
    | _, _ => pdo (epanic PStuck)
    end
  end.

(* oct/src/encode/encode/mod.rs as in Encode.v; types without contents of another type, and values that the type does not have, are left to [encode] *)
Fixpoint shared_encode (checks : bool) (t : ty) (v : val) {struct t} : prog :=
  match t, v with
  (* impl_atomic, 906-928: `self.load(Ordering::Relaxed).encode(output)`. Relaxed loads of one atomic see the values stored to it in one order;
     nothing is said about different atomics, and the theorems claim nothing about that. *)
  | TWrap WAtomic t, VWrap (VInt a) => PLoad a (fun x => pdo (encode checks t x))
  (* Mutex 497-507, RwLock 678-688: locks, encodes, unlocks. No other thread changes the contents in between, so all that is read of them is what
     they were when the lock was taken; that is the load. *)
  | TLock _ t, VLock _ (VInt a) => PLoad a (fun x => shared_encode checks t x)
  | TOption t, VSome v => pseq (pdo (enc_bool true)) (shared_encode checks t v)
  | TResult t _, VOk v => pseq (pdo (enc_bool false)) (shared_encode checks t v)
  | TResult t e, VErr v => pseq (pdo (enc_bool true)) (pmap_err (result_conv t e) (shared_encode checks e v))
  | TTuple ts, VTuple vs => p_fields (map (shared_encode checks) ts) (fun e => e) vs
  | TArray t _, VSeq vs => p_items (shared_encode checks t) EItem 0 vs
  | TSlice t, VSeq vs
  | TVec t, VSeq vs
  | TSizedSlice t _, VSeq vs => p_slice (shared_encode checks t) EItem vs
  | TLinked t, VSeq vs => p_slice (shared_encode checks t) EItemTuple vs
  | TWrap _ t, VWrap v => shared_encode checks t v
  | TCow t, VCow _ v => shared_encode checks t v
  | TRefCell t, VRefCell b v => if b then pdo (eerror EBadBorrow) else pmap_err EBadValue (shared_encode checks t v)
  | TRange t, VRange a b
  | TRangeInclusive t, VRangeInclusive a b _ => pseq (shared_encode checks t a) (shared_encode checks t b)
  | TRangeFrom t, VHalfRange a
  | TRangeTo t, VHalfRange a
  | TRangeToInclusive t, VHalfRange a => shared_encode checks t a
  | TBound t, VIncluded v => pseq (pdo (enc_u8 0)) (pmap_err EField (shared_encode checks t v))
  | TBound t, VExcluded v => pseq (pdo (enc_u8 1)) (pmap_err EField (shared_encode checks t v))
  | THashMap k v, VMap kvs => p_entries (shared_encode checks k) (shared_encode checks v) kvs
  | THashSet k, VSet ks => p_keys (shared_encode checks k) ks
  | TStruct ts, VTuple vs => p_fields (map (shared_encode checks) ts) into_generic_enc vs
  | TEnum r vs, VEnum i fs => p_enum r (discriminants (map fst vs)) (map (fun x => map (shared_encode checks) (snd x)) vs) i fs
  | _, _ => pdo (encode checks t v)
  end.

(* One step of the whole: of another thread, which stores what it likes to any cell, or of the encoder. *)
(* (the interleaving of threads; no code of its own) *)
Inductive step : memory * output * prog -> memory * output * prog -> Prop :=
| Step_store mem o p a x : step (mem, o, p) (fun b => if Z.eqb b a then x else mem b, o, p)
| Step_do mem o m k o' r : m o = (o', r) -> step (mem, o, PDo m k) (mem, o', k r)
| Step_load mem o a k : step (mem, o, PLoad a k) (mem, o, k (mem a)).
