(* Threads that encode at the same time values with Mutexes, which they share. Definitions only.

   The values and the cells are those of Guards.v. Nobody but the encoders does anything, so that the contents of the cells stay as they are, a RwLock,
   which encoders only read, is never waited for, and neither is a RefCell, which only one thread can reach. *)
From Verif Require Import Base Streams Utf8 Types Encode Guards.
Set Implicit Arguments.

(* The program of one encoder: it uses its own output, looks into RefCells and RwLocks, and locks and unlocks Mutexes. *)
(* (the thread that calls oct/src/encode/encode/mod.rs; no code of its own) *)
Inductive task :=
| KDone (r : res eerr unit)
| KDo (m : E) (k : res eerr unit -> task)
| KRead (a : Z) (k : guarded -> task)
| KLock (a : Z) (k : guarded -> task)
| KUnlock (a : Z) (k : task).

(* (auxiliary) *)
Definition kdo (m : E) : task := KDo m KDone.
(* `a?; b` *)
(* Used throughout oct/src/encode/encode/mod.rs *)
Fixpoint kseq (p q : task) : task :=
  match p with
  | KDone (Ok _) => q
  | KDone r => KDone r
  | KDo m k => KDo m (fun r => kseq (k r) q)
  | KRead a k => KRead a (fun x => kseq (k x) q)
  | KLock a k => KLock a (fun x => kseq (k x) q)
  | KUnlock a k => KUnlock a (kseq k q)
  end.
(* `a.map_err(f)` *)
(* Used throughout oct/src/encode/encode/mod.rs *)
Fixpoint kmap_err (f : eerr -> eerr) (p : task) : task :=
  match p with
  | KDone (Err e) => KDone (Err (f e))
  | KDone r => KDone r
  | KDo m k => KDo m (fun r => kmap_err f (k r))
  | KRead a k => KRead a (fun x => kmap_err f (k x))
  | KLock a k => KLock a (fun x => kmap_err f (k x))
  | KUnlock a k => KUnlock a (kmap_err f k)
  end.
(* the guard is dropped when the call returns or panics *)
(* std: `MutexGuard::drop` at the end of oct/src/encode/encode/mod.rs:502-505 *)
Fixpoint kfinally (a : Z) (p : task) : task :=
  match p with
  | KDone r => KUnlock a (KDone r)
  | KDo m k => KDo m (fun r => kfinally a (k r))
  | KRead b k => KRead b (fun x => kfinally a (k x))
  | KLock b k => KLock b (fun x => kfinally a (k x))
  | KUnlock b k => KUnlock b (kfinally a k)
  end.

(* the loops and sequences of Encode.v, which see there *)
Fixpoint k_items (f : val -> task) (wrap : nat -> eerr -> eerr) (i : nat) (l : list val) : task :=
  match l with
  | [] => kdo eok
  | x :: l' => kseq (kmap_err (wrap i) (f x)) (k_items f wrap (S i) l')
  end.
(* oct/src/encode/encode/mod.rs:196-215, 475-493 *)
Definition k_slice (f : val -> task) (wrap : nat -> eerr -> eerr) (l : list val) : task :=
  kseq (kdo (emap_err ELen (enc_usize (Z.of_nat (length l))))) (k_items f wrap 0 l).
(* oct/src/encode/encode/mod.rs:869-891, oct-macros/src/impls/encode_struct.rs:50-64 *)
Fixpoint k_fields (fs : list (val -> task)) (conv : eerr -> eerr) (vs : list val) : task :=
  match fs, vs with
  | [], [] => kdo eok
  | f :: fs', v :: vs' => kseq (kmap_err conv (f v)) (k_fields fs' conv vs')
  | _, _ => kdo (epanic PStuck)
  end.
(* oct/src/encode/encode/mod.rs:349-356 *)
Fixpoint k_entries (fk fv : val -> task) (kvs : list (val * val)) : task :=
  match kvs with
  | [] => kdo eok
  | (k, v) :: l => kseq (fk k) (kseq (fv v) (k_entries fk fv l))
  end.
(* oct/src/encode/encode/mod.rs:369-375 *)
Fixpoint k_keys (fk : val -> task) (ks : list val) : task :=
  match ks with
  | [] => kdo eok
  | k :: l => kseq (fk k) (k_keys fk l)
  end.
(* oct-macros/src/impls/encode_enum.rs:68-93 *)
Definition k_enum (r : ity) (ds : option (list Z)) (fss : list (list (val -> task))) (i : nat) (vs : list val) : task :=
  match ds with
  | None => kdo (epanic PStuck)
  | Some ds =>
    match nth_error ds i, nth_error fss i with
    | Some d, Some fs => kseq (kdo (emap_err EDisc (enc_int r d))) (k_fields fs (fun e => EField (into_generic_enc e)) vs)
    | _, _ => kdo (epanic PStuck)
    end
  end.

(* oct/src/encode/encode/mod.rs as in Guards.v *)
Fixpoint lock_encode (checks : bool) (t : ty) (v : val) {struct t} : task :=
  match t, v with
  (* RefCell, 626-640 *)
  | TRefCell t, VRefCell _ (VInt a) =>
    KRead a (fun x => if g_borrowed x then kdo (eerror EBadBorrow) else kmap_err EBadValue (lock_encode checks t (g_val x)))
  (* Mutex, 497-507 *)
  | TLock Mutex t, VLock _ (VInt a) => KLock a (fun x => kfinally a (lock_encode checks t (g_val x)))
  (* RwLock, 678-688 *)
  | TLock RwLock t, VLock _ (VInt a) => KRead a (fun x => lock_encode checks t (g_val x))
  (* contents that are given in place *)
  | TRefCell t, VRefCell b v => if b then kdo (eerror EBadBorrow) else kmap_err EBadValue (lock_encode checks t v)
  | TLock _ t, VLock _ v => lock_encode checks t v
  | TOption t, VSome v => kseq (kdo (enc_bool true)) (lock_encode checks t v)
  | TResult t _, VOk v => kseq (kdo (enc_bool false)) (lock_encode checks t v)
  | TResult t e, VErr v => kseq (kdo (enc_bool true)) (kmap_err (result_conv t e) (lock_encode checks e v))
  | TTuple ts, VTuple vs => k_fields (map (lock_encode checks) ts) (fun e => e) vs
  | TArray t _, VSeq vs => k_items (lock_encode checks t) EItem 0 vs
  | TSlice t, VSeq vs
  | TVec t, VSeq vs
  | TSizedSlice t _, VSeq vs => k_slice (lock_encode checks t) EItem vs
  | TLinked t, VSeq vs => k_slice (lock_encode checks t) EItemTuple vs
  | TWrap _ t, VWrap v => lock_encode checks t v
  | TCow t, VCow _ v => lock_encode checks t v
  | TRange t, VRange a b
  | TRangeInclusive t, VRangeInclusive a b _ => kseq (lock_encode checks t a) (lock_encode checks t b)
  | TRangeFrom t, VHalfRange a
  | TRangeTo t, VHalfRange a
  | TRangeToInclusive t, VHalfRange a => lock_encode checks t a
  | TBound t, VIncluded v => kseq (kdo (enc_u8 0)) (kmap_err EField (lock_encode checks t v))
  | TBound t, VExcluded v => kseq (kdo (enc_u8 1)) (kmap_err EField (lock_encode checks t v))
  | THashMap k v, VMap kvs => k_entries (lock_encode checks k) (lock_encode checks v) kvs
  | THashSet k, VSet ks => k_keys (lock_encode checks k) ks
  | TStruct ts, VTuple vs => k_fields (map (lock_encode checks) ts) into_generic_enc vs
  | TEnum r vs, VEnum i fs => k_enum r (discriminants (map fst vs)) (map (fun x => map (lock_encode checks) (snd x)) vs) i fs
  | _, _ => kdo (encode checks t v)
  end.

(* All threads: which Mutexes are locked, and what each thread has written and has left to do. *)
(* (no code of its own) *)
Record threads := Threads { k_locked : Z -> bool; k_tasks : list (output * task) }.
(* (auxiliary) *)
Definition mark (a : Z) (b : bool) (l : Z -> bool) : Z -> bool := fun c => if Z.eqb c a then b else l c.

(* One step of one thread; it cannot lock a Mutex that is locked. *)
(* (the interleaving; std: `Mutex::lock`; no code of its own) *)
Inductive kstep (g : cells) : threads -> threads -> Prop :=
| KStep_do l xs ys o m k o' r : m o = (o', r) -> kstep g (Threads l (xs ++ (o, KDo m k) :: ys)) (Threads l (xs ++ (o', k r) :: ys))
| KStep_read l xs ys o a k : kstep g (Threads l (xs ++ (o, KRead a k) :: ys)) (Threads l (xs ++ (o, k (g a)) :: ys))
| KStep_lock l xs ys o a k : l a = false -> kstep g (Threads l (xs ++ (o, KLock a k) :: ys)) (Threads (mark a true l) (xs ++ (o, k (g a)) :: ys))
| KStep_unlock l xs ys o a k : kstep g (Threads l (xs ++ (o, KUnlock a k) :: ys)) (Threads (mark a false l) (xs ++ (o, k) :: ys)).
