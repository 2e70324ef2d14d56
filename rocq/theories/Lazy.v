(* Encoding values with lazy parts, which are computed when they are first looked at. Definitions only.

   In such a value a LazyCell or LazyLock holds, in place of its contents, the address of a cell: [VWrap (VInt a)]. The cells are in a store; what a cell
   is computed to may hold addresses again. The rest is as in Shared.v, of which the programs are used. *)
From Verif Require Import Base Streams Utf8 Types Encode Shared.
Set Implicit Arguments.

(* core::cell::LazyCell and std::sync::LazyLock: not computed yet, with what the closure will do (return a value, or panic); computed; poisoned by a panic.
   A closure that looks at its own cell, which is a panic or a deadlock, is not modelled. *)
Inductive lcell := Waiting (f : option val) | Ready (x : val) | Poisoned.
(* the cells, and the closures called so far *)
(* (what the program holds; no code of its own) *)
Record store := Store { l_cells : Z -> lcell; l_calls : list Z }.

(* core: `LazyCell::force`, std: `LazyLock::force`, which `Deref::deref` calls *)
Definition force (a : Z) (s : store) : store * option val :=
  match l_cells s a with
  | Waiting (Some x) => (Store (fun b => if Z.eqb b a then Ready x else l_cells s b) (l_calls s ++ [a]), Some x)
  | Waiting None => (Store (fun b => if Z.eqb b a then Poisoned else l_cells s b) (l_calls s ++ [a]), None)
  | Ready x => (s, Some x)
  | Poisoned => (s, None)
  end.

(* oct/src/encode/encode/mod.rs as in Encode.v; types without contents of another type, and values that the type does not have, are left to [encode] *)
Fixpoint lazy_encode (checks : bool) (t : ty) (v : val) {struct t} : prog :=
  match t, v with
  (* LazyCell 453-460, LazyLock 464-471: `T::encode(self, output)`, where `self` is dereferenced *)
  | TWrap WLazyCell t, VWrap (VInt a)
  | TWrap WLazyLock t, VWrap (VInt a) => PLoad a (fun x => lazy_encode checks t x)
  | TOption t, VSome v => pseq (pdo (enc_bool true)) (lazy_encode checks t v)
  | TResult t _, VOk v => pseq (pdo (enc_bool false)) (lazy_encode checks t v)
  | TResult t e, VErr v => pseq (pdo (enc_bool true)) (pmap_err (result_conv t e) (lazy_encode checks e v))
  | TTuple ts, VTuple vs => p_fields (map (lazy_encode checks) ts) (fun e => e) vs
  | TArray t _, VSeq vs => p_items (lazy_encode checks t) EItem 0 vs
  | TSlice t, VSeq vs
  | TVec t, VSeq vs
  | TSizedSlice t _, VSeq vs => p_slice (lazy_encode checks t) EItem vs
  | TLinked t, VSeq vs => p_slice (lazy_encode checks t) EItemTuple vs
  | TWrap _ t, VWrap v => lazy_encode checks t v
  | TCow t, VCow _ v => lazy_encode checks t v
  | TRefCell t, VRefCell b v => if b then pdo (eerror EBadBorrow) else pmap_err EBadValue (lazy_encode checks t v)
  | TLock _ t, VLock _ v => lazy_encode checks t v
  | TRange t, VRange a b
  | TRangeInclusive t, VRangeInclusive a b _ => pseq (lazy_encode checks t a) (lazy_encode checks t b)
  | TRangeFrom t, VHalfRange a
  | TRangeTo t, VHalfRange a
  | TRangeToInclusive t, VHalfRange a => lazy_encode checks t a
  | TBound t, VIncluded v => pseq (pdo (enc_u8 0)) (pmap_err EField (lazy_encode checks t v))
  | TBound t, VExcluded v => pseq (pdo (enc_u8 1)) (pmap_err EField (lazy_encode checks t v))
  | THashMap k v, VMap kvs => p_entries (lazy_encode checks k) (lazy_encode checks v) kvs
  | THashSet k, VSet ks => p_keys (lazy_encode checks k) ks
  | TStruct ts, VTuple vs => p_fields (map (lazy_encode checks) ts) into_generic_enc vs
  | TEnum r vs, VEnum i fs => p_enum r (discriminants (map fst vs)) (map (fun x => map (lazy_encode checks) (snd x)) vs) i fs
  | _, _ => pdo (encode checks t v)
  end.

(* One step of the encoder. A panic of the closure, or of a poisoned cell, ends it. *)
(* (the thread that calls oct/src/encode/encode/mod.rs; no code of its own) *)
Inductive lown : store * output * prog -> store * output * prog -> Prop :=
| LOwn_do s o m k o' r : m o = (o', r) -> lown (s, o, PDo m k) (s, o', k r)
| LOwn_load s o a k s' x : force a s = (s', Some x) -> lown (s, o, PLoad a k) (s', o, k x)
| LOwn_panic s o a k s' : force a s = (s', None) -> lown (s, o, PLoad a k) (s', o, PDone (Panic PUser)).

(* One step of the whole: of the encoder; or of another thread, or another part of the program, which looks at any cell. *)
(* (the interleaving; no code of its own) *)
Inductive lstep : store * output * prog -> store * output * prog -> Prop :=
| LStep_own c c' : lown c c' -> lstep c c'
| LStep_other s o p a : lstep (s, o, p) (fst (force a s), o, p).
