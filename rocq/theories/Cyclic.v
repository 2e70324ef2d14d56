(* Encoding values of recursive types that may contain themselves, as a `RefCell<Option<Rc<Node>>>` can hold a pointer to its own node: the implementations for
   the definitions of Recursive.v, which call one another, on the cells of Guards.v. Definitions only. *)
From Verif Require Import Base Streams Types Encode Guards Recursive.
Set Implicit Arguments.

(* oct/src/encode/encode/mod.rs as in Guards.v; [call] is the `encode` of the definitions. Values that the type does not have cannot be passed. *)
Fixpoint rec_encode (checks : bool) (call : nat -> val -> G) (t : rty) (v : val) {struct t} : G :=
  let stuck := gdo (epanic PStuck) in
  match t with
  | RConst t => guard_encode checks t v
  | RVar k => call k v
  | ROption t => match v with VSome v => gseq (gdo (enc_bool true)) (rec_encode checks call t v) | VNone => gdo (enc_bool false) | _ => stuck end
  | RTuple ts => match v with VTuple vs => g_fields (map (rec_encode checks call) ts) (fun e => e) vs | _ => stuck end
  | RArray t _ => match v with VSeq vs => g_items (rec_encode checks call t) EItem 0 vs | _ => stuck end
  | RSlice t | RVec t | RSizedSlice t _ => match v with VSeq vs => g_slice (rec_encode checks call t) EItem vs | _ => stuck end
  | RLinked t => match v with VSeq vs => g_slice (rec_encode checks call t) EItemTuple vs | _ => stuck end
  | RWrap _ t => match v with VWrap v => rec_encode checks call t v | _ => stuck end
  | RCow t => match v with VCow _ v => rec_encode checks call t v | _ => stuck end
  | RRefCell t =>
      match v with
      | VRefCell _ (VInt a) => g_refcell a (rec_encode checks call t)
      | VRefCell b v => if b then gdo (eerror EBadBorrow) else gmap_err EBadValue (rec_encode checks call t v)
      | _ => stuck
      end
  | RLock l t =>
      match v with
      | VLock _ (VInt a) => match l with Mutex => g_mutex a (rec_encode checks call t) | RwLock => g_rwlock a (rec_encode checks call t) end
      | VLock _ v => rec_encode checks call t v
      | _ => stuck
      end
  | RRange t => match v with VRange a b => gseq (rec_encode checks call t a) (rec_encode checks call t b) | _ => stuck end
  | RRangeInclusive t => match v with VRangeInclusive a b _ => gseq (rec_encode checks call t a) (rec_encode checks call t b) | _ => stuck end
  | RRangeFrom t | RRangeTo t | RRangeToInclusive t => match v with VHalfRange a => rec_encode checks call t a | _ => stuck end
  | RBound t =>
      match v with
      | VIncluded v => gseq (gdo (enc_u8 0)) (gmap_err EField (rec_encode checks call t v))
      | VExcluded v => gseq (gdo (enc_u8 1)) (gmap_err EField (rec_encode checks call t v))
      | VUnbounded => gdo (enc_u8 2)
      | _ => stuck
      end
  | RHashMap k u => match v with VMap kvs => g_entries (rec_encode checks call k) (rec_encode checks call u) kvs | _ => stuck end
  | RHashSet k => match v with VSet ks => g_keys (rec_encode checks call k) ks | _ => stuck end
  end.
(* oct-macros/src/impls/encode_struct.rs:50-64, encode_enum.rs:68-93 *)
Definition def_encode (checks : bool) (call : nat -> val -> G) (d : rdef) (v : val) : G :=
  match d, v with
  | RStruct ts, VTuple vs => g_fields (map (rec_encode checks call) ts) into_generic_enc vs
  | REnum r vs, VEnum i fs => g_enum r (discriminants (map fst vs)) (map (fun x => map (rec_encode checks call) (snd x)) vs) i fs
  | _, _ => gdo (epanic PStuck)
  end.
(* The `encode` of definition [k], with calls of the definitions' functions nested [n] deep; deeper ones do [deeper]. *)
(* (the nesting of calls between the derived functions; no code of its own) *)
Fixpoint nested (checks : bool) (defs : nat -> rdef) (deeper : nat -> val -> G) (n k : nat) : val -> G :=
  match n with
  | O => deeper k
  | S n' => def_encode checks (nested checks defs deeper n') (defs k)
  end.
