(* The decoders once more, with what they do to memory: oct/src/decode/decode/mod.rs and the containers' code.rs.
   Definitions only.

   Only values that own heap memory matter: boxes, counted references, vectors, lists, texts, maps and sets. The log of a call says which of
   these were completed ([Made]), which had their destructor run ([Dropped]) and which were abandoned without it ([Leaked]), and how many
   items a collection reserved room for before reading them ([Reserved]). The order of events inside one release is not modelled. A
   collection whose decoding fails frees its own buffer (the destructor of the incomplete Vec, LinkedList or HashMap); that is no event. *)
From Verif Require Import Base Streams Utf8 Types Traits Decode.
Set Implicit Arguments.
Local Open Scope Z_scope.

(* (the observable effects of decoding on memory; no code of its own) *)
Inductive event :=
| Made (v : val)
| Dropped (v : val)
| Leaked (v : val)
| Reserved (t : ty) (n : nat).

(* The owning values inside a value, outermost first. The flag says whether it lies inside a SizedSlice, whose destructor does not exist
   (oct/src/sized_slice/mod.rs implements no Drop, and MaybeUninit runs none). *)
Fixpoint parts (inside : bool) (t : ty) (v : val) {struct t} : list (bool * val) :=
  match t, v with
  | TOption t, VSome v | TResult t _, VOk v | TBound t, VIncluded v | TBound t, VExcluded v
  | TCow t, VCow _ v | TLock _ t, VLock _ v | TRefCell t, VRefCell _ v
  | TRangeFrom t, VHalfRange v | TRangeTo t, VHalfRange v | TRangeToInclusive t, VHalfRange v => parts inside t v
  | TResult _ e, VErr v => parts inside e v
  | TWrap w t, VWrap v =>
    match w with WBox | WRc | WArc => (inside, VWrap v) :: parts inside t v | _ => parts inside t v end
  | TTuple ts, VTuple vs | TStruct ts, VTuple vs =>
    flat_map (fun p => fst p (snd p)) (combine (map (parts inside) ts) vs)
  | TArray t _, VSeq vs => flat_map (parts inside t) vs
  | TSizedSlice t _, VSeq vs => flat_map (parts true t) vs
  | TSlice t, VSeq vs | TVec t, VSeq vs | TLinked t, VSeq vs => (inside, VSeq vs) :: flat_map (parts inside t) vs
  | TStr, VStr s | TString, VStr s | TCStr, VStr s | TCString, VStr s => [(inside, VStr s)]
  | TRange t, VRange a b | TRangeInclusive t, VRangeInclusive a b _ => parts inside t a ++ parts inside t b
  | THashMap k v, VMap kvs => (inside, VMap kvs) :: flat_map (fun p => parts inside k (fst p) ++ parts inside v (snd p)) kvs
  | THashSet k, VSet ks => (inside, VSet ks) :: flat_map (parts inside k) ks
  | TEnum r vs, VEnum i fs =>
    match nth_error (map (fun x => map (parts inside) (snd x)) vs) i with
    | Some gs => flat_map (fun p => fst p (snd p)) (combine gs fs)
    | None => []
    end
  | _, _ => []
  end.

(* a value goes out of scope: the destructors of its parts run, but for those inside of a SizedSlice *)
(* (core: drop glue) *)
Definition drop_value (t : ty) (v : val) : list event :=
  map (fun p : bool * val => if fst p then Leaked (snd p) else Dropped (snd p)) (parts false t v).
(* a value in a MaybeUninit, or in the spare capacity of a Vec, goes out of scope: nothing runs *)
(* (core: MaybeUninit, as at decode/decode/mod.rs:126-152; alloc: the spare capacity of a Vec, as at decode/decode/mod.rs:781-805) *)
Definition leak_value (t : ty) (v : val) : list event := map (fun p : bool * val => Leaked (snd p)) (parts false t v).

(* A call of `decode` with its log. *)
(* the signature at decode/decode/mod.rs:111 *)
Definition H (A : Type) := input -> input * res derr A * list event.

(* a call that owns nothing at any point *)
(* (auxiliary) *)
Definition hplain {A} (m : D A) : H A := fun i => (m i, []).

(* `let a = m?; k(a)`; if the rest fails or panics, the value [a] is released as [rel] says *)
(* used throughout dec, as at 841-845 *)
Definition hbind {A B} (rel : A -> list event) (m : H A) (k : A -> H B) : H B := fun i =>
  match m i with
  | (i1, Ok a, es) =>
    match k a i1 with
    | (i2, Ok b, es') => (i2, Ok b, es ++ es')
    | (i2, r, es') => (i2, r, es ++ es' ++ rel a)
    end
  | (i1, Err e, es) => (i1, Err e, es)
  | (i1, Panic p, es) => (i1, Panic p, es)
  end.
(* (auxiliary: for values that own nothing) *)
Definition no_release {A} (a : A) : list event := [].

(* `Ok(f(m?))`; [made] are the events of building the result *)
(* used throughout dec *)
Definition hmap {A B} (f : A -> B) (made : A -> list event) (m : H A) : H B := fun i =>
  match m i with
  | (i', Ok a, es) => (i', Ok (f a), es ++ made a)
  | (i', Err e, es) => (i', Err e, es)
  | (i', Panic p, es) => (i', Panic p, es)
  end.
(* used throughout dec, as at 135-140 *)
Definition hmap_err {A} (f : derr -> derr) (m : H A) : H A := fun i =>
  match m i with
  | (i', Err e, es) => (i', Err (f e), es)
  | r => r
  end.

(* room for [n] items of type [t] *)
(* `with_capacity`: decode/decode/mod.rs:781-805, 322-348, 352-374 *)
Definition hreserve {A} (t : ty) (n : nat) (m : H A) : H A := fun i =>
  match m i with (i', r, es) => (i', r, Reserved t n :: es) end.

(* the loop of [dec_items]; the items before a failing one are released by [rel] *)
(* decode/decode/mod.rs:790-798, 450-455, 135-140, oct/src/sized_slice/code.rs:39-44 *)
Fixpoint h_items (rel : val -> list event) (f : H val) (n i : nat) : H (list val) :=
  match n with
  | O => hplain (dok [])
  | S n' => hbind rel (hmap_err (DItem i) f) (fun x => hmap (cons x) (fun _ => []) (h_items rel f n' (S i)))
  end.

(* Vec decode/decode/mod.rs:781-805: `with_capacity(len)`, then the items are written behind the length, which stays zero up to the end: on a failure they
   are not dropped *)
Definition h_vec (t : ty) (f : H val) : H val :=
  hbind no_release (hplain dec_usize) (fun len => hreserve t (Z.to_nat len)
    (hmap VSeq (fun vs => [Made (VSeq vs)]) (h_items (leak_value t) f (Z.to_nat len) 0))).
(* LinkedList decode/decode/mod.rs:441-459: no room is reserved, and the list owns its items at any time *)
Definition h_linked (t : ty) (f : H val) : H val :=
  hbind no_release (hplain dec_usize) (fun len =>
    hmap VSeq (fun vs => [Made (VSeq vs)]) (h_items (drop_value t) f (Z.to_nat len) 0)).
(* [T; N] decode/decode/mod.rs:126-152: an array of MaybeUninit *)
Definition h_array (t : ty) (f : H val) (n : nat) : H val := hmap VSeq (fun _ => []) (h_items (leak_value t) f n 0).
(* SizedSlice code.rs:29-48: an array of MaybeUninit; the items behind the length are decoded as well and never dropped *)
Definition h_sized_slice (t : ty) (f : H val) (n : nat) : H val :=
  hbind no_release (hplain dec_usize) (fun len =>
    if (n <? Z.to_nat len)%nat then hplain (derror (DLen (DLength n (Z.to_nat len))))
    else hmap (fun vs => VSeq (firstn (Z.to_nat len) vs)) (fun vs => flat_map (leak_value t) (skipn (Z.to_nat len) vs))
           (h_items (leak_value t) f n 0)).

(* texts, decode/decode/mod.rs:278-305, 701-735: checked in place, then copied *)
Definition h_text (m : D val) : H val := hmap (fun v => v) (fun v => [Made v]) (hplain m).

(* fields one after another: each is owned by a local variable *)
(* decode/decode/mod.rs:836-857; oct-macros/src/impls/decode_struct.rs:52-60 *)
Fixpoint h_fields (conv : derr -> derr) (fs : list ((val -> list event) * H val)) : H (list val) :=
  match fs with
  | [] => hplain (dok [])
  | (rel, f) :: fs' => hbind rel (hmap_err conv f) (fun x => hmap (cons x) (fun _ => []) (h_fields conv fs'))
  end.

(* `HashMap::insert` of an equal key: the key is dropped, and the old value, which `insert` returns *)
(* called at decode/decode/mod.rs:322-348 *)
Fixpoint insert_drops (tk tv : ty) (k : val) (l : list (val * val)) : list event :=
  match l with
  | [] => []
  | (k', v') :: l' => if val_eqb k k' then drop_value tk k ++ drop_value tv v' else insert_drops tk tv k l'
  end.
(* `HashSet::insert` of an equal key: the key is dropped *)
(* called at decode/decode/mod.rs:352-374 *)
Definition insert_drops_key (tk : ty) (k : val) (l : list val) : list event :=
  if existsb (val_eqb k) l then drop_value tk k else [].

(* (std: the destructor of HashMap; decode/decode/mod.rs:322-348 when an item fails) *)
Definition drop_entries (tk tv : ty) (l : list (val * val)) : list event :=
  flat_map (fun p => drop_value tk (fst p) ++ drop_value tv (snd p)) l.

(* HashMap decode/decode/mod.rs:322-348. The map, [acc], is dropped when an item fails. *)
Fixpoint h_entries (tk tv : ty) (fk fv : H val) (n i : nat) (acc : list (val * val)) : H (list (val * val)) :=
  match n with
  | O => hplain (dok acc)
  | S n' => fun x =>
    match hmap_err (DItem i) fk x with
    | (x1, Ok k, es) =>
      match hmap_err (DItem i) fv x1 with
      | (x2, Ok v, es') =>
        let '(x3, r, es'') := h_entries tk tv fk fv n' (S i) (map_insert k v acc) x2 in
        (x3, r, es ++ es' ++ insert_drops tk tv k acc ++ es'')
      | (x2, Err e, es') => (x2, Err e, es ++ es' ++ drop_value tk k ++ drop_entries tk tv acc)
      | (x2, Panic p, es') => (x2, Panic p, es ++ es' ++ drop_value tk k ++ drop_entries tk tv acc)
      end
    | (x1, Err e, es) => (x1, Err e, es ++ drop_entries tk tv acc)
    | (x1, Panic p, es) => (x1, Panic p, es ++ drop_entries tk tv acc)
    end
  end.
(* decode/decode/mod.rs:322-348 *)
Definition h_map (tk tv : ty) (fk fv : H val) : H val :=
  hbind no_release (hplain dec_usize) (fun len => hreserve (TTuple [tk; tv]) (Z.to_nat len)
    (hmap VMap (fun m => [Made (VMap m)]) (h_entries tk tv fk fv (Z.to_nat len) 0 []))).

(* HashSet decode/decode/mod.rs:352-374 *)
Fixpoint h_keys (tk : ty) (fk : H val) (n i : nat) (acc : list val) : H (list val) :=
  match n with
  | O => hplain (dok acc)
  | S n' => fun x =>
    match hmap_err (DItem i) fk x with
    | (x1, Ok k, es) =>
      let '(x2, r, es') := h_keys tk fk n' (S i) (set_insert k acc) x1 in
      (x2, r, es ++ insert_drops_key tk k acc ++ es')
    | (x1, Err e, es) => (x1, Err e, es ++ flat_map (drop_value tk) acc)
    | (x1, Panic p, es) => (x1, Panic p, es ++ flat_map (drop_value tk) acc)
    end
  end.
(* decode/decode/mod.rs:352-374 *)
Definition h_set (tk : ty) (fk : H val) : H val :=
  hbind no_release (hplain dec_usize) (fun len => hreserve tk (Z.to_nat len)
    (hmap VSet (fun s => [Made (VSet s)]) (h_keys tk fk (Z.to_nat len) 0 []))).

(* sums, as [dec_option], [dec_result], [dec_bound], [dec_enum] *)
(* (auxiliary: the result owns what its parts own) *)
Definition same {A} (f : A -> val) (m : H A) : H val := hmap f (fun _ => []) m.
(* decode/decode/mod.rs:475-492 *)
Definition h_option (f : H val) : H val :=
  hbind no_release (hplain dec_bool) (fun sign => if sign then same VSome f else hplain (dok VNone)).
(* decode/decode/mod.rs:601-627 *)
Definition h_result (f g : H val) : H val :=
  hbind no_release (hplain dec_bool) (fun sign => if sign then same VErr (hmap_err DField g) else same VOk (hmap_err DField f)).
(* decode/decode/mod.rs:183-212 *)
Definition h_bound (f : H val) : H val :=
  hbind no_release (hplain dec_u8) (fun d =>
  if d =? 0 then same VIncluded (hmap_err DField f)
  else if d =? 1 then same VExcluded (hmap_err DField f)
  else if d =? 2 then hplain (dok VUnbounded)
  else hplain (derror (DUnassigned U8 d))).
(* oct-macros/src/impls/decode_enum.rs:64-81 *)
Definition h_enum (r : ity) (ds : option (list Z)) (fss : list (list ((val -> list event) * H val))) : H val :=
  match ds with
  | None => hplain (dpanic PStuck)
  | Some ds =>
    hbind no_release (hplain (dec_int r)) (fun d =>
    match find_disc d ds 0 with
    | None => hplain (derror (DUnassigned r d))
    | Some i =>
      match nth_error fss i with
      | Some fs => same (VEnum i) (h_fields (fun e => DField (into_generic_dec e)) fs)
      | None => hplain (dpanic PStuck)
      end
    end)
  end.

(* `Box::new`, `Rc::new`, `Arc::new` decode/decode/mod.rs:216-226, 580-587, 156-166 *)
Definition h_wrap (w : wrapper) (f : H val) : H val :=
  hmap VWrap (fun v => match w with WBox | WRc | WArc => [Made (VWrap v)] | _ => [] end) f.

(* dec, each implementation at the lines given above; the others as in [Decode.decode] *)
Fixpoint hdecode (t : ty) : H val :=
  match t with
  | TOption t => h_option (hdecode t)
  | TResult t e => h_result (hdecode t) (hdecode e)
  | TTuple ts => same VTuple (h_fields (fun e => e) (map (fun t => (drop_value t, hdecode t)) ts))
  | TArray t n => h_array t (hdecode t) n
  | TVec t => h_vec t (hdecode t)
  | TLinked t => h_linked t (hdecode t)
  | TSizedSlice t n => h_sized_slice t (hdecode t) n
  | TString => h_text dec_string
  | TCString => h_text dec_cstring
  | TWrap w t => h_wrap w (hdecode t)
  | TCow b =>
    same (VCow true)
      match b with
      | TSlice t => h_vec t (hdecode t)
      | TStr => h_text dec_string
      | TCStr => h_text dec_cstring
      | _ => hdecode b
      end
  | TRefCell t => same (VRefCell false) (hdecode t)
  | TLock _ t => same (VLock false) (hdecode t)
  | TRange t => hbind (drop_value t) (hdecode t) (fun a => same (VRange a) (hdecode t))
  | TRangeInclusive t => hbind (drop_value t) (hdecode t) (fun a => same (fun b => VRangeInclusive a b false) (hdecode t))
  | TRangeFrom t | TRangeTo t | TRangeToInclusive t => same VHalfRange (hdecode t)
  | TBound t => h_bound (hdecode t)
  | THashMap k v => h_map k v (hdecode k) (hdecode v)
  | THashSet k => h_set k (hdecode k)
  | TStruct ts => same VTuple (h_fields into_generic_dec (map (fun t => (drop_value t, hdecode t)) ts))
  | TEnum r vs =>
    h_enum r (discriminants (map fst vs)) (map (fun x => map (fun t => (drop_value t, hdecode t)) (snd x)) vs)
  | t => hplain (decode t)      (* the types that own nothing *)
  end.
