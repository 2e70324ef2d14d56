(* Every `impl Decode`: oct/src/decode/decode/mod.rs, the containers' code.rs, and the code that
   `#[derive(Decode)]` generates. Definitions only. *)
From Verif Require Import Base Streams Utf8 Types Traits.
Set Implicit Arguments.
Local Open Scope Z_scope.

(* A call of `decode`: advances the input and returns, or panics leaving the input in the state shown. *)
(* the signature at decode/decode/mod.rs:111 *)
Definition D (A : Type) := input -> input * res derr A.

(* `Ok(a)` *)
Definition dok {A} (a : A) : D A := fun i => (i, Ok a).
(* `Err(e)` *)
Definition derror {A} (e : derr) : D A := fun i => (i, Err e).
(* `panic!`, `unwrap` of an Err and so on *)
Definition dpanic {A} (p : panic) : D A := fun i => (i, Panic p).

(* `let a = m?; k(a)` *)
(* Used throughout dec, as at 841-845 *)
Definition dbind {A B} (m : D A) (k : A -> D B) : D B := fun i =>
  match m i with
  | (i', Ok a) => k a i'
  | (i', Err e) => (i', Err e)
  | (i', Panic p) => (i', Panic p)
  end.

(* `m.map_err(f)` *)
(* Used throughout dec, as at 135-140 *)
Definition dmap_err {A} (f : derr -> derr) (m : D A) : D A := fun i =>
  match m i with
  | (i', Err e) => (i', Err (f e))
  | r => r
  end.

(* `Ok(f(m?))`, used throughout dec *)
Definition dmap {A B} (f : A -> B) (m : D A) : D B := dbind m (fun a => dok (f a)).

(* `input.read(n).unwrap()` *)
(* decode/decode/mod.rs:707 *)
Definition dread (n : nat) : D (list byte) := fun i =>
  match input_read i n with
  | (i', Ok bs) => (i', Ok bs)
  | (i', Err e) => (i', Panic (PInput e))
  | (i', Panic p) => (i', Panic p)
  end.

(* `let mut data = [0; n]; input.read_into(&mut data).unwrap(); data` *)
(* decode/decode/mod.rs:825-827 *)
Definition dread_into (n : nat) : D (list byte) := fun i =>
  match input_read_into i (repeat x00 n) with
  | (i', data, Ok _) => (i', Ok data)
  | (i', _, Err e) => (i', Panic (PInput e))
  | (i', _, Panic p) => (i', Panic p)
  end.

(* impl_numeric, decode/decode/mod.rs:819-834, for unsigned (and float bit patterns) and signed numbers of [w] octets *)
Definition dec_unsigned (w : nat) : D Z := dmap of_le (dread_into w).
(* impl_numeric, decode/decode/mod.rs:819-834 *)
Definition dec_signed (w : nat) : D Z := dmap (fun bs => to_signed w (of_le bs)) (dread_into w).
(* impl_numeric, decode/decode/mod.rs:819-834, the case of u8 *)
Definition dec_u8 : D Z := dec_unsigned 1.

(* usize decode/decode/mod.rs:769-777 (a u16), isize decode/decode/mod.rs:428-437 (an i16) *)
Definition dec_usize : D Z := dec_unsigned 2.
(* isize, decode/decode/mod.rs:428-437 *)
Definition dec_isize : D Z := dec_signed 2.

(* all integers: impl_numeric, decode/decode/mod.rs:905-918, usize and isize *)
Definition dec_int (i : ity) : D Z :=
  match i with
  | Usize => dec_usize
  | Isize => dec_isize
  | _ => if isigned i then dec_signed (iwidth i) else dec_unsigned (iwidth i)
  end.

(* NonZero decode/decode/mod.rs:859-881 *)
Definition dec_nonzero (i : ity) : D val :=
  dbind (dec_int i) (fun z => if z =? 0 then derror DNonZero else dok (VInt z)).

(* bool decode/decode/mod.rs:168-181 *)
Definition dec_bool : D bool := dmap (fun z => negb (z =? 0)) dec_u8.

(* char decode/decode/mod.rs:240-256: `0x0000..=0xD7FF | 0xDE00..=0x10FFFF` *)
Definition char_accepts (cp : Z) : bool :=
  ((0 <=? cp) && (cp <=? 55295)) || ((56832 <=? cp) && (cp <=? 1114111)).
Definition dec_char : D val :=
  dbind (dec_unsigned 4) (fun cp => if char_accepts cp then dok (VChar cp) else derror (DChar cp)).

(* `for i in 0..n { .. decode(input).map_err(|e| BadItem { index: i, error: e })? .. }`: Vec decode/decode/mod.rs:790-798, LinkedList
   decode/decode/mod.rs:450-455, [T; N] decode/decode/mod.rs:135-140, SizedSlice code.rs:39-44. [i] is the current index, [n] the number of iterations left. *)
Fixpoint dec_items {A : Type} (f : D A) (n i : nat) : D (list A) :=
  match n with
  | O => dok []
  | S n' => dbind (dmap_err (DItem i) f) (fun x => dmap (cons x) (dec_items f n' (S i)))
  end.

(* Vec decode/decode/mod.rs:781-805, LinkedList decode/decode/mod.rs:441-459 *)
Definition dec_vec (f : D val) : D val :=
  dbind dec_usize (fun len => dmap VSeq (dec_items f (Z.to_nat len) 0)).

(* SizedSlice: oct/src/sized_slice/code.rs:29-48. The loop fills all N slots, whatever the length says; the value
   presents the first `len` of them. *)
Definition dec_sized_slice (f : D val) (n : nat) : D val :=
  dbind dec_usize (fun len =>
    if (n <? Z.to_nat len)%nat then derror (DLen (DLength n (Z.to_nat len)))
    else dmap (fun vs => VSeq (firstn (Z.to_nat len) vs)) (dec_items f n 0)).

(* the check of text: String decode/decode/mod.rs:710-719. `data[i]` panics if out of bounds. *)
Definition check_utf8 (bs : list byte) : res derr (list byte) :=
  match from_utf8 bs with
  | None => Ok bs
  | Some i => match nth_error bs i with Some c => Err (DUtf8 c i) | None => Panic PIndex end
  end.

(* (auxiliary: a result that does not depend on the input; no code of its own) *)
Definition dlift {A} (r : res derr A) : D A := fun i => (i, r).

(* String decode/decode/mod.rs:701-735 *)
Definition dec_string : D val :=
  dbind dec_usize (fun len =>
  dbind (dread (Z.to_nat len)) (fun bs =>
  dmap VStr (dmap_err DBad (dlift (check_utf8 bs))))).

(* SizedStr::from_utf8, oct/src/sized_str/conv.rs:57-75: the length first, then the text *)
Definition sized_from_utf8 (n : nat) (bs : list byte) : res derr (list byte) :=
  if (n <? length bs)%nat then Err (DLen (DLength n (length bs)))
  else match check_utf8 bs with Err e => Err (DBad e) | r => r end.

(* SizedStr: oct/src/sized_str/code.rs:27-45 *)
Definition dec_sized_str (n : nat) : D val :=
  dbind dec_usize (fun len =>
  dbind (dread (Z.to_nat len)) (fun bs =>
  dmap VStr (dlift (sized_from_utf8 n bs)))).

(* the scan for a null octet, CString decode/decode/mod.rs:287-289 *)
Fixpoint find_null (i : nat) (bs : list byte) : option nat :=
  match bs with
  | [] => None
  | b :: r => if b2z b =? 0 then Some i else find_null (S i) r
  end.

(* CString decode/decode/mod.rs:278-305 *)
Definition dec_cstring : D val :=
  dbind dec_usize (fun len =>
  dbind (dread (Z.to_nat len)) (fun bs =>
  match find_null 0 bs with
  | Some i => derror (DCString i)
  | None => dok (VStr bs)
  end)).

(* core: `Duration::new`; carries whole seconds out of the nanoseconds, and panics on overflow. Called at decode/decode/mod.rs:315. *)
Definition duration_new (s n : Z) : res derr val :=
  if n <? 1000000000 then Ok (VDuration s n)
  else if s + n / 1000000000 <? 2 ^ 64 then Ok (VDuration (s + n / 1000000000) (n mod 1000000000))
  else Panic PDuration.

(* Duration decode/decode/mod.rs:307-318 *)
Definition dec_duration : D val :=
  dbind (dec_unsigned 8) (fun s => dbind (dec_unsigned 4) (fun n => dlift (duration_new s n))).

(* std on Unix: the epoch plus a signed number of seconds, if the seconds fit i64 (`checked_add`, `checked_sub`) *)
Definition epoch_plus (t : Z) : option val :=
  if (- 2 ^ 63 <=? t) && (t <? 2 ^ 63) then Some (VTime t 0) else None.

(* SystemTime decode/decode/mod.rs:739-758: `checked_add(t)` for a positive t, else `checked_sub(|t|)` *)
Definition dec_time : D val :=
  dbind (dec_signed 8) (fun t =>
  match (if 0 <? t then epoch_plus t else epoch_plus (0 - Z.abs t)) with
  | Some v => dok v
  | None => derror (DTime t)
  end).

(* Ipv4Addr decode/decode/mod.rs:404-414, Ipv6Addr decode/decode/mod.rs:416-426: `from_bits` *)
Definition dec_ip4 : D (list byte) := dmap (be_bytes 4) (dec_unsigned 4).
(* Ipv6Addr, decode/decode/mod.rs:416-426 *)
Definition dec_ip6 : D (list byte) := dmap (be_bytes 16) (dec_unsigned 16).

(* SocketAddrV4 decode/decode/mod.rs:671-682, SocketAddrV6 decode/decode/mod.rs:684-697; [k] builds the value *)
Definition dec_sock4 (k : list byte -> Z -> val) : D val :=
  dbind dec_ip4 (fun o => dbind (dec_unsigned 2) (fun p => dok (k o p))).
(* SocketAddrV6, decode/decode/mod.rs:684-697 *)
Definition dec_sock6 (k : list byte -> Z -> Z -> Z -> val) : D val :=
  dbind dec_ip6 (fun o => dbind (dec_unsigned 2) (fun p => dbind (dec_unsigned 4) (fun f => dbind (dec_unsigned 4) (fun s =>
  dok (k o p f s))))).

(* IpAddr decode/decode/mod.rs:385-402 *)
Definition dec_ip_addr : D val :=
  dbind dec_u8 (fun d =>
  if d =? 4 then dmap VIpV4 dec_ip4 else if d =? 6 then dmap VIpV6 dec_ip6 else derror (DUnassigned U8 d)).

(* SocketAddr decode/decode/mod.rs:655-669 *)
Definition dec_sock_addr : D val :=
  dbind dec_u8 (fun d =>
  if d =? 4 then dec_sock4 VSockV4 else if d =? 6 then dec_sock6 VSockV6 else derror (DUnassigned U8 d)).

(* Bound decode/decode/mod.rs:183-212 *)
Definition dec_bound (f : D val) : D val :=
  dbind dec_u8 (fun d =>
  if d =? 0 then dmap VIncluded (dmap_err DField f)
  else if d =? 1 then dmap VExcluded (dmap_err DField f)
  else if d =? 2 then dok VUnbounded
  else derror (DUnassigned U8 d)).

(* Option decode/decode/mod.rs:475-492 *)
Definition dec_option (f : D val) : D val :=
  dbind dec_bool (fun sign => if sign then dmap VSome f else dok VNone).

(* Result decode/decode/mod.rs:601-627 *)
Definition dec_result (f g : D val) : D val :=
  dbind dec_bool (fun sign => if sign then dmap VErr (dmap_err DField g) else dmap VOk (dmap_err DField f)).

(* tuples decode/decode/mod.rs:836-857; derived structs, oct-macros/src/impls/decode_struct.rs:52-60, and variants convert each error *)
Fixpoint dec_fields (conv : derr -> derr) (fs : list (D val)) : D (list val) :=
  match fs with
  | [] => dok []
  | f :: fs' => dbind (dmap_err conv f) (fun x => dmap (cons x) (dec_fields conv fs'))
  end.

(* equality of keys (`Eq`), structural *)
(* (core: `==` of the key types, used by `HashMap::insert` at decode/decode/mod.rs:343 and `HashSet::insert` at decode/decode/mod.rs:369) *)
Fixpoint val_eqb (a b : val) {struct a} : bool :=
  let fix list_eqb (l l' : list val) {struct l} : bool :=
    match l, l' with
    | [], [] => true
    | x :: r, y :: r' => val_eqb x y && list_eqb r r'
    | _, _ => false
    end in
  let fix map_eqb (l l' : list (val * val)) {struct l} : bool :=
    match l, l' with
    | [], [] => true
    | (x, y) :: r, (x', y') :: r' => val_eqb x x' && val_eqb y y' && map_eqb r r'
    | _, _ => false
    end in
  match a, b with
  | VInt x, VInt y | VChar x, VChar y => x =? y
  | VBool x, VBool y => Bool.eqb x y
  | VUnit, VUnit | VNone, VNone | VUnbounded, VUnbounded => true
  | VSome x, VSome y | VOk x, VOk y | VErr x, VErr y | VWrap x, VWrap y | VHalfRange x, VHalfRange y
  | VIncluded x, VIncluded y | VExcluded x, VExcluded y => val_eqb x y
  | VTuple l, VTuple l' | VSeq l, VSeq l' | VSet l, VSet l' => list_eqb l l'
  | VStr s, VStr s' | VIp4 s, VIp4 s' | VIp6 s, VIp6 s' | VIpV4 s, VIpV4 s' | VIpV6 s, VIpV6 s' => bytes_eqb s s'
  | VCow o x, VCow o' y | VRefCell o x, VRefCell o' y | VLock o x, VLock o' y => Bool.eqb o o' && val_eqb x y
  | VDuration s n, VDuration s' n' | VTime s n, VTime s' n' => (s =? s') && (n =? n')
  | VSock4 o p, VSock4 o' p' | VSockV4 o p, VSockV4 o' p' => bytes_eqb o o' && (p =? p')
  | VSock6 o p f s, VSock6 o' p' f' s' | VSockV6 o p f s, VSockV6 o' p' f' s' =>
    bytes_eqb o o' && (p =? p') && (f =? f') && (s =? s')
  | VRange x y, VRange x' y' => val_eqb x x' && val_eqb y y'
  | VRangeInclusive x y e, VRangeInclusive x' y' e' => val_eqb x x' && val_eqb y y' && Bool.eqb e e'
  | VMap l, VMap l' => map_eqb l l'
  | VEnum i l, VEnum i' l' => Nat.eqb i i' && list_eqb l l'
  | _, _ => false
  end.

(* `HashMap::insert`: the value of an equal key is replaced. The order of the list stands for the iteration order, which
   std leaves open; statements about maps are about their entries. *)
Fixpoint map_insert (k v : val) (l : list (val * val)) : list (val * val) :=
  match l with
  | [] => [(k, v)]
  | (k', v') :: l' => if val_eqb k k' then (k', v) :: l' else (k', v') :: map_insert k v l'
  end.
(* `HashSet::insert` *)
(* called at decode/decode/mod.rs:352-374 *)
Fixpoint set_insert (k : val) (l : list val) : list val :=
  match l with
  | [] => [k]
  | k' :: l' => if val_eqb k k' then k' :: l' else k' :: set_insert k l'
  end.

(* HashMap decode/decode/mod.rs:322-348 *)
Fixpoint dec_entries (fk fv : D val) (n i : nat) (acc : list (val * val)) : D (list (val * val)) :=
  match n with
  | O => dok acc
  | S n' =>
    dbind (dmap_err (DItem i) fk) (fun k => dbind (dmap_err (DItem i) fv) (fun v =>
    dec_entries fk fv n' (S i) (map_insert k v acc)))
  end.
(* HashMap, decode/decode/mod.rs:322-348 *)
Definition dec_map (fk fv : D val) : D val :=
  dbind dec_usize (fun len => dmap VMap (dec_entries fk fv (Z.to_nat len) 0 [])).

(* HashSet decode/decode/mod.rs:352-374 *)
Fixpoint dec_keys (fk : D val) (n i : nat) (acc : list val) : D (list val) :=
  match n with
  | O => dok acc
  | S n' => dbind (dmap_err (DItem i) fk) (fun k => dec_keys fk n' (S i) (set_insert k acc))
  end.
(* HashSet, decode/decode/mod.rs:352-374 *)
Definition dec_set (fk : D val) : D val :=
  dbind dec_usize (fun len => dmap VSet (dec_keys fk (Z.to_nat len) 0 [])).

(* the arms of the generated `match discriminant`, in order *)
(* oct-macros/src/impls/decode_enum.rs:64-81 *)
Fixpoint find_disc (d : Z) (ds : list Z) (i : nat) : option nat :=
  match ds with
  | [] => None
  | d' :: ds' => if d =? d' then Some i else find_disc d ds' (S i)
  end.

(* The derived enum: oct-macros/src/impls/decode_enum.rs:64-81 *)
Definition dec_enum (r : ity) (ds : option (list Z)) (fss : list (list (D val))) : D val :=
  match ds with
  | None => dpanic PStuck
  | Some ds =>
    dbind (dec_int r) (fun d =>
    match find_disc d ds 0 with
    | None => derror (DUnassigned r d)
    | Some i =>
      match nth_error fss i with
      | Some fs => dmap (VEnum i) (dec_fields (fun e => DField (into_generic_dec e)) fs)
      | None => dpanic PStuck
      end
    end)
  end.

(* dec, each implementation at the lines given above or at its case *)
Fixpoint decode (t : ty) : D val :=
  match t with
  | TInt i => dmap VInt (dec_int i)
  | TF32 => dmap VInt (dec_unsigned 4)
  | TF64 => dmap VInt (dec_unsigned 8)
  | TBool => dmap VBool dec_bool
  | TChar => dec_char
  | TUnit | TPhantomData | TPhantomPinned | TRangeFull => dok VUnit    (* decode/decode/mod.rs:760-767, 494-501, 503-510, 535-542 *)
  | TNonZero i => dec_nonzero i
  | TOption t => dec_option (decode t)
  | TResult t e => dec_result (decode t) (decode e)
  | TTuple ts => dmap VTuple (dec_fields (fun e => e) (map decode ts))
  | TArray t n => dmap VSeq (dec_items (decode t) n 0)                 (* [T; N] decode/decode/mod.rs:126-152 *)
  | TVec t | TLinked t => dec_vec (decode t)
  | TSizedSlice t n => dec_sized_slice (decode t) n
  | TString => dec_string
  | TSizedStr n => dec_sized_str n
  | TCString => dec_cstring
  | TWrap _ t => dmap VWrap (decode t)       (* see [wrapper]; the four without Decode are excluded by [dec_ety] *)
  | TCow b =>                                (* Cow decode/decode/mod.rs:260-274: decodes the owned form *)
    dmap (VCow true)
      match b with
      | TSlice t => dec_vec (decode t)
      | TStr => dec_string
      | TCStr => dec_cstring
      | _ => decode b
      end
  | TRefCell t => dmap (VRefCell false) (decode t)                     (* decode/decode/mod.rs:589-599 *)
  | TLock _ t => dmap (VLock false) (decode t)                         (* decode/decode/mod.rs:463-473, 631-641 *)
  | TDuration => dec_duration
  | TSystemTime => dec_time
  | TIpv4 => dmap VIp4 dec_ip4
  | TIpv6 => dmap VIp6 dec_ip6
  | TIpAddr => dec_ip_addr
  | TSockV4 => dec_sock4 VSock4
  | TSockV6 => dec_sock6 VSock6
  | TSockAddr => dec_sock_addr
  | TRange t => dbind (decode t) (fun a => dmap (VRange a) (decode t))   (* decode/decode/mod.rs:512-522 *)
  | TRangeInclusive t =>                                               (* decode/decode/mod.rs:544-554: `start..=end`, never exhausted *)
    dbind (decode t) (fun a => dmap (fun b => VRangeInclusive a b false) (decode t))
  | TRangeFrom t | TRangeTo t | TRangeToInclusive t => dmap VHalfRange (decode t)   (* decode/decode/mod.rs:524-533, 556-565, 567-576 *)
  | TBound t => dec_bound (decode t)
  | TInfallible => dpanic PInfallible                                  (* decode/decode/mod.rs:376-383 *)
  | THashMap k v => dec_map (decode k) (decode v)
  | THashSet k => dec_set (decode k)
  | TStruct ts => dmap VTuple (dec_fields into_generic_dec (map decode ts))
  | TEnum r vs => dec_enum r (discriminants (map fst vs)) (map (fun x => map decode (snd x)) vs)
  | TSlice _ | TStr | TCStr => dpanic PStuck                           (* unsized: no Decode *)
  end.
