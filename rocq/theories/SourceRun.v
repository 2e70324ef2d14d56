(* Running the implementations of the source: which one a type selects, what rustc infers in it, and how its result reads as a value of the
   model. Definitions only. *)
From Verif Require Import Base Streams Utf8 Types Traits Encode Decode Sized SourceNames SourceSyntax SourceMeaning SourceEncode SourceDecode SourceSizes SourceSizedStr SourceSizedSlice.
Local Open Scope Z_scope.

(* ---- which implementation *)

(* an argument of a type constructor: a type, a length, or one that the model leaves out (the hasher) *)
(* (Rust: generic arguments) *)
Inductive targ := AType (t : ty) | ALen (n : nat) | AOther.

(* the name of a type of the standard library or of the crate, with its arguments *)
(* (core, alloc, std, and oct/src/sized_slice/mod.rs, oct/src/sized_str/mod.rs) *)
Definition rust_name (t : ty) : option (name * list targ) :=
  match t with
  | TInt U8 => Some (id_u8, []) | TInt U16 => Some (id_u16, []) | TInt U32 => Some (id_u32, []) | TInt U64 => Some (id_u64, [])
  | TInt U128 => Some (id_u128, []) | TInt I8 => Some (id_i8, []) | TInt I16 => Some (id_i16, []) | TInt I32 => Some (id_i32, [])
  | TInt I64 => Some (id_i64, []) | TInt I128 => Some (id_i128, []) | TInt Usize => Some (id_usize, []) | TInt Isize => Some (id_isize, [])
  | TF32 => Some (id_f32, []) | TF64 => Some (id_f64, []) | TBool => Some (id_bool, []) | TChar => Some (id_char, [])
  | TNonZero i => Some (id_NonZero, [AType (TInt i)])
  | TOption t => Some (id_Option, [AType t])
  | TResult t e => Some (id_Result, [AType t; AType e])
  | TVec t => Some (id_Vec, [AType t])
  | TLinked t => Some (id_LinkedList, [AType t])
  | TSizedSlice t n => Some (id_SizedSlice, [AType t; ALen n])
  | TStr => Some (id_str, []) | TString => Some (id_String, []) | TSizedStr n => Some (id_SizedStr, [ALen n])
  | TCStr => Some (id_CStr, []) | TCString => Some (id_CString, [])
  | TWrap WBox t => Some (id_Box, [AType t]) | TWrap WRc t => Some (id_Rc, [AType t]) | TWrap WArc t => Some (id_Arc, [AType t])
  | TWrap WCell t => Some (id_Cell, [AType t]) | TWrap WLazyCell t => Some (id_LazyCell, [AType t])
  | TWrap WLazyLock t => Some (id_LazyLock, [AType t]) | TWrap WWrapping t => Some (id_Wrapping, [AType t])
  | TWrap WSaturating t => Some (id_Saturating, [AType t])
  | TWrap WAtomic t =>
    match t with
    | TBool => Some (id_AtomicBool, [])
    | TInt U8 => Some (id_AtomicU8, []) | TInt U16 => Some (id_AtomicU16, []) | TInt U32 => Some (id_AtomicU32, [])
    | TInt U64 => Some (id_AtomicU64, []) | TInt I8 => Some (id_AtomicI8, []) | TInt I16 => Some (id_AtomicI16, [])
    | TInt I32 => Some (id_AtomicI32, []) | TInt I64 => Some (id_AtomicI64, []) | TInt Usize => Some (id_AtomicUsize, [])
    | TInt Isize => Some (id_AtomicIsize, [])
    | _ => None
    end
  | TCow t => Some (id_Cow, [AType t])
  | TRefCell t => Some (id_RefCell, [AType t])
  | TLock Mutex t => Some (id_Mutex, [AType t]) | TLock RwLock t => Some (id_RwLock, [AType t])
  | TDuration => Some (id_Duration, []) | TSystemTime => Some (id_SystemTime, [])
  | TIpv4 => Some (id_Ipv4Addr, []) | TIpv6 => Some (id_Ipv6Addr, []) | TIpAddr => Some (id_IpAddr, [])
  | TSockV4 => Some (id_SocketAddrV4, []) | TSockV6 => Some (id_SocketAddrV6, []) | TSockAddr => Some (id_SocketAddr, [])
  | TRange t => Some (id_Range, [AType t]) | TRangeFrom t => Some (id_RangeFrom, [AType t]) | TRangeFull => Some (id_RangeFull, [])
  | TRangeInclusive t => Some (id_RangeInclusive, [AType t]) | TRangeTo t => Some (id_RangeTo, [AType t])
  | TRangeToInclusive t => Some (id_RangeToInclusive, [AType t])
  | TBound t => Some (id_Bound, [AType t])
  | TPhantomData => Some (id_PhantomData, [AOther]) | TPhantomPinned => Some (id_PhantomPinned, []) | TInfallible => Some (id_Infallible, [])
  | THashMap k v => Some (id_HashMap, [AType k; AType v; AOther]) | THashSet k => Some (id_HashSet, [AType k; AOther])
  | _ => None
  end.

(* what the parameters of an implementation stand for *)
(* (rustc: unification of a header with a type) *)
Definition subst := (list (name * ty) * list (name * nat))%type.
Definition is_param (x : name) (l : list name) : bool := existsb (name_eqb x) l.
Definition match_arg (im : impl) (a : rty) (t : targ) (s : subst) : option subst :=
  match a with
  | YPath [(x, [])] =>
    if is_param x (im_types im) then
      match t with
      | AType t => Some ((x, t) :: fst s, snd s)
      | AOther => Some s
      | ALen _ => None
      end
    else if is_param x (im_consts im) then
      match t with ALen n => Some (fst s, (x, n) :: snd s) | _ => None end
    else
      match primitive x, t with
      | Some (TInt i), AType (TInt j) => if ity_eqb i j then Some s else None
      | _, _ => None
      end
  | _ => None
  end.
Fixpoint match_args (im : impl) (args : list rty) (ts : list targ) (s : subst) : option subst :=
  match args, ts with
  | [], [] => Some s
  | a :: args', t :: ts' => match match_arg im a t s with Some s => match_args im args' ts' s | None => None end
  | _, _ => None
  end.
(* the members of a tuple as generic arguments *)
(* (rustc: type inference) *)
Fixpoint arg_types (ts : list ty) : list targ :=
  match ts with
  | [] => []
  | t :: ts' => AType t :: arg_types ts'
  end.
(* (rustc: does this implementation apply) *)
Definition match_impl (im : impl) (t : ty) : option subst :=
  match im_self im, t with
  | YTup [], TUnit => Some ([], [])
  | YTup args, TTuple ts => match args with [] => None | _ => match_args im args (arg_types ts) ([], []) end
  | YArr a n, TArray t m => match_args im [a; n] [AType t; ALen m] ([], [])
  | YSlice a, TSlice t => match_arg im a (AType t) ([], [])
  | YRef false a, TWrap WRef t => match_arg im a (AType t) ([], [])
  | YRef true a, TWrap WRefMut t => match_arg im a (AType t) ([], [])
  | YPath p, _ =>
    match rust_name t, last_name p with
    | Some (x, ts), Some y => if name_eqb x y then match_args im (last_args p) ts ([], []) else None
    | _, _ => None
    end
  | _, _ => None
  end.
Fixpoint find_impl (ims : list impl) (t : ty) : option (impl * subst) :=
  match ims with
  | [] => None
  | im :: ims' => match match_impl im t with Some s => Some (im, s) | None => find_impl ims' t end
  end.

(* the types that rustc infers for `Decode::decode(input)`, in the order of the calls in the source *)
(* oct/src/decode/decode/mod.rs, oct/src/sized_slice/code.rs:33-41, oct/src/sized_str/code.rs:31: from the types of the variables they are assigned to *)
Definition owned (t : ty) : ty := match t with TSlice t => TVec t | TStr => TString | TCStr => TCString | _ => t end.
Definition holes (t : ty) : list ty :=
  match t with
  | TTuple [t] => [t]
  | TArray t _ | TWrap _ t | TRefCell t | TLock _ t | TOption t | TRangeFrom t | TRangeTo t | TRangeToInclusive t => [t]
  | TCow t => [owned t]
  | TBound t | TRange t | TRangeInclusive t => [t; t]
  | TCString | TString | TSizedStr _ => [TInt Usize]
  | TDuration => [TInt U64; TInt U32]
  | THashMap k v => [TInt Usize; k; v]
  | THashSet k => [TInt Usize; k]
  | TIpAddr => [TIpv4; TIpv6]
  | TIpv4 => [TInt U32] | TIpv6 => [TInt U128]
  | TResult t e => [e; t]
  | TSockAddr => [TSockV4; TSockV6]
  | TSockV4 => [TIpv4; TInt U16]
  | TSockV6 => [TIpv6; TInt U16; TInt U32; TInt U32]
  | TVec t | TSizedSlice t _ => [TInt Usize; t]
  | _ => []
  end.

(* ---- functions of the crate that these implementations call *)

(* (rustc: an associated function by name) *)
Fixpoint find_fn (f : name) (fs : list fn) : option fn :=
  match fs with
  | [] => None
  | x :: fs' => if name_eqb f (fn_name x) then Some x else find_fn f fs'
  end.
Fixpoint find_method (f : name) (ims : list impl) : option fn :=
  match ims with
  | [] => None
  | im :: ims' =>
    match im_trait im with
    | None => match find_fn f (im_fns im) with Some x => Some x | None => find_method f ims' end
    | Some _ => find_method f ims'
    end
  end.
(* `Self::f` within SizedStr, and `SizedSlice::f`; [d] bounds how deep calls nest *)
(* oct/src/sized_str/conv.rs:57-120, oct/src/sized_slice/conv.rs *)
Fixpoint crate_fn (d : nat) (c : ctx) (q f : name) : option (list rval -> heap -> (rval -> heap -> R) -> R) :=
  match d with
  | O => None
  | S d' =>
    let from ims := match find_method f ims with Some x => Some (run_fn c (crate_fn d' c) x) | None => None end in
    match c_self c with
    | TSizedStr _ =>
      if name_eqb q id_Self || name_eqb q id_SizedStr then from src_sizedstr_impls
      else if name_eqb q id_SizedSlice then from src_sizedslice_impls
      else None
    | _ => None
    end
  end.

(* ---- results *)

(* how deep the calls of functions of the crate nest *)
Definition call_depth : nat := 4.

(* a value of the source as a value of the type *)
(* (core, alloc, std, oct/src/sized_slice/mod.rs:49-52, oct/src/sized_str/mod.rs: the fields of the types) *)
Definition close (t : ty) (h : heap) (r : rval) : option val :=
  match r with
  | RVal _ _ | RInt _ _ | RBool _ => plain r
  | RTup rs =>
    match t, rs with
    | TUnit, [] => Some VUnit
    | TTuple _, _ => option_map VTuple (plains rs)
    | _, _ => None
    end
  | RCon x rs =>
    match t, rs with
    | TOption _, [] => if name_eqb x id_None then Some VNone else None
    | TOption _, [a] => if name_eqb x id_Some then option_map VSome (plain a) else None
    | TResult _ _, [a] =>
      if name_eqb x id_Ok then option_map VOk (plain a) else if name_eqb x id_Err then option_map VErr (plain a) else None
    | TBound _, [] => if name_eqb x id_Unbounded then Some VUnbounded else None
    | TBound _, [a] =>
      if name_eqb x id_Included then option_map VIncluded (plain a) else if name_eqb x id_Excluded then option_map VExcluded (plain a) else None
    | TCow _, [a] => if name_eqb x id_Owned then option_map (VCow true) (plain a) else None
    | TWrap _ _, [a] => if name_eqb x id_Self then option_map VWrap (plain a) else None
    | TIpAddr, [RVal _ (VIp4 o)] => if name_eqb x id_V4 then Some (VIpV4 o) else None
    | TIpAddr, [RVal _ (VIp6 o)] => if name_eqb x id_V6 then Some (VIpV6 o) else None
    | TSockAddr, [RVal _ (VSock4 o p)] => if name_eqb x id_V4 then Some (VSockV4 o p) else None
    | TSockAddr, [RVal _ (VSock6 o p f s)] => if name_eqb x id_V6 then Some (VSockV6 o p f s) else None
    | TPhantomData, [] | TPhantomPinned, [] => if name_eqb x id_Self then Some VUnit else None
    | TSizedStr _, [RRec _ fs] =>
      match lookup id_buf fs, lookup id_len fs with
      | Some b, Some n =>
        match buffer h b, as_int n with
        | Some (cs, _), Some (_, n) => option_map VStr (octets_at cs (Z.to_nat n))
        | _, _ => None
        end
      | _, _ => None
      end
    | _, _ => None
    end
  | RSpan lo hi inclusive =>
    match t, lo, hi, inclusive with
    | TRangeFull, None, None, false => Some VUnit
    | TRangeFrom _, Some a, None, false => option_map VHalfRange (plain a)
    | TRangeTo _, None, Some b, false | TRangeToInclusive _, None, Some b, true => option_map VHalfRange (plain b)
    | TRange _, Some a, Some b, false => match plain a, plain b with Some x, Some y => Some (VRange x y) | _, _ => None end
    | TRangeInclusive _, Some a, Some b, true =>
      match plain a, plain b with Some x, Some y => Some (VRangeInclusive x y false) | _, _ => None end
    | _, _, _, _ => None
    end
  | RRef l =>
    match t, place h l with
    | TArray _ _, Some (OCells cs n) | TVec _, Some (OCells cs n) =>
      match filled (firstn n cs) with Some rs => option_map VSeq (plains rs) | None => None end
    | TLinked _, Some (OList rs) => option_map VSeq (plains rs)
    | THashMap _ _, Some (OMap kvs) => Some (VMap kvs)
    | THashSet _, Some (OSet ks) => Some (VSet ks)
    | _, _ => None
    end
  | RRec _ fs =>
    match t, lookup id_buf fs, lookup id_len fs with
    | TSizedSlice _ _, Some b, Some n =>
      match buffer h b, as_int n with
      | Some (cs, _), Some (_, n) =>
        match filled (firstn (Z.to_nat n) cs) with Some rs => option_map VSeq (plains rs) | None => None end
      | _, _ => None
      end
    | _, _, _ => None
    end
  | _ => None
  end.

(* an error of the source as an error of the model *)
(* oct/src/error: the fields and variants *)
Definition close_eerr (r : rval) : option eerr :=
  match r with
  | REErr e => Some e
  | RCon x [a] =>
    match as_int a with
    | Some (_, z) =>
      if name_eqb x id_UsizeEncodeError then Some (EUsize z) else if name_eqb x id_IsizeEncodeError then Some (EIsize z) else None
    | None =>
      match a with
      | REErr e =>
        if name_eqb x id_BadLength then Some (ELen e)
        else if name_eqb x id_BadDiscriminant then Some (EDisc e)
        else if name_eqb x id_BadField then Some (Types.EField e)
        else if name_eqb x id_BadValue then Some (EBadValue e)
        else None
      | RCon _ [] => if name_eqb x id_BadBorrow then Some EBadBorrow else None
      | RRec y fs =>
        match lookup id_index fs, lookup id_error fs with
        | Some i, Some (REErr e) =>
          match as_int i with
          | Some (_, z) => if name_eqb x id_BadItem && name_eqb y id_ItemEncodeError then Some (EItem (Z.to_nat z) e) else None
          | None => None
          end
        | _, _ => None
        end
      | RTup [i; REErr e] =>
        match as_int i with
        | Some (_, z) => if name_eqb x id_BadItem then Some (EItemTuple (Z.to_nat z) e) else None
        | None => None
        end
      | _ => None
      end
    end
  | _ => None
  end.
(* oct/src/error: the fields and variants *)
Definition close_derr (r : rval) : option derr :=
  match r with
  | RDErr e => Some e
  | RCon x [] => if name_eqb x id_NonZeroDecodeError then Some DNonZero else None
  | RRec x fs =>
    if name_eqb x id_CharDecodeError then
      match lookup id_code_point fs with Some a => match as_int a with Some (_, z) => Some (DChar z) | None => None end | None => None end
    else if name_eqb x id_CStringDecodeError then
      match lookup id_index fs with Some a => match as_int a with Some (_, z) => Some (DCString (Z.to_nat z)) | None => None end | None => None end
    else if name_eqb x id_SystemTimeDecodeError then
      match lookup id_timestamp fs with Some a => match as_int a with Some (_, z) => Some (DTime z) | None => None end | None => None end
    else if name_eqb x id_UnassignedDiscriminant then
      match lookup id_value fs with
      | Some a => match as_int a with Some (Some i, z) => Some (DUnassigned i z) | _ => None end
      | None => None
      end
    else None
  | RCon x [a] =>
    match a with
    | RDErr e => if name_eqb x id_BadField then Some (DField e) else None
    | RRec y fs =>
      if name_eqb x id_BadItem && name_eqb y id_ItemDecodeError then
        match lookup id_index fs, lookup id_error fs with
        | Some i, Some (RDErr e) => match as_int i with Some (_, z) => Some (DItem (Z.to_nat z) e) | None => None end
        | _, _ => None
        end
      else if name_eqb x id_BadItem && name_eqb y id_Utf8Error then
        match lookup id_value fs, lookup id_index fs with
        | Some b, Some i => match as_int b, as_int i with Some (_, b), Some (_, i) => Some (DBad (DUtf8 (z2b b) (Z.to_nat i))) | _, _ => None end
        | _, _ => None
        end
      else if name_eqb x id_BadLength && name_eqb y id_LengthError then
        match lookup id_capacity fs, lookup id_len fs with
        | Some b, Some i => match as_int b, as_int i with Some (_, b), Some (_, i) => Some (DLen (DLength (Z.to_nat b) (Z.to_nat i))) | _, _ => None end
        | _, _ => None
        end
      else None
    | _ => None
    end
  | _ => None
  end.

(* the end of a call of `encode`, with the output at 0 *)
(* oct/src/encode/encode/mod.rs:146 *)
Definition finish_encode (o : output) (r : R) : output * res eerr unit :=
  match r with
  | (OOutput o' :: h, FRet (RCon x [a])) =>
    if name_eqb x id_Ok then (o', Ok tt)
    else match close_eerr a with Some e => (o', Err e) | None => (o', Panic PStuck) end
  | (OOutput o' :: _, FPanic p) => (o', Panic p)
  | _ => (o, Panic PStuck)
  end.
(* the end of a call of `decode`, with the input at 0 *)
(* oct/src/decode/decode/mod.rs:111 *)
Definition finish_decode (t : ty) (i : input) (r : R) : input * res derr val :=
  match r with
  | (OInput i' :: h, FRet (RCon x [a])) =>
    if name_eqb x id_Ok then match close t (OInput i' :: h) a with Some v => (i', Ok v) | None => (i', Panic PStuck) end
    else match close_derr a with Some e => (i', Err e) | None => (i', Panic PStuck) end
  | (OInput i' :: _, FPanic p) => (i', Panic p)
  | _ => (i, Panic PStuck)
  end.

(* ---- running *)

(* one implementation, given how the types it uses are encoded and decoded *)
(* (rustc: a call of a trait function) *)
Definition encode_with (checks : bool) (enc : ty -> val -> E) (t : ty) (v : val) : E := fun o =>
  match find_impl src_encode_impls t with
  | Some (im, s) =>
    match im_fns im with
    | [f] =>
      let c := Ctx t (fst s) (snd s) [] checks enc (fun _ => dpanic PStuck) (fun _ => None) (fun _ => 0%N) in
      finish_encode o (run_fn c (crate_fn call_depth c) f [RVal t v; RRef 0] [OOutput o] (fun r h => (h, FRet r)))
    | _ => (o, Panic PStuck)
    end
  | None => (o, Panic PStuck)
  end.
(* (rustc: a call of a trait function) *)
Definition decode_with (checks : bool) (size : ty -> option N) (dec : ty -> D val) (t : ty) : D val := fun i =>
  match find_impl src_decode_impls t with
  | Some (im, s) =>
    match im_fns im with
    | [f] =>
      let c := Ctx t (fst s) (snd s) (holes t) checks (fun _ _ => epanic PStuck) dec size (fun _ => 0%N) in
      finish_decode t i (run_fn c (crate_fn call_depth c) f [RRef 0] [OInput i] (fun r h => (h, FRet r)))
    | _ => (i, Panic PStuck)
    end
  | None => (i, Panic PStuck)
  end.

(* `MAX_ENCODED_SIZE` of one implementation, given those that it uses *)
(* oct/src/encode/sized_encode/mod.rs:84 *)
Definition size_with (size_of : size_of_fn) (size : ty -> option N) (t : ty) : option N :=
  match find_impl src_sizes_impls t with
  | Some (im, s) =>
    match im_values im with
    | [(_, e)] =>
      let c := Ctx t (fst s) (snd s) [] true (fun _ _ => epanic PStuck) (fun _ => dpanic PStuck) size
                 (fun t => match t with TInt i => N.of_nat (iwidth i) | TF32 => 4%N | TF64 => 8%N | _ => size_of t end) in
      match eval c (fun _ _ => None) (fun _ h => stuck h) (fun _ _ h _ _ => stuck h) e [] [] (fun _ h => stuck h) (fun r _ h => (h, FRet r)) with
      | (_, FRet r) => match as_int r with Some (_, z) => Some (Z.to_N z) | None => None end
      | _ => None
      end
    | _ => None
    end
  | None => None
  end.

(* what the derive macros generate for structs and enumerations; RustSyntax.v and Codegen.v are about that code *)
(* oct-macros/src/impls/encode_struct.rs:50-64, encode_enum.rs:68-93 *)
Definition encode_derived (enc : ty -> val -> E) (t : ty) (v : val) : option E :=
  match t, v with
  | TStruct ts, VTuple vs => Some (enc_fields (map enc ts) into_generic_enc vs)
  | TEnum r vs, VEnum i fs => Some (enc_enum r (discriminants (map fst vs)) (map (fun x => map enc (snd x)) vs) i fs)
  | _, _ => None
  end.
(* oct-macros/src/impls/decode_struct.rs:52-60, decode_enum.rs:64-81 *)
Definition decode_derived (dec : ty -> D val) (t : ty) : option (D val) :=
  match t with
  | TStruct ts => Some (dmap VTuple (dec_fields into_generic_dec (map dec ts)))
  | TEnum r vs => Some (dec_enum r (discriminants (map fst vs)) (map (fun x => map dec (snd x)) vs))
  | _ => None
  end.

(* oct-macros/src/impls/sized_encode_struct.rs:33-35, sized_encode_enum.rs:44-58 *)
Definition size_derived (size : ty -> option N) (t : ty) : option (option N) :=
  match t with
  | TStruct ts => Some (sum_opt (map size ts))
  | TEnum r vs => Some (max_opt (map (fun x => option_map (N.add (int_size r)) (sum_opt (map size (snd x)))) vs))
  | _ => None
  end.

(* the whole: implementations calling implementations, at most [n] deep *)
(* oct/src/encode/encode/mod.rs, oct/src/sized_slice/code.rs, oct/src/sized_str/code.rs *)
Fixpoint run_encode (checks : bool) (n : nat) (t : ty) (v : val) : E :=
  match n with
  | O => epanic PStuck
  | S n' =>
    match encode_derived (run_encode checks n') t v with
    | Some f => f
    | None => encode_with checks (run_encode checks n') t v
    end
  end.
(* oct/src/decode/decode/mod.rs, oct/src/sized_slice/code.rs, oct/src/sized_str/code.rs *)
Fixpoint run_decode (checks : bool) (size : ty -> option N) (n : nat) (t : ty) : D val :=
  match n with
  | O => dpanic PStuck
  | S n' =>
    match decode_derived (run_decode checks size n') t with
    | Some f => f
    | None => decode_with checks size (run_decode checks size n') t
    end
  end.
(* oct/src/encode/sized_encode/mod.rs, oct/src/sized_slice/code.rs:61-63, oct/src/sized_str/code.rs:58-62 *)
Fixpoint run_size (size_of : size_of_fn) (n : nat) (t : ty) : option N :=
  match n with
  | O => None
  | S n' =>
    match size_derived (run_size size_of n') t with
    | Some s => s
    | None => size_with size_of (run_size size_of n') t
    end
  end.
