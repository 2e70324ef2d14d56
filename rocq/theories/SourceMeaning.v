(* What the syntax of SourceSyntax.v does when it runs: a small account of Rust, and of the parts of its standard library that the crate calls.
   Definitions only.

   Evaluation is written with continuations: `eval e env heap break k` runs e and hands its value on to k. A program that leaves this account
   (calls something unknown, reads memory that is not initialised, writes out of bounds) ends in [FStuck]; no theorem counts that as a result.
   References are transparent, except those to the objects of the heap: streams, arrays, and collections under construction. *)
From Verif Require Import Base Streams Utf8 Types Traits Encode Decode SourceNames SourceSyntax.
Local Open Scope Z_scope.

(* ---- values, objects and outcomes *)

(* what an expression can be worth *)
(* (Rust: values) *)
Inductive rval :=
| RInt (i : option ity) (z : Z)               (* an integer; a literal without suffix takes the type of its context *)
| RBool (b : bool)
| RVal (t : ty) (v : val)                     (* a value of a supported type *)
| RTup (rs : list rval)
| RCon (x : name) (rs : list rval)            (* a variant or a tuple struct, by its own name; without arguments also the function *)
| RRec (x : name) (fs : list (name * rval))   (* a struct with named fields *)
| RSpan (lo hi : option rval) (inclusive : bool)   (* `lo..hi` *)
| RBytes (bs : list byte)                     (* octets that nobody changes: `&[u8]`, the result of `to_le_bytes` *)
| RSrc (bs : list byte)                       (* pointer to the first of them *)
| RRef (l : nat)                              (* an object of the heap *)
| RPtr (l off : nat)                          (* pointer to one of its cells *)
| RIter (rs : list rval)                      (* an iterator, with what it will yield *)
| RDefault                                    (* `Default::default()`, the type left to inference *)
| RUninit                                     (* `MaybeUninit::uninit()` *)
| REErr (e : eerr) | RDErr (e : derr)         (* errors that a call of `encode` or `decode` returned *)
| ROErr (e : stream_error) | RIErr (e : stream_error).   (* OutputError, InputError *)

(* what lives in memory *)
(* (Rust: places) *)
Inductive obj :=
| OInput (i : input) | OOutput (o : output)
| OCells (cs : list (option rval)) (len : nat)   (* an array, or the buffer of a vector of that length; `None` is not initialised *)
| OList (rs : list rval)                         (* LinkedList *)
| OMap (kvs : list (val * val)) | OSet (ks : list val).
(* (Rust: the memory of the program) *)
Definition heap := list obj.
(* (Rust: the variables in scope) *)
Definition env := list (name * rval).

(* how a function ends *)
(* (Rust: return, unwinding) *)
Inductive fin := FRet (r : rval) | FPanic (p : panic) | FStuck.
(* (Rust: the memory afterwards, and the end) *)
Definition R := (heap * fin)%type.
(* (none of the program) *)
Definition stuck (h : heap) : R := (h, FStuck).

(* what a function body is run in: its `Self`, parameters, inferred types, the build, and the implementations it may call *)
(* (rustc: the instantiation of an implementation) *)
Record ctx := Ctx {
  c_self : ty;
  c_types : list (name * ty);
  c_lens : list (name * nat);
  c_holes : list ty;
  c_checks : bool;              (* overflow checks and debug assertions *)
  c_enc : ty -> val -> E;
  c_dec : ty -> D val;
  c_size : ty -> option N;      (* `MAX_ENCODED_SIZE` *)
  c_size_of : ty -> N }.

(* ---- lookup *)

(* (Rust: names) *)
Fixpoint lookup {A} (x : name) (l : list (name * A)) : option A :=
  match l with
  | [] => None
  | (y, a) :: l' => if name_eqb x y then Some a else lookup x l'
  end.
(* (Rust: how much is in scope, or in memory) *)
Fixpoint count {A} (l : list A) : nat := match l with [] => O | _ :: l' => S (count l') end.
Fixpoint place {A} (l : list A) (n : nat) : option A :=
  match l, n with
  | [], _ => None
  | a :: _, O => Some a
  | _ :: l', S n' => place l' n'
  end.
Fixpoint extend {A} (l : list A) (a : A) : list A := match l with [] => [a] | x :: l' => x :: extend l' a end.
(* (Rust: the end of a block, where the variables it declared go out of scope) *)
Fixpoint excess {A} (l m : list A) : nat :=
  match l, m with
  | l, [] => count l
  | [], _ => O
  | _ :: l', _ :: m' => excess l' m'
  end.
Fixpoint drop {A} (n : nat) (l : list A) : list A := match n, l with S n', _ :: l' => drop n' l' | _, _ => l end.
Definition restore {A} (outer inner : list A) : list A := drop (excess inner outer) inner.
(* (Rust: an assignment to memory) *)
Fixpoint update {A} (l : list A) (n : nat) (a : A) : list A :=
  match l, n with
  | [], _ => []
  | _ :: l', O => a :: l'
  | x :: l', S n' => x :: update l' n' a
  end.
Fixpoint store {A} (n : nat) (a : A) (l : list A) : list A :=
  match l, n with
  | [], _ => []
  | _ :: l', O => a :: l'
  | x :: l', S n' => x :: store n' a l'
  end.
(* (Rust: the last segment of a path) *)
Fixpoint last_name (p : path) : option name :=
  match p with
  | [] => None
  | [(x, _)] => Some x
  | _ :: p' => last_name p'
  end.
(* (Rust: its arguments) *)
Fixpoint last_args (p : path) : list rty :=
  match p with
  | [] => []
  | [(_, ts)] => ts
  | _ :: p' => last_args p'
  end.
(* (Rust: the segment before it) *)
Fixpoint owner (p : path) : option name :=
  match p with
  | (x, _) :: [_] => Some x
  | _ :: p' => owner p'
  | [] => None
  end.

(* ---- types *)

(* (core: the primitive types, and some others, by name) *)
Definition primitive (x : name) : option ty :=
  lookup x [(id_u8, TInt U8); (id_u16, TInt U16); (id_u32, TInt U32); (id_u64, TInt U64); (id_u128, TInt U128);
            (id_i8, TInt I8); (id_i16, TInt I16); (id_i32, TInt I32); (id_i64, TInt I64); (id_i128, TInt I128);
            (id_usize, TInt Usize); (id_isize, TInt Isize); (id_f32, TF32); (id_f64, TF64); (id_bool, TBool); (id_char, TChar);
            (id_Duration, TDuration); (id_Ipv4Addr, TIpv4); (id_Ipv6Addr, TIpv6); (id_SocketAddrV6, TSockV6)].
(* (rustc: what a type name means here) *)
Definition type_named (c : ctx) (x : name) : option ty :=
  if name_eqb x id_Self then Some (c_self c)
  else match lookup x (c_types c) with Some t => Some t | None => primitive x end.
(* (rustc: what a type means here; only names) *)
Definition type_of (c : ctx) (t : rty) : option ty :=
  match t with
  | YPath p => match last_name p with Some x => type_named c x | None => None end
  | _ => None
  end.

(* (core: `as`) *)
Definition cast (i : ity) (z : Z) : Z :=
  let m := z mod 2 ^ (8 * Z.of_nat (iwidth i)) in if isigned i then to_signed (iwidth i) m else m.
(* (core: `MIN..=MAX`) *)
Definition fits (i : ity) (z : Z) : bool :=
  if isigned i then (- 2 ^ (8 * Z.of_nat (iwidth i) - 1) <=? z) && (z <? 2 ^ (8 * Z.of_nat (iwidth i) - 1))
  else (0 <=? z) && (z <? 2 ^ (8 * Z.of_nat (iwidth i))).

(* ---- views of values *)

(* (Rust: an operand that is an integer) *)
Definition as_int (r : rval) : option (option ity * Z) :=
  match r with
  | RInt i z => Some (i, z)
  | RVal (TInt i) (VInt z) => Some (Some i, z)
  | _ => None
  end.
(* (Rust: a condition) *)
Definition as_bool (r : rval) : option bool :=
  match r with
  | RBool b => Some b
  | RVal TBool (VBool b) => Some b
  | _ => None
  end.
(* (Rust: a value that is complete in itself) *)
Definition plain (r : rval) : option val :=
  match r with
  | RVal _ v => Some v
  | RInt _ z => Some (VInt z)
  | RBool b => Some (VBool b)
  | _ => None
  end.
Fixpoint plains (rs : list rval) : option (list val) :=
  match rs with
  | [] => Some []
  | r :: rs' =>
    match plain r, plains rs' with
    | Some v, Some vs => Some (v :: vs)
    | _, _ => None
    end
  end.
(* the cells of an array that is initialised, and its octets *)
(* (Rust: reading memory) *)
Fixpoint filled (cs : list (option rval)) : option (list rval) :=
  match cs with
  | [] => Some []
  | Some r :: cs' => option_map (cons r) (filled cs')
  | None :: _ => None
  end.
Fixpoint octets (rs : list rval) : option (list byte) :=
  match rs with
  | [] => Some []
  | r :: rs' =>
    match r, octets rs' with
    | RInt _ z, Some bs => Some (z2b z :: bs)
    | RDefault, Some bs => Some (x00 :: bs)
    | _, _ => None
    end
  end.
Definition cell (b : byte) : option rval := Some (RInt (Some U8) (b2z b)).
Definition octets_at (cs : list (option rval)) (len : nat) : option (list byte) :=
  match filled (firstn len cs) with
  | Some rs => octets rs
  | None => None
  end.
(* the type and value on which `.encode(..)` is called; a guard is dereferenced *)
(* (rustc: the method found) *)
Definition typed1 (r : rval) : option (ty * val) :=
  match r with
  | RVal t v => Some (t, v)
  | RInt (Some i) z => Some (TInt i, VInt z)
  | RBool b => Some (TBool, VBool b)
  | RBytes bs => Some (TSlice (TInt U8), VSeq (map (fun b => VInt (b2z b)) bs))
  | _ => None
  end.
Definition typed (r : rval) : option (ty * val) :=
  match r with
  | RCon x [r'] => if name_eqb x id_Ref then typed1 r' else None
  | _ => typed1 r
  end.
(* `T::encode(x, output)`, where x dereferences to T: the content of a smart pointer or guard *)
(* (core, alloc, std: `Deref` of the types that oct/src/encode/encode/mod.rs:153-693 dereferences) *)
Definition deref (r : rval) : option (ty * val) :=
  match r with
  | RVal (TWrap _ t) (VWrap v) => Some (t, v)
  | RVal (TCow t) (VCow _ v) => Some (t, v)
  | RCon x [r'] => if name_eqb x id_Ref then typed1 r' else None
  | _ => None
  end.
(* the variant of an enumeration of the standard library *)
(* (core: `Option`, `Result`, `Bound`, `IpAddr`, `SocketAddr`) *)
Definition variant (r : rval) : option (name * list rval) :=
  match r with
  | RCon x rs => Some (x, rs)
  | RVal (TOption _) VNone => Some (id_None, [])
  | RVal (TOption t) (VSome v) => Some (id_Some, [RVal t v])
  | RVal (TResult t _) (VOk v) => Some (id_Ok, [RVal t v])
  | RVal (TResult _ t) (VErr v) => Some (id_Err, [RVal t v])
  | RVal (TBound t) (VIncluded v) => Some (id_Included, [RVal t v])
  | RVal (TBound t) (VExcluded v) => Some (id_Excluded, [RVal t v])
  | RVal (TBound t) VUnbounded => Some (id_Unbounded, [])
  | RVal TIpAddr (VIpV4 o) => Some (id_V4, [RVal TIpv4 (VIp4 o)])
  | RVal TIpAddr (VIpV6 o) => Some (id_V6, [RVal TIpv6 (VIp6 o)])
  | RVal TSockAddr (VSockV4 o p) => Some (id_V4, [RVal TSockV4 (VSock4 o p)])
  | RVal TSockAddr (VSockV6 o p f s) => Some (id_V6, [RVal TSockV6 (VSock6 o p f s)])
  | _ => None
  end.
(* the members of a tuple *)
Fixpoint members (ts : list ty) (vs : list val) : option (list rval) :=
  match ts, vs with
  | [], [] => Some []
  | t :: ts', v :: vs' => option_map (cons (RVal t v)) (members ts' vs')
  | _, _ => None
  end.
Definition tuple (r : rval) : option (list rval) :=
  match r with
  | RTup rs => Some rs
  | RVal (TTuple ts) (VTuple vs) => members ts vs
  | _ => None
  end.

(* ---- patterns *)

(* (Rust: matching; [ks] gets the variables, [kf] is taken if the value does not match) *)
Fixpoint bind (p : pat) (r : rval) (ρ : env) (ks : env -> R) (kf : R) {struct p} : R :=
  let fix binds (ps : list pat) (rs : list rval) (ρ : env) (ks : env -> R) {struct ps} : R :=
    match ps, rs with
    | [], [] => ks ρ
    | p :: ps', r :: rs' => bind p r ρ (fun ρ => binds ps' rs' ρ ks) kf
    | _, _ => kf
    end in
  let fix alternatives (ps : list pat) : R :=
    match ps with
    | [] => kf
    | p :: ps' => bind p r ρ ks (alternatives ps')
    end in
  let fix fields (fs : list (name * pat)) (rs : list (name * rval)) (ρ : env) (ks : env -> R) {struct fs} : R :=
    match fs with
    | [] => ks ρ
    | (x, p) :: fs' =>
      match lookup x rs with
      | Some r => bind p r ρ (fun ρ => fields fs' rs ρ ks) kf
      | None => kf
      end
    end in
  match p with
  | PAny | PRest => ks ρ
  | PVar x => ks ((x, r) :: ρ)
  | PAt x p => bind p r ((x, r) :: ρ) ks kf
  | PLit n => match as_int r with Some (_, z) => if z =? n then ks ρ else kf | None => kf end
  | PRange lo hi => match as_int r with Some (_, z) => if (lo <=? z) && (z <=? hi) then ks ρ else kf | None => kf end
  | POr ps => alternatives ps
  | PTup ps => match tuple r with Some rs => binds ps rs ρ ks | None => kf end
  | PCon q ps =>
    match variant r, last_name q with
    | Some (x, rs), Some y => if name_eqb x y then binds ps rs ρ ks else kf
    | _, _ => kf
    end
  | PRec q fs => match r with RRec _ rs => fields fs rs ρ ks | _ => kf end
  end.

(* ---- calls of `encode`, `decode` and the streams *)

(* (Rust: a call of `Encode::encode` with the output at [l]) *)
Definition call_encode (c : ctx) (tv : option (ty * val)) (l : nat) (h : heap) (k : rval -> heap -> R) : R :=
  match tv, place h l with
  | Some (t, v), Some (OOutput o) =>
    match c_enc c t v o with
    | (o', Ok _) => k (RCon id_Ok [RTup []]) (update h l (OOutput o'))
    | (o', Err e) => k (RCon id_Err [REErr e]) (update h l (OOutput o'))
    | (o', Panic p) => (update h l (OOutput o'), FPanic p)
    end
  | _, _ => stuck h
  end.
(* (Rust: a call of `Decode::decode` with the input at [l]) *)
Definition call_decode (c : ctx) (t : option ty) (l : nat) (h : heap) (k : rval -> heap -> R) : R :=
  match t, place h l with
  | Some t, Some (OInput i) =>
    match c_dec c t i with
    | (i', Ok v) => k (RCon id_Ok [RVal t v]) (update h l (OInput i'))
    | (i', Err e) => k (RCon id_Err [RDErr e]) (update h l (OInput i'))
    | (i', Panic p) => (update h l (OInput i'), FPanic p)
    end
  | _, _ => stuck h
  end.
(* `Output::write`, oct/src/encode/output/mod.rs:49-71 *)
Definition call_write (o : output) (l : nat) (bs : list byte) (h : heap) (k : rval -> heap -> R) : R :=
  match output_write o bs with
  | (o', Ok _) => k (RCon id_Ok [RTup []]) (update h l (OOutput o'))
  | (o', Err e) => k (RCon id_Err [ROErr e]) (update h l (OOutput o'))
  | (o', Panic p) => (update h l (OOutput o'), FPanic p)
  end.
(* `Input::read`, oct/src/decode/input/mod.rs:49-69 *)
Definition call_read (i : input) (l : nat) (n : Z) (h : heap) (k : rval -> heap -> R) : R :=
  match input_read i (Z.to_nat n) with
  | (i', Ok bs) => k (RCon id_Ok [RBytes bs]) (update h l (OInput i'))
  | (i', Err e) => k (RCon id_Err [RIErr e]) (update h l (OInput i'))
  | (i', Panic p) => (update h l (OInput i'), FPanic p)
  end.
(* `Input::read_into`, oct/src/decode/input/mod.rs:79-101; [m] is the buffer *)
Definition call_read_into (i : input) (l m : nat) (dst : list byte) (h : heap) (k : rval -> heap -> R) : R :=
  match input_read_into i dst with
  | (i', bs, Ok _) => k (RCon id_Ok [RTup []]) (update (update h l (OInput i')) m (OCells (map cell bs) (length bs)))
  | (i', bs, Err e) => k (RCon id_Err [RIErr e]) (update h l (OInput i'))
  | (i', bs, Panic p) => (h, FPanic p)
  end.
(* `.unwrap()`: the panic shows the error *)
Definition unwrap_panic (r : rval) : panic :=
  match r with
  | ROErr e => POutput e
  | RIErr e => PInput e
  | _ => PStuck
  end.

(* ---- operators *)

(* (core: arithmetic that does or does not check for overflow) *)
Definition arith (c : ctx) (i : option ity) (z : Z) (h : heap) (k : rval -> heap -> R) : R :=
  match i with
  | None => k (RInt None z) h
  | Some i => if fits i z then k (RInt (Some i) z) h else if c_checks c then (h, FPanic PArith) else k (RInt (Some i) (cast i z)) h
  end.
(* (core: the order of two moments) *)
Definition time_le (s n s' n' : Z) : bool := (s <? s') || ((s =? s') && (n <=? n')).
(* (core: the operators on integers and moments) *)
Definition operate (c : ctx) (o : binop) (a b : rval) (h : heap) (k : rval -> heap -> R) : R :=
  match as_int a, as_int b with
  | Some (i, x), Some (j, y) =>
    let t := match i with Some i => Some i | None => j end in
    match o with
    | OEq => k (RBool (x =? y)) h
    | ONe => k (RBool (negb (x =? y))) h
    | OLt => k (RBool (x <? y)) h
    | OGt => k (RBool (y <? x)) h
    | OLe => k (RBool (x <=? y)) h
    | OGe => k (RBool (y <=? x)) h
    | OAdd => arith c t (x + y) h k
    | OSub => arith c t (x - y) h k
    | OMul => arith c t (x * y) h k
    | _ => stuck h
    end
  | _, _ =>
    match o, a, b with
    | OGe, RVal TSystemTime (VTime s n), RVal TSystemTime (VTime s' n') => k (RBool (time_le s' n' s n)) h
    | _, _, _ => stuck h
    end
  end.

(* ---- functions of the standard library *)

(* (core: the numbers lo, lo + 1, .., hi - 1) *)
Definition range_list (i : option ity) (lo hi : Z) : list rval :=
  map (fun j => RInt i (lo + Z.of_nat j)) (seq 0 (Z.to_nat (hi - lo))).
(* (core: `Iterator::enumerate`) *)
Fixpoint enumerate (j : nat) (rs : list rval) : list rval :=
  match rs with
  | [] => []
  | r :: rs' => RTup [RInt (Some Usize) (Z.of_nat j); r] :: enumerate (S j) rs'
  end.
(* (core: `IntoIterator`) *)
Definition iterate (r : rval) : option (list rval) :=
  match r with
  | RIter rs => Some rs
  | RSpan (Some a) (Some b) false =>
    match as_int a, as_int b with
    | Some (i, x), Some (j, y) => Some (range_list (match i with Some i => Some i | None => j end) x y)
    | _, _ => None
    end
  | RVal (THashMap k v) (VMap kvs) => Some (map (fun p => RTup [RVal k (fst p); RVal v (snd p)]) kvs)
  | RVal (THashSet k) (VSet ks) => Some (map (RVal k) ks)
  | _ => None
  end.
(* (Rust: a new object) *)
Definition alloc (o : obj) (h : heap) (k : rval -> heap -> R) : R := k (RRef (count h)) (extend h o).
(* (core: `{integer}::from_le_bytes`, and of floats by their bits) *)
Definition from_le (t : ty) (bs : list byte) : option rval :=
  match t with
  | TInt i => Some (RInt (Some i) (if isigned i then to_signed (iwidth i) (of_le bs) else of_le bs))
  | TF32 | TF64 => Some (RVal t (VInt (of_le bs)))
  | _ => None
  end.
(* (core: `{integer}::to_le_bytes`, and of floats by their bits) *)
Definition to_le (r : rval) : option (list byte) :=
  match r with
  | RInt (Some i) z => Some (le_bytes (iwidth i) z)
  | RVal (TInt i) (VInt z) => Some (le_bytes (iwidth i) z)
  | RVal TF32 (VInt z) => Some (le_bytes 4 z)
  | RVal TF64 (VInt z) => Some (le_bytes 8 z)
  | _ => None
  end.
(* `Self::new(..)` *)
(* (core, alloc, std: the constructors that oct/src/decode/decode/mod.rs calls) *)
Definition std_new (t : ty) (args : list rval) (h : heap) (k : rval -> heap -> R) : R :=
  match t, args with
  | TLinked _, [] => alloc (OList []) h k
  | TWrap _ _, [r] => match plain r with Some v => k (RVal t (VWrap v)) h | None => stuck h end
  | TRefCell _, [r] => match plain r with Some v => k (RVal t (VRefCell false v)) h | None => stuck h end
  | TLock _ _, [r] => match plain r with Some v => k (RVal t (VLock false v)) h | None => stuck h end
  | TDuration, [a; b] =>
    match as_int a, as_int b with
    | Some (_, s), Some (_, n) =>
      match duration_new s n with
      | Ok v => k (RVal TDuration v) h
      | Err _ => stuck h
      | Panic p => (h, FPanic p)
      end
    | _, _ => stuck h
    end
  | TSockV4, [RVal TIpv4 (VIp4 o); b] => match as_int b with Some (_, p) => k (RVal t (VSock4 o p)) h | None => stuck h end
  | TSockV6, [RVal TIpv6 (VIp6 o); b; d; e] =>
    match as_int b, as_int d, as_int e with
    | Some (_, p), Some (_, f), Some (_, s) => k (RVal t (VSock6 o p f s)) h
    | _, _, _ => stuck h
    end
  | _, _ => stuck h
  end.
(* the memory of a vector or array behind a value *)
Definition buffer (h : heap) (r : rval) : option (list (option rval) * nat) :=
  match r with
  | RRef l => match place h l with Some (OCells cs n) => Some (cs, n) | _ => None end
  | _ => None
  end.
Definition buffer_octets (h : heap) (r : rval) : option (list byte) :=
  match buffer h r with
  | Some (cs, n) => octets_at cs n
  | None => None
  end.
(* `copy_nonoverlapping(src, dst, n)` for octets *)
(* (core; stuck when it would read or write out of bounds) *)
Definition copy (bs : list byte) (l off : nat) (n : nat) (h : heap) (k : rval -> heap -> R) : R :=
  match place h l with
  | Some (OCells cs len) =>
    if (n <=? length bs)%nat && (off + n <=? length cs)%nat
    then k (RTup []) (update h l (OCells (firstn off cs ++ map cell (firstn n bs) ++ skipn (off + n) cs) len))
    else stuck h
  | _ => stuck h
  end.

(* functions by path: the type before the last segment, if it names one, and the name *)
(* (core, alloc, std; oct/src/decode/decode/mod.rs and oct/src/encode/encode/mod.rs call them) *)
Definition std_call (c : ctx) (t : option ty) (f : name) (args : list rval) (h : heap) (k : rval -> heap -> R) : R :=
  if name_eqb f id_decode then
    match args with [RRef l] => call_decode c t l h k | _ => stuck h end
  else if name_eqb f id_encode then
    match args with [r; RRef l] => call_encode c (deref r) l h k | _ => stuck h end
  else if name_eqb f id_new then
    match t with Some t => std_new t args h k | None => stuck h end
  else if name_eqb f id_with_capacity then
    match args with
    | [r] => match as_int r with Some (_, n) => alloc (OCells (repeat None (Z.to_nat n)) 0) h k | None => stuck h end
    | _ => stuck h
    end
  else if name_eqb f id_with_capacity_and_hasher then
    match t with
    | Some (THashMap _ _) => alloc (OMap []) h k
    | Some (THashSet _) => alloc (OSet []) h k
    | _ => stuck h
    end
  else if name_eqb f id_default then k RDefault h
  else if name_eqb f id_uninit then k RUninit h
  else if name_eqb f id_from_le_bytes then
    match t, args with
    | Some t, [r] => match buffer_octets h r with
                     | Some bs => match from_le t bs with Some r => k r h | None => stuck h end
                     | None => stuck h
                     end
    | _, _ => stuck h
    end
  else if name_eqb f id_from_bits then
    match t, args with
    | Some TIpv4, [r] => match as_int r with Some (_, z) => k (RVal TIpv4 (VIp4 (be_bytes 4 z))) h | None => stuck h end
    | Some TIpv6, [r] => match as_int r with Some (_, z) => k (RVal TIpv6 (VIp6 (be_bytes 16 z))) h | None => stuck h end
    | _, _ => stuck h
    end
  else if name_eqb f id_from_u32_unchecked then
    match args with
    | [r] => match as_int r with Some (_, z) => k (RVal TChar (VChar z)) h | None => stuck h end
    | _ => stuck h
    end
  else if name_eqb f id_new_unchecked then
    match args with
    | [r] => match as_int r with Some (Some i, z) => k (RVal (TNonZero i) (VInt z)) h | _ => stuck h end
    | _ => stuck h
    end
  else if name_eqb f id_from_vec_unchecked then
    match args with
    | [r] => match buffer_octets h r with Some bs => k (RVal TCString (VStr bs)) h | None => stuck h end
    | _ => stuck h
    end
  else if name_eqb f id_from_utf8_unchecked then
    match args with
    | [r] => match buffer_octets h r with Some bs => k (RVal TString (VStr bs)) h | None => stuck h end
    | _ => stuck h
    end
  else if name_eqb f id_from_utf8 then
    match args with
    | [RBytes bs] =>
      match from_utf8 bs with
      | None => k (RCon id_Ok [RVal TStr (VStr bs)]) h
      | Some i => k (RCon id_Err [RCon id_Utf8Error [RInt (Some Usize) (Z.of_nat i)]]) h
      end
    | _ => stuck h
    end
  else if name_eqb f id_copy_nonoverlapping then
    match args with
    | [RSrc bs; RPtr l off; r] => match as_int r with Some (_, n) => copy bs l off (Z.to_nat n) h k | None => stuck h end
    | _ => stuck h
    end
  else if name_eqb f id_from_secs then
    match args with
    | [r] => match as_int r with Some (_, s) => k (RVal TDuration (VDuration s 0)) h | None => stuck h end
    | _ => stuck h
    end
  else if name_eqb f id_from then
    match t, args with
    | Some (TInt i), [r] =>
      match r with
      | RVal TBool (VBool b) => k (RInt (Some i) (if b then 1 else 0)) h
      | RVal TChar (VChar z) => k (RInt (Some i) z) h
      | _ => stuck h
      end
    | _, _ => stuck h
    end
  else if name_eqb f id_try_from then
    match t, args with
    | Some (TInt i), [r] =>
      match as_int r with
      | Some (_, z) => if fits i z then k (RCon id_Ok [RInt (Some i) z]) h else k (RCon id_Err [RCon id_TryFromIntError []]) h
      | None => stuck h
      end
    | _, _ => stuck h
    end
  else if name_eqb f id_unreachable_unchecked then stuck h
  else k (RCon f args) h.

(* `x.f(..)` on what a value is at hand for; the receiver comes first *)
(* (core, alloc, std; oct/src/decode/decode/mod.rs and oct/src/encode/encode/mod.rs call them) *)
Definition std_method (c : ctx) (m : name) (r : rval) (args : list rval) (h : heap) (k : rval -> heap -> R) : R :=
  if name_eqb m id_encode then
    match args with [RRef l] => call_encode c (typed r) l h k | _ => stuck h end
  else if name_eqb m id_write then
    match r, args with
    | RRef l, [RBytes bs] => match place h l with Some (OOutput o) => call_write o l bs h k | _ => stuck h end
    | RPtr l off, [a] =>
      match place h l with
      | Some (OCells cs len) => if (off <? length cs)%nat then k (RTup []) (update h l (OCells (store off (Some a) cs) len)) else stuck h
      | _ => stuck h
      end
    | _, _ => stuck h
    end
  else if name_eqb m id_read then
    match r, args with
    | RRef l, [a] =>
      match as_int a, place h l with
      | Some (_, n), Some (OInput i) => call_read i l n h k
      | _, _ => stuck h
      end
    | RPtr l O, [] => k (RRef l) h
    | RVal (TLock RwLock t) (VLock p v), [] =>
      if p then k (RCon id_Err [RCon id_PoisonError [RCon id_Ref [RVal t v]]]) h else k (RCon id_Ok [RCon id_Ref [RVal t v]]) h
    | _, _ => stuck h
    end
  else if name_eqb m id_lock then
    match r with
    | RVal (TLock Mutex t) (VLock p v) =>
      if p then k (RCon id_Err [RCon id_PoisonError [RCon id_Ref [RVal t v]]]) h else k (RCon id_Ok [RCon id_Ref [RVal t v]]) h
    | _ => stuck h
    end
  else if name_eqb m id_into_inner then
    match r with RCon _ [g] => k g h | _ => stuck h end
  else if name_eqb m id_unwrap_or_else then     (* the argument is `PoisonError::into_inner` *)
    match r, args with
    | RCon x [a], [RCon f []] =>
      if name_eqb x id_Ok then k a h
      else if name_eqb f id_into_inner then match a with RCon _ [g] => k g h | _ => stuck h end
      else stuck h
    | _, _ => stuck h
    end
  else if name_eqb m id_read_into then
    match r, args with
    | RRef l, [RRef d] =>
      match place h l, buffer_octets h (RRef d) with
      | Some (OInput i), Some dst => call_read_into i l d dst h k
      | _, _ => stuck h
      end
    | _, _ => stuck h
    end
  else if name_eqb m id_unwrap then
    match r with
    | RCon x [a] => if name_eqb x id_Ok then k a h else (h, FPanic (unwrap_panic a))
    | _ => stuck h
    end
  else if name_eqb m id_expect then
    match r with
    | RCon x [a] => if name_eqb x id_Ok then k a h else (h, FPanic (unwrap_panic a))
    | _ => stuck h
    end
  else if name_eqb m id_map_err then            (* the argument is a variant or `Into::into` *)
    match r, args with
    | RCon x [a], [RCon f []] =>
      if name_eqb x id_Ok then k r h
      else if name_eqb f id_into then
        match a, c_self c with
        | REErr e, TResult t e' => k (RCon id_Err [REErr (result_conv t e' e)]) h
        | _, _ => stuck h
        end
      else k (RCon id_Err [RCon f [a]]) h
    | _, _ => stuck h
    end
  else if name_eqb m id_ok_or then
    match r, args with
    | RCon x [a], [_] => if name_eqb x id_Some then k (RCon id_Ok [a]) h else stuck h
    | RCon x [], [e] => k (RCon id_Err [e]) h
    | _, _ => stuck h
    end
  else if name_eqb m id_try_borrow then
    match r with
    | RVal (TRefCell t) (VRefCell b v) =>
      if b then k (RCon id_Err [RCon id_BorrowError []]) h else k (RCon id_Ok [RCon id_Ref [RVal t v]]) h
    | _ => stuck h
    end
  else if name_eqb m id_get then
    match r with
    | RVal (TWrap WCell t) (VWrap v) => k (RVal t v) h
    | RVal (TNonZero i) (VInt z) => k (RInt (Some i) z) h
    | _ => stuck h
    end
  else if name_eqb m id_load then
    match r with RVal (TWrap WAtomic t) (VWrap v) => k (RVal t v) h | _ => stuck h end
  else if name_eqb m id_len then
    match r with
    | RVal _ (VSeq vs) => k (RInt (Some Usize) (Z.of_nat (length vs))) h
    | RVal _ (VStr bs) | RBytes bs => k (RInt (Some Usize) (Z.of_nat (length bs))) h
    | _ => stuck h
    end
  else if name_eqb m id_iter then
    match r with
    | RVal (TArray t _) (VSeq vs) | RVal (TSlice t) (VSeq vs) | RVal (TLinked t) (VSeq vs) => k (RIter (map (RVal t) vs)) h
    | RBytes bs => k (RIter (map (fun b => RInt (Some U8) (b2z b)) bs)) h
    | _ => stuck h
    end
  else if name_eqb m id_iter_mut then
    match r with
    | RRef l => match place h l with Some (OCells _ n) => k (RIter (map (RPtr l) (seq 0 n))) h | _ => stuck h end
    | _ => stuck h
    end
  else if name_eqb m id_enumerate then
    match r with RIter rs => k (RIter (enumerate 0 rs)) h | _ => stuck h end
  else if name_eqb m id_as_slice then
    match r with
    | RVal (TVec t) (VSeq vs) | RVal (TSizedSlice t _) (VSeq vs) => k (RVal (TSlice t) (VSeq vs)) h
    | _ => stuck h
    end
  else if name_eqb m id_as_str then
    match r with
    | RVal TString (VStr bs) | RVal (TSizedStr _) (VStr bs) => k (RVal TStr (VStr bs)) h
    | _ => stuck h
    end
  else if name_eqb m id_as_bytes then
    match r with RVal TStr (VStr bs) => k (RBytes bs) h | _ => stuck h end
  else if name_eqb m id_as_c_str then
    match r with RVal TCString (VStr bs) => k (RVal TCStr (VStr bs)) h | _ => stuck h end
  else if name_eqb m id_to_bytes then
    match r with RVal TCStr (VStr bs) => k (RBytes bs) h | _ => stuck h end
  else if name_eqb m id_to_le_bytes then
    match to_le r with Some bs => k (RBytes bs) h | None => stuck h end
  else if name_eqb m id_to_bits then
    match r with
    | RVal TIpv4 (VIp4 o) => k (RInt (Some U32) (of_be o)) h
    | RVal TIpv6 (VIp6 o) => k (RInt (Some U128) (of_be o)) h
    | _ => stuck h
    end
  else if name_eqb m id_ip then
    match r with
    | RVal TSockV4 (VSock4 o _) => k (RVal TIpv4 (VIp4 o)) h
    | RVal TSockV6 (VSock6 o _ _ _) => k (RVal TIpv6 (VIp6 o)) h
    | _ => stuck h
    end
  else if name_eqb m id_port then
    match r with
    | RVal TSockV4 (VSock4 _ p) | RVal TSockV6 (VSock6 _ p _ _) => k (RInt (Some U16) p) h
    | _ => stuck h
    end
  else if name_eqb m id_flowinfo then
    match r with RVal TSockV6 (VSock6 _ _ f _) => k (RInt (Some U32) f) h | _ => stuck h end
  else if name_eqb m id_scope_id then
    match r with RVal TSockV6 (VSock6 _ _ _ s) => k (RInt (Some U32) s) h | _ => stuck h end
  else if name_eqb m id_as_secs then
    match r with RVal TDuration (VDuration s _) => k (RInt (Some U64) s) h | _ => stuck h end
  else if name_eqb m id_subsec_nanos then
    match r with RVal TDuration (VDuration _ n) => k (RInt (Some U32) n) h | _ => stuck h end
  else if name_eqb m id_duration_since then
    match r, args with
    | RVal TSystemTime (VTime s n), [RVal TSystemTime (VTime s' n')] =>
      if time_le s' n' s n
      then k (RCon id_Ok [RVal TDuration (VDuration (secs_between s n s' n') ((s * 1000000000 + n - (s' * 1000000000 + n')) mod 1000000000))]) h
      else k (RCon id_Err [RCon id_SystemTimeError []]) h
    | _, _ => stuck h
    end
  else if name_eqb m id_checked_add then
    match r, args with
    | RVal TSystemTime (VTime s n), [RVal TDuration (VDuration s' n')] =>
      let t := s + s' + (n + n') / 1000000000 in
      if fits I64 t then k (RCon id_Some [RVal TSystemTime (VTime t ((n + n') mod 1000000000))]) h else k (RCon id_None []) h
    | _, _ => stuck h
    end
  else if name_eqb m id_checked_sub then
    match r, args with
    | RVal TSystemTime (VTime s n), [RVal TDuration (VDuration s' n')] =>
      let t := s - s' + (n - n') / 1000000000 in
      if fits I64 t then k (RCon id_Some [RVal TSystemTime (VTime t ((n - n') mod 1000000000))]) h else k (RCon id_None []) h
    | _, _ => stuck h
    end
  else if name_eqb m id_is_positive then
    match as_int r with Some (_, z) => k (RBool (0 <? z)) h | None => stuck h end
  else if name_eqb m id_unsigned_abs then
    match as_int r with Some (Some I64, z) => k (RInt (Some U64) (Z.abs z)) h | _ => stuck h end
  else if name_eqb m id_start then
    match r with RVal (TRangeInclusive t) (VRangeInclusive a _ _) => k (RVal t a) h | _ => stuck h end
  else if name_eqb m id_end then
    match r with RVal (TRangeInclusive t) (VRangeInclusive _ b _) => k (RVal t b) h | _ => stuck h end
  else if name_eqb m id_valid_up_to then
    match r with RCon _ [i] => k i h | _ => stuck h end
  else if name_eqb m id_as_ptr then
    match r with
    | RBytes bs => k (RSrc bs) h
    | RRef l => k (RPtr l 0) h
    | _ => stuck h
    end
  else if name_eqb m id_as_mut_ptr then
    match r with RRef l => k (RPtr l 0) h | _ => stuck h end
  else if name_eqb m id_cast then k r h
  else if name_eqb m id_add then
    match r, args with
    | RPtr l off, [a] => match as_int a with Some (_, n) => k (RPtr l (off + Z.to_nat n)) h | None => stuck h end
    | _, _ => stuck h
    end
  else if name_eqb m id_set_len then
    match r, args with
    | RRef l, [a] =>
      match as_int a, place h l with
      | Some (_, n), Some (OCells cs _) =>
        if (Z.to_nat n <=? length cs)%nat then k (RTup []) (update h l (OCells cs (Z.to_nat n))) else stuck h
      | _, _ => stuck h
      end
    | _, _ => stuck h
    end
  else if name_eqb m id_push_back then
    match r, args with
    | RRef l, [a] => match place h l with Some (OList rs) => k (RTup []) (update h l (OList (rs ++ [a]))) | _ => stuck h end
    | _, _ => stuck h
    end
  else if name_eqb m id_insert then
    match r, args with
    | RRef l, [a; b] =>
      match place h l, plain a, plain b with
      | Some (OMap kvs), Some x, Some y => k (RTup []) (update h l (OMap (map_insert x y kvs)))
      | _, _, _ => stuck h
      end
    | RRef l, [a] =>
      match place h l, plain a with
      | Some (OSet ks), Some x => k (RTup []) (update h l (OSet (set_insert x ks)))
      | _, _ => stuck h
      end
    | _, _ => stuck h
    end
  else stuck h.

(* a method whose argument is a closure *)
(* (core: `Result::map_err`, `Result::or_else`) *)
Definition closure_method (m : name) (r : rval) (apply : rval -> heap -> (rval -> heap -> R) -> R) (h : heap) (k : rval -> heap -> R) : R :=
  match r with
  | RCon x [a] =>
    if name_eqb m id_map_err then
      if name_eqb x id_Ok then k r h else apply a h (fun e h => k (RCon id_Err [e]) h)
    else if name_eqb m id_or_else then
      if name_eqb x id_Ok then k r h else apply a h k
    else stuck h
  | _ => stuck h
  end.

(* `self.start`, `self.end`, a field of a struct *)
(* (core: the fields of the ranges) *)
Definition field (r : rval) (x : name) : option rval :=
  match r with
  | RRec _ fs => lookup x fs
  | RVal (TRange t) (VRange a b) => if name_eqb x id_start then Some (RVal t a) else if name_eqb x id_end then Some (RVal t b) else None
  | RVal (TRangeFrom t) (VHalfRange a) => if name_eqb x id_start then Some (RVal t a) else None
  | RVal (TRangeTo t) (VHalfRange a) | RVal (TRangeToInclusive t) (VHalfRange a) => if name_eqb x id_end then Some (RVal t a) else None
  | _ => None
  end.
(* `self.0` *)
(* (core: `Wrapping`, `Saturating`, tuples) *)
Definition position (r : rval) (n : nat) : option rval :=
  match r with
  | RVal (TWrap WWrapping t) (VWrap v) | RVal (TWrap WSaturating t) (VWrap v) => match n with O => Some (RVal t v) | _ => None end
  | RCon _ rs => place rs n
  | _ => match tuple r with Some rs => place rs n | None => None end
  end.

(* `MAX_ENCODED_SIZE` of a type. Constants are exact numbers: one that overflows does not compile. *)
(* oct/src/encode/sized_encode/mod.rs:84 *)
Definition size_value (c : ctx) (t : option ty) (h : heap) (k : rval -> R) : R :=
  match t with
  | Some t => match c_size c t with Some n => k (RInt None (Z.of_N n)) | None => stuck h end
  | None => stuck h
  end.
(* a path as a value: a variable, a length, a constant, or a variant *)
(* (Rust: path expressions) *)
Definition path_value (c : ctx) (p : path) (ρ : env) (h : heap) (k : rval -> R) : R :=
  match p with
  | [(x, _)] =>
    match lookup x ρ with
    | Some r => k r
    | None =>
      match lookup x (c_lens c) with
      | Some n => k (RInt (Some Usize) (Z.of_nat n))
      | None => if name_eqb x id_UNIX_EPOCH then k (RVal TSystemTime (VTime 0 0)) else k (RCon x [])
      end
    end
  | _ =>
    match last_name p, owner p with
    | Some x, Some q => if name_eqb x id_MAX_ENCODED_SIZE then size_value c (type_named c q) h k else k (RCon x [])
    | _, _ => stuck h
    end
  end.
(* `<T as SizedEncode>::MAX_ENCODED_SIZE` *)
(* oct/src/decode/decode/mod.rs:825 *)
Definition qual_value (c : ctx) (t : rty) (p : path) (h : heap) (k : rval -> R) : R :=
  match last_name p with
  | Some x => if name_eqb x id_MAX_ENCODED_SIZE then size_value c (type_of c t) h k else stuck h
  | None => stuck h
  end.

(* ---- evaluation *)

(* the body of a loop, once for each value; a `break` leaves it *)
(* (Rust: `for`) *)
Fixpoint for_each (body : env -> heap -> (env -> heap -> R) -> (rval -> env -> heap -> R) -> R) (p : pat) (rs : list rval) (ρ : env) (h : heap)
    (k : env -> heap -> R) : R :=
  match rs with
  | [] => k ρ h
  | r :: rs' =>
    let leave := restore ρ in
    bind p r ρ (fun ρ1 => body ρ1 h (fun ρ2 h => k (leave ρ2) h) (fun _ ρ2 h => for_each body p rs' (leave ρ2) h k)) (stuck h)
  end.

Section Eval.
  Variable c : ctx.
  Variable callf : name -> name -> option (list rval -> heap -> (rval -> heap -> R) -> R).   (* functions of the crate: type, name *)
  Variable ret : rval -> heap -> R.                                                         (* `return` *)

  Variable loop : expr -> env -> heap -> (env -> heap -> R) -> (rval -> env -> heap -> R) -> R.  (* the body of a loop *)

  (* `size_of::<T>()` *)
  Definition size_of_type (p : path) (h : heap) (k : rval -> heap -> R) : R :=
    match last_args p with
    | [t] => match type_of c t with Some t => k (RInt None (Z.of_N (c_size_of c t))) h | None => stuck h end
    | _ => stuck h
    end.
  (* a call by path *)
  Definition call_path (p : path) (args : list rval) (h : heap) (k : rval -> heap -> R) : R :=
    match last_name p with
    | None => stuck h
    | Some f =>
      match owner p with
      | None =>
        if name_eqb f id_size_of then size_of_type p h k else std_call c None f args h k
      | Some q =>
        match callf q f with
        | Some run => run args h k
        | None =>
          if name_eqb f id_size_of then size_of_type p h k else std_call c (type_named c q) f args h k
        end
      end
    end.

  (* (Rust: expressions) *)
  Fixpoint eval (e : expr) (ρ : env) (h : heap) (kb : env -> heap -> R) (k : rval -> env -> heap -> R) {struct e} : R :=
    let fix evals (es : list expr) (ρ : env) (h : heap) (k : list rval -> env -> heap -> R) {struct es} : R :=
      match es with
      | [] => k [] ρ h
      | e :: es' => eval e ρ h kb (fun r ρ h => evals es' ρ h (fun rs ρ h => k (r :: rs) ρ h))
      end in
    let fix evalfs (es : list (name * expr)) (ρ : env) (h : heap) (k : list (name * rval) -> env -> heap -> R) {struct es} : R :=
      match es with
      | [] => k [] ρ h
      | (x, e) :: es' => eval e ρ h kb (fun r ρ h => evalfs es' ρ h (fun rs ρ h => k ((x, r) :: rs) ρ h))
      end in
    let fix arms (r : rval) (es : list (pat * expr)) (ρ : env) (h : heap) (k : rval -> env -> heap -> R) {struct es} : R :=
      match es with
      | [] => stuck h
      | (p, e) :: es' =>
        bind p r ρ (fun ρ' => eval e ρ' h kb (fun r ρ'' h => k r (restore ρ ρ'') h)) (arms r es' ρ h k)
      end in
    let leave := restore ρ in
    match e with
    | EPath p => path_value c p ρ h (fun r => k r ρ h)
    | EQual t _ p => qual_value c t p h (fun r => k r ρ h)
    | EInt z i =>
      match i with
      | None => k (RInt None z) ρ h
      | Some x => match primitive x with Some (TInt i) => k (RInt (Some i) z) ρ h | _ => stuck h end
      end
    | EBool b => k (RBool b) ρ h
    | EStr s => k (RBytes s) ρ h
    | ECall f es =>
      match f with
      | EPath p => evals es ρ h (fun rs ρ h => call_path p rs h (fun r h => k r ρ h))
      | EHole n _ =>
        evals es ρ h (fun rs ρ h => std_call c (place (c_holes c) n) id_decode rs h (fun r h => k r ρ h))
      | EQual t _ p =>
        match last_name p with
        | Some f => evals es ρ h (fun rs ρ h => std_call c (type_of c t) f rs h (fun r h => k r ρ h))
        | None => stuck h
        end
      | _ => stuck h
      end
    | EMethod e m _ es =>
      match es with
      | [EClosure [p] body] =>
        eval e ρ h kb (fun r ρ h =>
          closure_method m r (fun a h k' => bind p a ρ (fun ρ' => eval body ρ' h kb (fun r _ h => k' r h)) (stuck h)) h (fun r h => k r ρ h))
      | _ => eval e ρ h kb (fun r ρ h => evals es ρ h (fun rs ρ h => std_method c m r rs h (fun r h => k r ρ h)))
      end
    | EField e x => eval e ρ h kb (fun r ρ h => match field r x with Some r => k r ρ h | None => stuck h end)
    | EIdx e n => eval e ρ h kb (fun r ρ h => match position r n with Some r => k r ρ h | None => stuck h end)
    | EIndex a i =>
      eval a ρ h kb (fun a ρ h => eval i ρ h kb (fun i ρ h =>
        match a, as_int i with
        | RBytes bs, Some (_, z) =>
          match nth_error bs (Z.to_nat z) with
          | Some b => k (RInt (Some U8) (b2z b)) ρ h
          | None => (h, FPanic PIndex)
          end
        | _, _ => stuck h
        end))
    | EDeref e | ERef e | ERaw e => eval e ρ h kb k
    | ENot e => eval e ρ h kb (fun r ρ h => match as_bool r with Some b => k (RBool (negb b)) ρ h | None => stuck h end)
    | EBin o a b =>
      match o with
      | OAnd => eval a ρ h kb (fun r ρ h => match as_bool r with Some x => if x then eval b ρ h kb k else k (RBool false) ρ h | None => stuck h end)
      | OOr => eval a ρ h kb (fun r ρ h => match as_bool r with Some x => if x then k (RBool true) ρ h else eval b ρ h kb k | None => stuck h end)
      | _ => eval a ρ h kb (fun x ρ h => eval b ρ h kb (fun y ρ h => operate c o x y h (fun r h => k r ρ h)))
      end
    | ECast e t =>
      eval e ρ h kb (fun r ρ h =>
        match as_int r, type_of c t with
        | Some (_, z), Some (TInt i) => k (RInt (Some i) (cast i z)) ρ h
        | _, _ => stuck h
        end)
    | ERange lo hi inclusive =>
      match lo, hi with
      | None, None => k (RSpan None None inclusive) ρ h
      | Some a, None => eval a ρ h kb (fun a ρ h => k (RSpan (Some a) None inclusive) ρ h)
      | None, Some b => eval b ρ h kb (fun b ρ h => k (RSpan None (Some b) inclusive) ρ h)
      | Some a, Some b => eval a ρ h kb (fun a ρ h => eval b ρ h kb (fun b ρ h => k (RSpan (Some a) (Some b) inclusive) ρ h))
      end
    | ETry e =>
      eval e ρ h kb (fun r ρ h =>
        match r with
        | RCon x [a] => if name_eqb x id_Ok then k a ρ h else ret r h
        | _ => stuck h
        end)
    | EReturn e => eval e ρ h kb (fun r _ h => ret r h)
    | EBreak => kb ρ h
    | EIf e a b =>
      eval e ρ h kb (fun r ρ h => match as_bool r with Some x => if x then eval a ρ h kb k else eval b ρ h kb k | None => stuck h end)
    | EIfLet p e a b =>
      eval e ρ h kb (fun r ρ h =>
        bind p r ρ (fun ρ' => eval a ρ' h kb (fun r ρ'' h => k r (restore ρ ρ'') h)) (eval b ρ h kb k))
    | EMatch e es => eval e ρ h kb (fun r ρ h => arms r es ρ h k)
    | EFor p e body =>
      eval e ρ h kb (fun r ρ h =>
        match iterate r with
        | Some rs => for_each (loop body) p rs ρ h (fun ρ h => k (RTup []) ρ h)
        | None => stuck h
        end)
    | ETuple es => evals es ρ h (fun rs ρ h => k (RTup rs) ρ h)
    | ERepeat e n =>
      eval e ρ h kb (fun r ρ h => eval n ρ h kb (fun n ρ h =>
        match as_int n with
        | Some (_, z) =>
          alloc (OCells (repeat (match r with RUninit => None | _ => Some r end) (Z.to_nat z)) (Z.to_nat z)) h (fun r h => k r ρ h)
        | None => stuck h
        end))
    | ERec p fs => match last_name p with Some x => evalfs fs ρ h (fun rs ρ h => k (RRec x rs) ρ h) | None => stuck h end
    | EMacro m es =>
      if name_eqb m id_panic then (h, FPanic PInfallible)
      else if name_eqb m id_unreachable then (h, FPanic PUnreachable)
      else if name_eqb m id_debug_assert then
        if c_checks c then
          match es with
          | e :: _ => eval e ρ h kb (fun r ρ h => match as_bool r with Some b => if b then k (RTup []) ρ h else (h, FPanic PAssert) | None => stuck h end)
          | [] => stuck h
          end
        else k (RTup []) ρ h
      else stuck h
    | ELet p _ e els rest =>
      match e with
      | Some e =>
        eval e ρ h kb (fun r ρ h =>
          bind p r ρ (fun ρ' => eval rest ρ' h kb (fun r ρ'' h => k r (restore ρ ρ'') h))
            match els with Some b => eval b ρ h kb k | None => stuck h end)
      | None => stuck h
      end
    | ESeq a b => eval a ρ h kb (fun _ ρ h => eval b ρ h kb k)
    | EUse _ _ e => eval e ρ h kb k
    | EUnit => k (RTup []) ρ h
    | _ => stuck h
    end.
End Eval.

(* the body of a loop; no loop of the crate contains another *)
(* (Rust: expressions) *)
Definition in_loop (c : ctx) (callf : name -> name -> option (list rval -> heap -> (rval -> heap -> R) -> R)) (ret : rval -> heap -> R) :
    expr -> env -> heap -> (env -> heap -> R) -> (rval -> env -> heap -> R) -> R :=
  eval c callf ret (fun _ _ h _ _ => stuck h).

(* a function with its arguments *)
(* (Rust: a call) *)
Fixpoint bind_params (ps : list (pat * rty)) (rs : list rval) (ρ : env) (ks : env -> R) (kf : R) : R :=
  match ps, rs with
  | [], [] => ks ρ
  | (p, _) :: ps', r :: rs' => bind p r ρ (fun ρ => bind_params ps' rs' ρ ks kf) kf
  | _, _ => kf
  end.
Definition run_fn (c : ctx) (callf : name -> name -> option (list rval -> heap -> (rval -> heap -> R) -> R)) (f : fn) (args : list rval) (h : heap)
    (ret : rval -> heap -> R) : R :=
  bind_params (fn_params f) args [] (fun ρ => eval c callf ret (in_loop c callf ret) (fn_body f) ρ h (fun _ h => stuck h) (fun r _ h => ret r h)) (stuck h).
