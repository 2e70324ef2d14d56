(* The fragment of Rust in which the derive macros write, and its meaning. This is not code of the repository: it is what the compiler makes of
   the text that oct-macros/src/impls generates (Codegen.v). References are transparent. Definitions only. *)
From Coq Require Import String.
From Verif Require Import Base Types Macro ErrorText Sized.
Set Implicit Arguments.
Local Open Scope list_scope.

(* syn: `Ident` *)
Definition ident := list byte.
(* syn: `Ident: Eq` *)
Definition ident_eqb (a b : ident) : bool := if list_eq_dec Byte.byte_eq_dec a b then true else false.
(* (auxiliary) *)
Definition mem (x : ident) (l : list ident) : bool := existsb (ident_eqb x) l.

(* ---- Definitions, with names: `syn::Fields`, `syn::Variant`, `syn::Data` *)
(* matched at oct-macros/src/impls/encode_struct.rs:35-48 and decode_struct.rs:29-50 *)
Inductive fields := FUnit | FUnnamed (ts : list ty) | FNamed (fs : list (ident * ty)).
(* (auxiliary: `fields.iter()`, oct-macros/src/impls/encode_struct.rs:27-33) *)
Definition field_types (f : fields) : list ty := match f with FUnit => [] | FUnnamed ts => ts | FNamed fs => map snd fs end.
(* read at oct-macros/src/impls/encode_enum.rs:29-65 *)
Record nvariant := NVariant { nv_name : ident; nv_disc : option expr; nv_fields : fields }.
(* matched at oct-macros/src/impl_derive_macro.rs:54-64 *)
Inductive ndata := NStruct (f : fields) | NEnum (vs : list nvariant) | NUnion (f : fields).

(* ---- Syntax *)
(* written at oct-macros/src/impls/encode_struct.rs:35-48, encode_enum.rs:52-65 *)
Inductive path := PSelf | PVariant (v : ident).       (* `Self`, `Self::V` *)

(* written at oct-macros/src/impls/encode_struct.rs:35-48, encode_enum.rs:52-65, decode_enum.rs:64-81 *)
Inductive pat :=
| PUnit (p : path)                                    (* `p` *)
| PTuple (p : path) (xs : list ident)                 (* `p(ref x, ..)` *)
| PStruct (p : path) (fs : list (ident * ident))      (* `p { f: ref x, .. }` *)
| PLit (z : Z)
| PBind (x : ident)
| PAny.

(* the functions given to `map_err` *)
(* written at oct-macros/src/impls/encode_struct.rs:50-64, encode_enum.rs:68-93, decode_struct.rs:52-60, decode_enum.rs:64-81 *)
Inductive conv :=
| CGenericEnc        (* Into::<GenericEncodeError>::into *)
| CEncDisc           (* EnumEncodeError::BadDiscriminant *)
| CEncField          (* EnumEncodeError::BadField *)
| CGenericDec        (* Into::<GenericDecodeError>::into *)
| CInfallible        (* Into::<Infallible>::into *)
| CDecDisc           (* EnumDecodeError::InvalidDiscriminant *)
| CDecField.         (* EnumDecodeError::BadField *)

(* the expressions and statements of oct-macros/src/impls/encode_struct.rs:50-64, encode_enum.rs:68-93, decode_struct.rs:52-60, decode_enum.rs:64-81 *)
Inductive code :=
| KVar (x : ident)
| KLit (z : Z)
| KUnit                                               (* `()` *)
| KMake (p : path)                                    (* `p` *)
| KMakeTuple (p : path) (es : list code)              (* `p(e, ..)` *)
| KMakeStruct (p : path) (es : list (ident * code))   (* `p { f: e, .. }` *)
| KEncode (as_ : option ity) (e : code) (stream : ident)   (* `Encode::encode(e, stream)`, or `<u8 as Encode>::encode(..)` *)
| KDecode (as_ : option ity) (stream : ident)
| KMapErr (e : code) (c : conv)
| KTry (e : code)                                     (* `e?` *)
| KOk (e : code)                                      (* `Ok(e)` *)
| KUnassigned (x : ident)                             (* `Err(EnumDecodeError::UnassignedDiscriminant { x })` *)
| KReturn (e : code)
| KMatch (e : code) (arms : list (pat * code))
| KLet (p : pat) (e : code) (k : code)                (* `let p = e; k` *)
| KSeq (e k : code)                                   (* `e; k` *)
| KUnreachable.

(* ---- Meaning *)
(* (Rust: values, as far as such code handles them) *)
Inductive rv :=
| RUnit
| RInt (i : option ity) (z : Z)          (* an integer; the type of a literal is left open *)
| RVal (v : val)
| RField (t : ty) (v : val)              (* a value whose type is known from a definition *)
| RSelf (v : val)                        (* a value of the type that derives *)
| RStream
| ROk (r : rv) | RErrE (e : eerr) | RErrD (e : derr).

(* What an expression does: it has a value; it returns from the function; it panics; or it does not compile. *)
(* (Rust) *)
Inductive flow := Next (r : rv) | Return (r : rv) | Panics (p : panic) | Stuck.

(* (Rust: the local variables) *)
Definition scope := list (ident * rv).
(* (Rust: the innermost variable of that name) *)
Fixpoint lookup {A} (x : ident) (l : list (ident * A)) : option A :=
  match l with
  | [] => None
  | (y, a) :: l' => if ident_eqb x y then Some a else lookup x l'
  end.
(* A binding may not have the name of a constant, constant parameter, static or unit structure in scope (E0530). Without `ref`, the name of a
   constant is a pattern that matches its value only; that does not compile either, since a `let` or a parameter must match everything and
   the type is another. (Simplified: the last arm `value => ..` of a decoded enumeration may be such a pattern if the other arms cover every
   discriminant.) *)
(* (Rust: pattern bindings) *)
Definition bind (consts : list ident) (x : ident) (r : rv) (sc : scope) : option scope := if mem x consts then None else Some ((x, r) :: sc).
(* (Rust: pattern bindings, several) *)
Fixpoint bind_all (consts : list ident) (xs : list (ident * rv)) (sc : scope) : option scope :=
  match xs with
  | [] => Some sc
  | (x, r) :: l => match bind consts x r sc with Some sc' => bind_all consts l sc' | None => None end
  end.

(* the variant of that name: its number and fields *)
(* (Rust: path resolution) *)
Fixpoint find_variant (x : ident) (vs : list nvariant) (i : nat) : option (nat * fields) :=
  match vs with
  | [] => None
  | v :: vs' => if ident_eqb x (nv_name v) then Some (i, nv_fields v) else find_variant x vs' (S i)
  end.
(* (Rust: path resolution) *)
Definition resolve (def : ndata) (p : path) : option (option nat * fields) :=
  match p, def with
  | PSelf, NStruct f => Some (None, f)
  | PVariant x, NEnum vs => option_map (fun r => (Some (fst r), snd r)) (find_variant x vs 0)
  | _, _ => None
  end.
(* the fields of a value, if it is of that variant *)
(* (Rust: pattern matching) *)
Definition payload (i : option nat) (v : val) : option (option (list val)) :=
  match i, v with
  | None, VTuple vs => Some (Some vs)
  | Some i, VEnum j vs => Some (if j =? i then Some vs else None)
  | _, _ => None
  end.
(* (Rust: construction of a value) *)
Definition build (i : option nat) (vs : list val) : val := match i with None => VTuple vs | Some i => VEnum i vs end.

(* the value of the field of that name; [fs] and [vs] in order of declaration *)
(* (auxiliary) *)
Definition typed (ts : list ty) (vs : list val) : list rv := map (fun p => RField (fst p) (snd p)) (combine ts vs).
(* (auxiliary) *)
Definition field_values (fs : list (ident * ty)) (vs : list val) : list (ident * rv) := combine (map fst fs) (typed (map snd fs) vs).
(* (Rust: struct patterns) *)
Fixpoint pick (xs : list (ident * ident)) (l : list (ident * rv)) : option (list (ident * rv)) :=
  match xs with
  | [] => Some []
  | (f, x) :: xs' =>
    match lookup f l, pick xs' l with
    | Some r, Some rest => Some ((x, r) :: rest)
    | _, _ => None
    end
  end.

(* [None]: does not compile. [Some None]: does not match. *)
(* (Rust: pattern matching) *)
Definition match_pat (consts : list ident) (def : ndata) (p : pat) (r : rv) (sc : scope) : option (option scope) :=
  match p, r with
  | PAny, _ => Some (Some sc)
  | PBind x, _ => option_map Some (bind consts x r sc)
  | PLit z, RInt _ z' => Some (if (z =? z')%Z then Some sc else None)
  | PUnit q, RSelf v =>
    match resolve def q with
    | Some (i, FUnit) => option_map (option_map (fun _ => sc)) (payload i v)
    | _ => None
    end
  | PTuple q xs, RSelf v =>
    match resolve def q with
    | Some (i, FUnnamed ts) =>
      if List.length xs =? List.length ts then
        match payload i v with
        | None => None
        | Some None => Some None
        | Some (Some vs) => option_map Some (bind_all consts (combine xs (typed ts vs)) sc)
        end
      else None
    | _ => None
    end
  | PStruct q xs, RSelf v =>
    match resolve def q with
    | Some (i, FNamed fs) =>
      if List.length xs =? List.length fs then
        match payload i v with
        | None => None
        | Some None => Some None
        | Some (Some vs) =>
          match pick xs (field_values fs vs) with
          | Some l => option_map Some (bind_all consts l sc)
          | None => None
          end
        end
      else None
    | _ => None
    end
  | _, _ => None
  end.

(* `map_err` with one of [conv]; the conversions are those of oct/src/error/generic_encode_error.rs:85-154 and generic_decode_error.rs:125-214 *)
Definition convert (c : conv) (r : rv) : flow :=
  match r, c with
  | ROk _, _ => Next r
  | RErrE e, CGenericEnc => Next (RErrE (into_generic_enc e))
  | RErrE e, CEncDisc => Next (RErrE (EDisc e))
  | RErrE e, CEncField => Next (RErrE (EField e))
  | RErrD e, CGenericDec => Next (RErrD (into_generic_dec e))
  | RErrD e, CDecField => Next (RErrD (DField e))
  | _, _ => Stuck                        (* integers decode infallibly *)
  end.

(* the value of a field or of a whole *)
(* (auxiliary) *)
Definition as_val (r : rv) : option val := match r with RVal v => Some v | RSelf v => Some v | _ => None end.

Section Meaning.
  Context {S : Type}.
  Variable consts : list ident.
  Variable def : ndata.
  Variable enc_call : ty -> val -> S -> S * res eerr unit.
  Variable dec_call : ty -> S -> S * res derr val.

  (* (Rust: evaluation in order; what returns or panics ends it) *)
  Definition then_ (a : S * flow) (k : rv -> S -> S * flow) : S * flow := match a with (s, Next r) => k r s | x => x end.

  (* `p(e, ..)`: the expressions in turn *)
  (* (Rust: tuple struct expressions) *)
  Definition make_tuple (run : option ty -> code -> S -> S * flow) (i : option nat) :=
    fix each (es : list code) (ts : list ty) (acc : list val) (s : S) {struct es} : S * flow :=
      match es, ts with
      | [], [] => (s, Next (RSelf (build i (rev acc))))
      | e :: es', t :: ts' =>
        then_ (run (Some t) e s) (fun r s => match as_val r with Some v => each es' ts' (v :: acc) s | None => (s, Stuck) end)
      | _, _ => (s, Stuck)
      end.
  (* `p { f: e, .. }`: the expressions in the order in which they are written, the fields in that of their declaration *)
  (* (auxiliary) *)
  Fixpoint order (fs : list (ident * ty)) (acc : list (ident * val)) : option (list val) :=
    match fs with
    | [] => Some []
    | (f, _) :: fs' => match lookup f acc, order fs' acc with Some v, Some vs => Some (v :: vs) | _, _ => None end
    end.
  (* (Rust: struct expressions) *)
  Definition make_struct (run : option ty -> code -> S -> S * flow) (i : option nat) (fs : list (ident * ty)) :=
    fix each (es : list (ident * code)) (acc : list (ident * val)) (s : S) {struct es} : S * flow :=
      match es with
      | [] => match order fs acc with Some vs => (s, Next (RSelf (build i vs))) | None => (s, Stuck) end
      | (f, e) :: es' =>
        match lookup f fs with
        | Some t => then_ (run (Some t) e s) (fun r s => match as_val r with Some v => each es' ((f, v) :: acc) s | None => (s, Stuck) end)
        | None => (s, Stuck)
        end
      end.
  (* the first arm that matches *)
  (* (Rust: `match`) *)
  Definition try_arms (run : scope -> code -> S -> S * flow) (r : rv) (sc : scope) (s : S) :=
    fix arm (arms : list (pat * code)) {struct arms} : S * flow :=
      match arms with
      | [] => (s, Stuck)
      | (p, k) :: arms' =>
        match match_pat consts def p r sc with
        | None => (s, Stuck)
        | Some None => arm arms'
        | Some (Some sc') => run sc' k s
        end
      end.

  (* [want]: the type that the context asks for *)
  (* (Rust: evaluation) *)
  Fixpoint run (want : option ty) (sc : scope) (c : code) (s : S) {struct c} : S * flow :=
    match c with
    | KVar x => match lookup x sc with Some r => (s, Next r) | None => (s, Stuck) end
    | KLit z => (s, Next (RInt None z))
    | KUnit => (s, Next RUnit)
    | KMake p =>
      match resolve def p with
      | Some (i, FUnit) => (s, Next (RSelf (build i [])))
      | _ => (s, Stuck)
      end
    | KMakeTuple p es =>
      match resolve def p with
      | Some (i, FUnnamed ts) => make_tuple (fun want e s => run want sc e s) i es ts [] s
      | _ => (s, Stuck)
      end
    | KMakeStruct p es =>
      match resolve def p with
      | Some (i, FNamed fs) =>
        if List.length es =? List.length fs then make_struct (fun want e s => run want sc e s) i fs es [] s else (s, Stuck)
      | _ => (s, Stuck)
      end
    | KEncode as_ e stream =>
      match lookup stream sc with
      | Some RStream =>
        then_ (run None sc e s) (fun r s =>
          match as_, r with
          | None, RField t v =>
            match enc_call t v s with (s, Ok _) => (s, Next (ROk RUnit)) | (s, Err e) => (s, Next (RErrE e)) | (s, Panic p) => (s, Panics p) end
          | Some i, RInt None z =>
            match enc_call (TInt i) (VInt z) s with (s, Ok _) => (s, Next (ROk RUnit)) | (s, Err e) => (s, Next (RErrE e)) | (s, Panic p) => (s, Panics p) end
          | _, _ => (s, Stuck)
          end)
      | _ => (s, Stuck)
      end
    | KDecode as_ stream =>
      match lookup stream sc with
      | Some RStream =>
        match as_, want with
        | Some i, _ =>
          match dec_call (TInt i) s with
          | (s, Ok (VInt z)) => (s, Next (ROk (RInt (Some i) z)))
          | (s, Ok _) => (s, Stuck)
          | (s, Err e) => (s, Next (RErrD e))
          | (s, Panic p) => (s, Panics p)
          end
        | None, Some t =>
          match dec_call t s with (s, Ok v) => (s, Next (ROk (RVal v))) | (s, Err e) => (s, Next (RErrD e)) | (s, Panic p) => (s, Panics p) end
        | None, None => (s, Stuck)
        end
      | _ => (s, Stuck)
      end
    | KMapErr e f => then_ (run want sc e s) (fun r s => (s, convert f r))
    | KTry e =>
      then_ (run want sc e s) (fun r s =>
        match r with ROk r => (s, Next r) | RErrE _ | RErrD _ => (s, Return r) | _ => (s, Stuck) end)
    | KOk e => then_ (run None sc e s) (fun r s => (s, Next (ROk r)))
    | KUnassigned x => match lookup x sc with Some (RInt (Some i) z) => (s, Next (RErrD (DUnassigned i z))) | _ => (s, Stuck) end
    | KReturn e => then_ (run None sc e s) (fun r s => (s, Return r))
    | KMatch e arms => then_ (run None sc e s) (fun r s => try_arms (fun sc k s => run want sc k s) r sc s arms)
    | KLet p e k =>
      then_ (run None sc e s) (fun r s =>
        match match_pat consts def p r sc with Some (Some sc') => run want sc' k s | _ => (s, Stuck) end)
    | KSeq e k => then_ (run None sc e s) (fun _ s => run want sc k s)
    | KUnreachable => (s, Panics PUnreachable)
    end.

  (* `Self::Error`, in the type of the function, is ambiguous if the type has a variant of that name (`ambiguous_associated_items`, an error
     unless it is switched off). *)
  (* `Self::Error` is written at oct-macros/src/impls/encode_struct.rs:50-64 and in the other three *)
  Definition error_is_clear : bool := match def with NEnum vs => negb (mem (txt "Error") (map nv_name vs)) | _ => true end.

  (* A call of the function with the body [c]. [None]: it does not compile. *)
  (* (Rust: a call) *)
  Definition call (c : code) (params : list (ident * rv)) (s : S) : option (S * flow) :=
    match (if error_is_clear then bind_all consts params [] else None) with
    | None => None
    | Some sc => match run None sc c s with (_, Stuck) => None | r => Some r end
    end.
  (* `fn encode(&self, stream: &mut Output) -> Result<(), Self::Error>` *)
  (* the signature is written at oct-macros/src/impls/encode_struct.rs:50-64 and encode_enum.rs:68-93 *)
  Definition call_encode_fn (self_ stream : ident) (c : code) (v : val) (s : S) : option (S * res eerr unit) :=
    match call c [(self_, RSelf v); (stream, RStream)] s with
    | Some (s, Next (ROk RUnit)) | Some (s, Return (ROk RUnit)) => Some (s, Ok tt)
    | Some (s, Next (RErrE e)) | Some (s, Return (RErrE e)) => Some (s, Err e)
    | Some (s, Panics p) => Some (s, Panic p)
    | _ => None
    end.
  (* `fn decode(stream: &mut Input) -> Result<Self, Self::Error>` *)
  (* the signature is written at oct-macros/src/impls/decode_struct.rs:52-60 and decode_enum.rs:64-81 *)
  Definition call_decode_fn (stream : ident) (c : code) (s : S) : option (S * res derr val) :=
    match call c [(stream, RStream)] s with
    | Some (s, Next (ROk (RSelf v))) | Some (s, Return (ROk (RSelf v))) => Some (s, Ok v)
    | Some (s, Next (RErrD e)) | Some (s, Return (RErrD e)) => Some (s, Err e)
    | Some (s, Panics p) => Some (s, Panic p)
    | _ => None
    end.
End Meaning.

(* ---- Constants *)
(* written at oct-macros/src/impls/sized_encode_struct.rs:27-36 and sized_encode_enum.rs:30-59 *)
Inductive nexpr := NLit (n : N) | NVar (x : ident) | NMaxSize (t : ty) | NAdd (a b : nexpr).
(* written at oct-macros/src/impls/sized_encode_enum.rs:30-59 *)
Inductive stmt := SLet (x : ident) (e : nexpr) | SAssign (x : ident) (e : nexpr) | SIfGreater (a b x y : ident).   (* `if a > b { x = y }` *)
(* written at oct-macros/src/impls/sized_encode_struct.rs:27-36 and sized_encode_enum.rs:30-59 *)
Inductive const_body := CBody (l : list stmt) (e : nexpr).

(* (Rust: evaluation of constants) *)
Fixpoint neval (size_of : size_of_fn) (sc : list (ident * N)) (e : nexpr) : option N :=
  match e with
  | NLit n => Some n
  | NVar x => lookup x sc
  | NMaxSize t => max_size size_of t
  | NAdd a b => match neval size_of sc a, neval size_of sc b with Some m, Some n => Some (m + n)%N | _, _ => None end
  end.
(* (Rust: assignment) *)
Fixpoint set (x : ident) (n : N) (sc : list (ident * N)) : option (list (ident * N)) :=
  match sc with
  | [] => None
  | (y, m) :: sc' => if ident_eqb x y then Some ((y, n) :: sc') else option_map (cons (y, m)) (set x n sc')
  end.
(* (Rust: one statement) *)
Definition exec (consts : list ident) (size_of : size_of_fn) (st : stmt) (sc : list (ident * N)) : option (list (ident * N)) :=
  match st with
  | SLet x e => if mem x consts then None else option_map (fun n => (x, n) :: sc) (neval size_of sc e)
  | SAssign x e => match neval size_of sc e with Some n => set x n sc | None => None end
  | SIfGreater a b x y =>
    match lookup a sc, lookup b sc, lookup y sc with
    | Some m, Some n, Some k => if (n <? m)%N then set x k sc else Some sc
    | _, _, _ => None
    end
  end.
(* (Rust: statements in order) *)
Fixpoint exec_all (consts : list ident) (size_of : size_of_fn) (l : list stmt) (sc : list (ident * N)) : option (list (ident * N)) :=
  match l with
  | [] => Some sc
  | st :: l' => match exec consts size_of st sc with Some sc' => exec_all consts size_of l' sc' | None => None end
  end.
(* the value of the constant; [None]: it does not compile *)
(* (Rust: a block) *)
Definition const_value (consts : list ident) (size_of : size_of_fn) (b : const_body) : option N :=
  match b with CBody l e => match exec_all consts size_of l [] with Some sc => neval size_of sc e | None => None end end.
