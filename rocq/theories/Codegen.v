(* The code that the derive macros write, oct-macros/src/impls, as syntax. What the front end makes of discriminants and representations is
   in Macro.v; what the code means is in RustSyntax.v, with the syntax. Definitions only. *)
From Coq Require Import String.
From Verif Require Import Base Types Macro ErrorText Sized RustSyntax.
Local Open Scope list_scope.

(* impls/encode_struct.rs:50-64, encode_enum.rs:68-93: `self` *)
Definition n_self : ident := txt "self".
(* impls/encode_struct.rs:50-64 and the other three: `stream` *)
Definition n_stream : ident := txt "stream".
(* impls/decode_struct.rs:52-60, decode_enum.rs:64-81: `this` *)
Definition n_this : ident := txt "this".
(* impls/decode_enum.rs:64-81: `discriminant` *)
Definition n_discriminant : ident := txt "discriminant".
(* impls/decode_enum.rs:64-81: `value` *)
Definition n_value : ident := txt "value".
(* impls/sized_encode_enum.rs:44-58: `total_size` *)
Definition n_total : ident := txt "total_size".
(* impls/sized_encode_enum.rs:44-58: `current_size` *)
Definition n_current : ident := txt "current_size".

(* `format!("value{index}")`, impls/encode_struct.rs:32, impls/encode_enum.rs:41 *)
Definition capture (index : nat) : ident := txt "value" ++ fmt_nat index.
(* impls/encode_struct.rs:32, impls/encode_enum.rs:41, for all fields *)
Definition captures (f : fields) : list ident := map capture (seq 0 (List.length (field_types f))).

(* The pattern that takes a value apart: impls/encode_struct.rs:35-48, impls/encode_enum.rs:52-65 *)
Definition fields_pattern (p : path) (f : fields) : pat :=
  match f with
  | FUnit => PUnit p
  | FUnnamed _ => PTuple p (captures f)
  | FNamed fs => PStruct p (combine (map fst fs) (captures f))
  end.

(* `#( ::oct::encode::Encode::encode(#captures, stream).map_err(..)?; )*` and what follows *)
(* impls/encode_struct.rs:50-64, encode_enum.rs:68-93 *)
Fixpoint encode_all (conv : list conv) (xs : list ident) (k : code) : code :=
  match xs with
  | [] => k
  | x :: xs' => KSeq (KTry (fold_left KMapErr conv (KEncode None (KVar x) n_stream))) (encode_all conv xs' k)
  end.

(* encode_struct, impls/encode_struct.rs:27-66 *)
Definition encode_struct (f : fields) : code :=
  KLet (fields_pattern PSelf f) (KVar n_self) (encode_all [CGenericEnc] (captures f) (KOk KUnit)).

(* encode_enum, impls/encode_enum.rs:29-95. [ds] are the discriminants that `Discriminants` yields. *)
Definition encode_arm (r : ity) (d : Z) (v : nvariant) : pat * code :=
  (fields_pattern (PVariant (nv_name v)) (nv_fields v),
   KSeq (KTry (KMapErr (KEncode (Some r) (KLit d) n_stream) CEncDisc))
        (encode_all [CGenericEnc; CEncField] (captures (nv_fields v)) KUnit)).
(* impls/encode_enum.rs:29-95 *)
Definition encode_enum (r : ity) (ds : list Z) (vs : list nvariant) : code :=
  KSeq (KMatch (KVar n_self) (map (fun p => encode_arm r (fst p) (snd p)) (combine ds vs) ++ [(PAny, KUnreachable)]))
       (KOk KUnit).

(* The expression that builds a value out of [n] copies of a command: impls/decode_struct.rs:29-50, impls/decode_enum.rs:39-61 *)
Definition fields_value (p : path) (f : fields) (command : code) : code :=
  let commands := repeat command (List.length (field_types f)) in
  match f with
  | FUnit => KMake p
  | FUnnamed _ => KMakeTuple p commands
  | FNamed fs => KMakeStruct p (combine (map fst fs) commands)
  end.

(* decode_struct, impls/decode_struct.rs:28-61 *)
Definition decode_struct (f : fields) : code :=
  KLet (PBind n_this) (fields_value PSelf f (KTry (KMapErr (KDecode None n_stream) CGenericDec))) (KOk (KVar n_this)).

(* decode_enum, impls/decode_enum.rs:30-83 *)
Definition decode_arm (d : Z) (v : nvariant) : pat * code :=
  (PLit d, fields_value (PVariant (nv_name v)) (nv_fields v) (KTry (KMapErr (KMapErr (KDecode None n_stream) CGenericDec) CDecField))).
(* impls/decode_enum.rs:30-83 *)
Definition decode_enum (r : ity) (ds : list Z) (vs : list nvariant) : code :=
  KLet (PBind n_discriminant) (KTry (KMapErr (KMapErr (KDecode (Some r) n_stream) CInfallible) CDecDisc))
  (KLet (PBind n_this)
     (KMatch (KVar n_discriminant)
        (map (fun p => decode_arm (fst p) (snd p)) (combine ds vs) ++ [(PBind n_value, KReturn (KUnassigned n_value))]))
     (KOk (KVar n_this))).

(* sized_encode_struct, impls/sized_encode_struct.rs:27-36: `0x0 #( + <#tys as ::oct::encode::SizedEncode>::MAX_ENCODED_SIZE)*` *)
Definition sum_of (ts : list ty) : nexpr := fold_left NAdd (map NMaxSize ts) (NLit 0).
(* impls/sized_encode_struct.rs:27-36 *)
Definition sized_encode_struct (f : fields) : const_body := CBody [] (sum_of (field_types f)).

(* sized_encode_enum, impls/sized_encode_enum.rs:30-59 *)
Definition sized_encode_enum (r : ity) (vs : list nvariant) : const_body :=
  CBody ([SLet n_total (NLit 0); SLet n_current (NLit 0)] ++
         flat_map (fun v => [SAssign n_current (sum_of (field_types (nv_fields v) ++ [TInt r])); SIfGreater n_current n_total n_total n_current]) vs)
        (NVar n_total).

(* The whole macro, impl_derive_macro.rs:35-80 with lib.rs:49-100: the body of the implementation, or `None` when the macro panics. *)
Inductive impl := IFn (has_self : bool) (body : code) | IConst (body : const_body).
(* impl_derive_macro.rs:35-80 *)
Definition derive_code (tr : trait) (attrs : list attr) (def : ndata) : option impl :=
  match def with
  | NUnion _ => None
  | NStruct f =>
    Some match tr with
         | TrEncode => IFn true (encode_struct f)
         | TrDecode => IFn false (decode_struct f)
         | TrSizedEncode => IConst (sized_encode_struct f)
         end
  | NEnum vs =>
    match repr_of attrs with
    | None => None
    | Some r =>
      match tr with
      | TrSizedEncode => Some (IConst (sized_encode_enum r vs))
      | TrEncode => option_map (fun ds => IFn true (encode_enum r ds vs)) (read_discriminants (map nv_disc vs))
      | TrDecode => option_map (fun ds => IFn false (decode_enum r ds vs)) (read_discriminants (map nv_disc vs))
      end
    end
  end.

(* What the generated implementation does, and the generated constant. `None`: it does not compile. [consts] are the constants, constant
   parameters, statics and unit structures in scope where the type is defined. *)
(* (a call of the generated function; no code of its own) *)
Definition run_encode (consts : list ident) (def : ndata) {S} (enc : ty -> val -> S -> S * res eerr unit) (i : impl) (v : val) (s : S) : option (S * res eerr unit) :=
  match i with IFn true c => call_encode_fn consts def enc (fun _ s => (s, Panic PStuck)) n_self n_stream c v s | _ => None end.
(* (a call of the generated function; no code of its own) *)
Definition run_decode (consts : list ident) (def : ndata) {S} (dec : ty -> S -> S * res derr val) (i : impl) (s : S) : option (S * res derr val) :=
  match i with IFn false c => call_decode_fn consts def (fun _ _ s => (s, Panic PStuck)) dec n_stream c s | _ => None end.
(* (the use of the generated constant; no code of its own) *)
Definition run_const (consts : list ident) (size_of : size_of_fn) (i : impl) : option N :=
  match i with IConst b => const_value consts size_of b | _ => None end.
