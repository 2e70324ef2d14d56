(* What the text of the derive macros, oct-macros/src, does when the compiler runs it. This is a third account of Rust beside SourceMeaning.v and
   SourceMemory.v, for programs that read a definition and write tokens. The functions of the macro crate are those of the text
   (SourceMacros.v); those of core, syn, proc_macro2 and quote are below. References and clones are transparent, iterators are run when they are
   made (the closures that they run have no effect but the panics of `unwrap`), and spans are left out. A program that leaves this account ends in
   [Lost]. Definitions only. *)
From Coq Require Import String.
From Verif Require Import Base Streams Types SourceNames SourceSyntax MacroSyntax SourceMeaning SourceMacros ErrorText.
From Verif Require SourceText.
Local Open Scope list_scope.

(* ---- values and outcomes *)

(* (Rust: values) *)
Inductive hv :=
| HUnit
| HBool (b : bool)
| HNum (z : Z)                              (* usize, u128, i128 *)
| HDefault                                  (* `Default::default()`, of the type that is asked for *)
| HText (s : list byte)                     (* `str`, `String`, `syn::Ident` *)
| HDigits (z : Z)                           (* a `str` of the decimal digits of a number *)
| HInteger (z : Z)                          (* `syn::LitInt`, read from a definition *)
| HLitInt (s : list byte)                   (* `syn::LitInt`, made from digits *)
| HLife (s : list byte)                     (* `syn::Lifetime` *)
| HToks (ts : list token)                   (* `TokenStream`, and what is kept as it was written *)
| HList (vs : list hv)                      (* `Vec`, slices, iterators *)
| HPunct (vs : list hv)                     (* `Punctuated<_, Token![,]>` *)
| HTup (vs : list hv)
| HCon (t c : name) (vs : list hv)          (* a variant: its type, its name, its fields *)
| HRec (t : name) (fs : list (name * hv))   (* a struct *)
| HFn (f : name).                           (* a function of the macro crate *)

(* (Rust: local variables, innermost first) *)
Definition env := list (name * hv).

(* an expression has a value, returns from the function or closure, or panics *)
(* (Rust) *)
Inductive out := Go (v : hv) (ρ : env) | Ret (v : hv) (ρ : env) | Die | Lost.
(* a call: its result and what its arguments are afterwards *)
(* (Rust) *)
Inductive fin := Done (v : hv) (args : list hv) | Dies | Leaves.

Definition next (o : out) (k : hv -> env -> out) : out := match o with Go v ρ => k v ρ | _ => o end.
(* the variables of a block are gone behind it *)
Definition restore (ρ ρ' : env) : env := skipn (List.length ρ' - List.length ρ) ρ'.
Definition leave (ρ : env) (o : out) : out :=
  match o with Go v ρ' => Go v (restore ρ ρ') | Ret v ρ' => Ret v (restore ρ ρ') | _ => o end.
(* `return` and `?` in a closure return from the closure *)
Definition returned (o : out) : out := match o with Ret v ρ => Go v ρ | _ => o end.

(* (core: `Option`, `Result`) *)
Definition some (v : hv) : hv := HCon id_Option id_Some [v].
Definition none : hv := HCon id_Option id_None [].
Definition ok (v : hv) : hv := HCon id_Result id_Ok [v].
Definition err (v : hv) : hv := HCon id_Result id_Err [v].

(* ---- variables, fields and patterns *)

Fixpoint set_var (x : name) (v : hv) (ρ : env) : option env :=
  match ρ with
  | [] => None
  | (y, w) :: ρ' => if name_eqb x y then Some ((y, v) :: ρ') else option_map (cons (y, w)) (set_var x v ρ')
  end.
(* (Rust: a field) *)
Definition field (v : hv) (x : name) : option hv := match v with HRec _ fs => lookup x fs | _ => None end.
(* (Rust: assignment to a variable or to a field of one) *)
Definition assign (e : expr) (v : hv) (ρ : env) : option env :=
  match e with
  | EPath [(x, _)] => set_var x v ρ
  | SourceSyntax.EField (EPath [(x, _)]) f =>
    match lookup x ρ with
    | Some (HRec t fs) => match set_var f v fs with Some fs' => set_var x (HRec t fs') ρ | None => None end
    | _ => None
    end
  | _ => None
  end.

(* (Rust: matching) *)
Fixpoint matches (p : pat) (v : hv) {struct p} : option env :=
  let fix all (ps : list pat) (vs : list hv) {struct ps} : option env :=
    match ps, vs with
    | [PRest], _ => Some []
    | [], [] => Some []
    | p :: ps', v :: vs' => match matches p v, all ps' vs' with Some a, Some b => Some (b ++ a) | _, _ => None end
    | _, _ => None
    end in
  let fix any (ps : list pat) {struct ps} : option env :=
    match ps with
    | [] => None
    | p :: ps' => match matches p v with Some a => Some a | None => any ps' end
    end in
  match p with
  | PAny => Some []
  | PVar x => Some [(x, v)]
  | PTup ps => match v with HTup vs => all ps vs | _ => None end
  | PCon q ps => match v, last_name q with HCon _ c vs, Some c' => if name_eqb c c' then all ps vs else None | _, _ => None end
  | POr ps => any ps
  | _ => None
  end.

(* ---- functions of core, syn and proc_macro2 *)

(* (core: `as u128`) *)
Definition cast (t : rty) (v : hv) : option hv :=
  match t, v with
  | YPath [(x, _)], HNum z => if name_eqb x id_u128 then Some (HNum (z mod 2 ^ 128)) else None
  | YPath [(x, _)], _ => if name_eqb x id_DeriveInput then Some v else None      (* within `parse_macro_input!` *)
  | _, _ => None
  end.
(* (core: a number, or the default of a number) *)
Definition number (v : hv) : option Z := match v with HNum z => Some z | HDefault => Some 0%Z | _ => None end.
(* (core: comparison of `Ident` with `str`) *)
Definition equal (a b : hv) : option bool := match a, b with HText s, HText t => Some (bytes_eqb s t) | _, _ => None end.
(* (core: `str::parse`; an error of the parser is not looked at) *)
Definition parse (lo hi z : Z) : hv := if (lo <=? z)%Z && (z <? hi)%Z then ok (HNum z) else err HUnit.
(* (core: `format!` with captured variables) *)
Definition format (ρ : env) (s : list byte) : option hv :=
  match SourceText.pieces SourceText.Outside s with
  | None => None
  | Some ps =>
    option_map HText
      ((fix go (ps : list SourceText.piece) : option (list byte) :=
          match ps with
          | [] => Some []
          | SourceText.PText c :: ps' => option_map (cons c) (go ps')
          | SourceText.PHole arg spec :: ps' =>
            if bytes_eqb arg (ErrorText.txt "index") && bytes_eqb spec [] then
              match lookup id_index ρ with
              | Some (HNum z) => option_map (app (fmt_signed z)) (go ps')
              | _ => None
              end
            else None
          end) ps)
  end.
(* the sequence that a value yields when it is iterated over *)
(* (core, syn: `IntoIterator`; of a `Fields` its fields, in order) *)
Definition elements (v : hv) : option (list hv) :=
  match v with
  | HList vs | HPunct vs => Some vs
  | HCon t c vs =>
    if name_eqb t id_Fields then
      match vs with
      | [] => Some []
      | [HPunct fs] => Some fs                                             (* `FieldsUnnamed`; nothing reads its field `unnamed` *)
      | [r] => match field r id_named with Some (HPunct fs) => Some fs | _ => None end
      | _ => None
      end
    else None
  | _ => None
  end.
(* (core: `enumerate`, `zip`) *)
Fixpoint numbered (k : Z) (vs : list hv) : list hv := match vs with [] => [] | v :: vs' => HTup [HNum k; v] :: numbered (k + 1) vs' end.
Fixpoint zipped (vs ws : list hv) : list hv := match vs, ws with v :: vs', w :: ws' => HTup [v; w] :: zipped vs' ws' | _, _ => [] end.
(* the identifier that a path is, if it is one *)
(* (syn: `Path::get_ident`) *)
Definition path_ident (v : hv) : option hv :=
  match v with
  | HRec _ fs =>
    match lookup id_leading_colon fs, lookup id_segments fs with
    | Some (HCon _ c []), Some (HPunct [HRec _ [(_, i); (_, HDefault)]]) => if name_eqb c id_None then Some i else None
    | _, _ => None
    end
  | _ => None
  end.
(* tokens as a path: identifiers, with `::` before each of them or between them *)
(* (syn: `parse2::<Path>`) *)
Fixpoint segments (ts : list token) : option (list hv) :=
  match ts with
  | [TId s] => Some [HRec id_PathSegment [(id_ident, HText s); (id_arguments, HDefault)]]
  | TId s :: TPunct c :: ts' =>
    if bytes_eqb c (ErrorText.txt "::") then option_map (cons (HRec id_PathSegment [(id_ident, HText s); (id_arguments, HDefault)])) (segments ts') else None
  | _ => None
  end.
Definition make_path (colon : hv) (l : list hv) : hv := HRec id_Path [(id_leading_colon, colon); (id_segments, HPunct l)].
Definition parse_path (ts : list token) : hv :=
  match ts with
  | TPunct c :: ts' =>
    if bytes_eqb c (ErrorText.txt "::") then match segments ts' with Some l => ok (make_path (some HUnit) l) | None => err HUnit end else err HUnit
  | _ => match segments ts with Some l => ok (make_path none l) | None => err HUnit end
  end.

(* functions by the last two segments of their path; [None]: not one of these *)
(* (core, syn, proc_macro2; called in oct-macros/src) *)
Definition known (q : option name) (f : name) (vs : list hv) : option hv :=
  match q with
  | None =>
    if name_eqb f id_Some then match vs with [v] => Some (some v) | _ => None end
    else if name_eqb f id_Ok then match vs with [v] => Some (ok v) | _ => None end
    else if name_eqb f id_parse2 then match vs with [HToks ts] => Some (parse_path ts) | _ => None end
    else None
  | Some q =>
    if name_eqb q id_Ident && name_eqb f id_new then match vs with [HText s; _] => Some (HText s) | _ => None end
    else if name_eqb q id_LitInt && name_eqb f id_new then match vs with [HText s; _] => Some (HLitInt s) | _ => None end
    else if name_eqb q id_Span && name_eqb f id_call_site then Some HUnit
    else if name_eqb q id_Punctuated && name_eqb f id_new then Some (HPunct [])
    else if name_eqb q id_Default && name_eqb f id_default then Some HDefault
    else if name_eqb q id_iter && name_eqb f id_once then match vs with [v] => Some (HList [v]) | _ => None end
    else if name_eqb q id_iter && name_eqb f id_repeat_n then match vs with [v; HNum n] => Some (HList (repeat v (Z.to_nat n))) | _ => None end
    else if name_eqb q id_Type && name_eqb f id_Path then Some (HCon q f vs)
    else None
  end.

(* methods without closures. [None]: not one of these; [Some None]: panics *)
(* (core, syn; called in oct-macros/src) *)
Definition method (v : hv) (m : name) (ts : list rty) (vs : list hv) : option (option hv) :=
  if name_eqb m id_into || name_eqb m id_borrow || name_eqb m id_clone then Some (Some v)
  else if name_eqb m id_iter || name_eqb m id_into_iter then option_map (fun l => Some (HList l)) (elements v)
  else if name_eqb m id_len then option_map (fun l => Some (HNum (Z.of_nat (List.length l)))) (elements v)
  else if name_eqb m id_last then option_map (fun l => Some (match rev l with [] => none | w :: _ => some w end)) (elements v)
  else if name_eqb m id_enumerate then match v with HList l => Some (Some (HList (numbered 0 l))) | _ => None end
  else if name_eqb m id_zip then match v, vs with HList l, [HList l'] => Some (Some (HList (zipped l l'))) | _, _ => None end
  else if name_eqb m id_chain then match v, vs with HList l, [HList l'] => Some (Some (HList (l ++ l'))) | _, _ => None end
  else if name_eqb m id_collect then match v with HList l => Some (Some v) | _ => None end
  else if name_eqb m id_unwrap || name_eqb m id_expect then
    match v with
    | HCon _ c [w] => if name_eqb c id_Some || name_eqb c id_Ok then Some (Some w) else Some None
    | HCon _ c [] => if name_eqb c id_None then Some None else None
    | _ => None
    end
  else if name_eqb m id_path then option_map Some (field v id_path)                                   (* of an `Attribute` *)
  else if name_eqb m id_is_ident then
    match vs with
    | [t] => match path_ident v with Some i => option_map (fun b => Some (HBool b)) (equal i t) | None => Some (Some (HBool false)) end
    | _ => None
    end
  else if name_eqb m id_require_ident then Some (Some (match path_ident v with Some i => ok i | None => err HUnit end))
  else if name_eqb m id_base10_digits then match v with HInteger z => Some (Some (HDigits z)) | _ => None end
  else if name_eqb m id_parse then
    match v, ts with
    | HDigits z, [] => Some (Some (parse 0 (2 ^ 128) z))                                              (* a `u128` is asked for *)
    | HDigits z, [YPath [(t, _)]] => if name_eqb t id_i128 then Some (Some (parse (- 2 ^ 127) (2 ^ 127) z)) else None
    | _, _ => None
    end
  else if name_eqb m id_to_string then option_map (fun z => Some (HText (fmt_signed z))) (number v)
  else if name_eqb m id_checked_add then                                                              (* of a `u128` *)
    match number v, vs with
    | Some a, [HNum b] => Some (Some (if (a + b <? 2 ^ 128)%Z then some (HNum (a + b)) else none))
    | _, _ => None
    end
  else None.

(* ---- tokens *)

(* (proc_macro2: `,` and `::`) *)
Definition comma : token := TPunct (ErrorText.txt ",").
Definition colons : token := TPunct (ErrorText.txt "::").
(* (syn: `PathSegment`, without arguments) *)
Fixpoint path_tail (vs : list hv) : option (list token) :=
  match vs with
  | [] => Some []
  | HRec _ [(_, HText s); (_, HDefault)] :: vs' => option_map (fun ts => colons :: TId s :: ts) (path_tail vs')
  | _ => None
  end.
(* (syn: `ToTokens for Path`) *)
Definition path_tokens (v : hv) : option (list token) :=
  match v with
  | HRec _ fs =>
    match lookup id_leading_colon fs, lookup id_segments fs with
    | Some (HCon _ c _), Some vs =>
      match elements vs with
      | Some l => option_map (fun ts => if name_eqb c id_None then tl ts else ts) (path_tail l)
      | None => None
      end
    | _, _ => None
    end
  | _ => None
  end.
(* the variables within `#( )*`: a row for each turn, as many as the shortest of the sequences has *)
(* (quote: repetition) *)
Fixpoint rows (its : list (name * list hv)) : list env :=
  match its with
  | [] => []
  | [(x, l)] => map (fun v => [(x, v)]) l
  | (x, l) :: its' => map (fun p => (x, fst p) :: snd p) (combine l (rows its'))
  end.
Fixpoint each_row (f : env -> option (list token)) (rs : list env) : option (list token) :=
  match rs with
  | [] => Some []
  | r :: rs' => match f r, each_row f rs' with Some a, Some b => Some (a ++ b) | _, _ => None end
  end.
(* the variables that a template names *)
(* (quote) *)
Fixpoint holes (q : tmpl) : list name :=
  match q with
  | QTok _ => []
  | QHole x => [x]
  | QGroup _ qs | QRep qs => flat_map holes qs
  end.
(* those of them that are iterated over *)
(* (quote: `RepIteratorExt`, `RepAsIteratorExt`) *)
Fixpoint iterated (ρ : env) (xs : list name) : list (name * list hv) :=
  match xs with
  | [] => []
  | x :: xs' => match lookup x ρ with Some (HList l) => (x, l) :: iterated ρ xs' | _ => iterated ρ xs' end
  end.

Section Run.
  Variable turns : nat.                                             (* the most that an iterator of the text is asked for *)
  Variable self_ty : name.                                          (* `Self` *)
  Variable call : option name -> name -> list hv -> option fin.     (* the functions of the text; [None]: there is none of that name *)

  (* `#x` *)
  (* (quote: `ToTokens`) *)
  Fixpoint toks (v : hv) : option (list token) :=
    let by_text (t : name) := match call (Some t) id_to_tokens [v; HToks []] with Some (Done _ [_; HToks ts]) => Some ts | _ => None end in
    match v with
    | HText s => Some [TId s]
    | HLitInt s => Some [TLit s]
    | HLife s => Some [TLife s]
    | HToks ts => Some ts
    | HPunct vs =>
      (fix all (vs : list hv) : option (list token) :=
         match vs with
         | [] => Some []
         | [v] => toks v
         | v :: vs' => match toks v, all vs' with Some a, Some b => Some (a ++ comma :: b) | _, _ => None end
         end) vs
    | HCon t c vs =>
      if name_eqb t id_Option then match vs with [] => Some [] | [v] => toks v | _ => None end
      else if name_eqb t id_GenericParam then
        match vs with [r] => match field r id_tokens with Some (HToks ts) => Some ts | _ => None end | _ => None end
      else if name_eqb t id_Type then
        match vs with [r] => match field r id_path with Some p => path_tokens p | _ => None end | _ => None end
      else by_text t
    | HRec t _ => if name_eqb t id_Path then path_tokens v else by_text t
    | _ => None
    end.

  (* `quote! { .. }` *)
  (* (quote) *)
  Fixpoint inst (q : tmpl) (ρ : env) {struct q} : option (list token) :=
    let fix all (qs : list tmpl) (ρ : env) {struct qs} : option (list token) :=
      match qs with
      | [] => Some []
      | q :: qs' => match inst q ρ, all qs' ρ with Some a, Some b => Some (a ++ b) | _, _ => None end
      end in
    match q with
    | QTok t => Some [t]
    | QHole x => match lookup x ρ with Some v => toks v | None => None end
    | QGroup d qs => option_map (fun ts => [TGroup d ts]) (all qs ρ)
    | QRep qs =>
      match iterated ρ (flat_map holes qs) with
      | [] => None                                                  (* does not compile *)
      | its =>
        each_row (fun r => all qs (r ++ ρ)) (rows its)
      end
    end.
  Fixpoint inst_all (qs : list tmpl) (ρ : env) : option (list token) :=
    match qs with
    | [] => Some []
    | q :: qs' => match inst q ρ, inst_all qs' ρ with Some a, Some b => Some (a ++ b) | _, _ => None end
    end.

  (* `collect` of an iterator of the text *)
  (* (core: `Iterator::collect`) *)
  Fixpoint drain (n : nat) (t : name) (v : hv) : fin :=
    match n with
    | O => Leaves
    | S n' =>
      match call (Some t) id_next [v] with
      | Some (Done (HCon _ _ [w]) [v']) => match drain n' t v' with Done (HList ws) _ => Done (HList (w :: ws)) [] | r => r end
      | Some (Done (HCon _ _ []) _) => Done (HList []) []
      | Some Dies => Dies
      | _ => Leaves
      end
    end.

  Definition finish (r : option fin) (ρ : env) : out := match r with Some (Done v _) => Go v ρ | Some Dies => Die | _ => Lost end.
  (* a call by the last two segments of the path *)
  Definition call_path (q : option name) (f : name) (vs : list hv) (ρ : env) : out :=
    let q := option_map (fun q => if name_eqb q id_Self then self_ty else q) q in
    match known q f vs with
    | Some v => Go v ρ
    | None =>
      match call q f vs, q with
      | Some r, _ => finish (Some r) ρ
      | None, Some q => Go (HCon q f vs) ρ                         (* a variant *)
      | None, None => Lost
      end
    end.
  Definition call_method (v : hv) (m : name) (ts : list rty) (vs : list hv) (ρ : env) : out :=
    match method v m ts vs with
    | Some (Some w) => Go w ρ
    | Some None => Die
    | None =>
      if name_eqb m id_unwrap_or_default then                      (* only of an `Option<Repr>` *)
        match v with
        | HCon _ _ [w] => Go w ρ
        | HCon _ _ [] => finish (call (Some id_Repr) id_default []) ρ
        | _ => Lost
        end
      else
        match v with
        | HCon t _ _ => finish (call (Some t) m (v :: vs)) ρ
        | HRec t _ => if name_eqb m id_collect then finish (Some (drain turns t v)) ρ else finish (call (Some t) m (v :: vs)) ρ
        | _ => Lost
        end
    end.

  (* (core: `Iterator::map`) *)
  Fixpoint each (run : hv -> env -> out) (vs : list hv) (ρ : env) : out :=
    match vs with
    | [] => Go (HList []) ρ
    | v :: vs' =>
      next (run v ρ) (fun w ρ => next (each run vs' ρ) (fun ws ρ => match ws with HList l => Go (HList (w :: l)) ρ | _ => Lost end))
    end.
  (* (Rust: `for`) *)
  Fixpoint for_each (run : hv -> env -> out) (vs : list hv) (ρ : env) : out :=
    match vs with
    | [] => Go HUnit ρ
    | v :: vs' => next (run v ρ) (fun _ ρ => for_each run vs' ρ)
    end.
  (* (syn: `Attribute::parse_nested_meta`) *)
  Fixpoint metas (run : hv -> env -> out) (vs : list hv) (ρ : env) : out :=
    match vs with
    | [] => Go (ok HUnit) ρ
    | v :: vs' => next (run v ρ) (fun r ρ => match r with HCon _ c _ => if name_eqb c id_Ok then metas run vs' ρ else Go r ρ | _ => Lost end)
    end.
  (* methods with a closure *)
  (* (core, syn; called in oct-macros/src) *)
  Definition closure_method (v : hv) (m : name) (run : hv -> env -> out) (ρ : env) : out :=
    if name_eqb m id_map then
      match v with
      | HList vs => each run vs ρ
      | HCon t c [w] => if name_eqb c id_Ok then next (run w ρ) (fun w ρ => Go (HCon t c [w]) ρ) else Go v ρ      (* of a `Result` *)
      | _ => Lost
      end
    else if name_eqb m id_or_else then
      match v with
      | HCon _ c [w] => if name_eqb c id_Err then run w ρ else Go v ρ
      | _ => Lost
      end
    else if name_eqb m id_parse_nested_meta then
      match field v id_meta with Some (HList vs) => metas run vs ρ | _ => Lost end
    else Lost.
  Definition default_method (v : hv) (m : name) (run : env -> out) (ρ : env) : out :=
    if name_eqb m id_unwrap_or_else then
      match v with
      | HCon _ _ [w] => Go w ρ
      | HCon _ _ [] => run ρ
      | _ => Lost
      end
    else Lost.
  (* methods that change their receiver or argument *)
  (* (core: `Iterator::next`; syn: `Punctuated::push`; quote: `ToTokens::to_tokens`) *)
  Definition next_of (e : expr) (v : hv) (ρ : env) : out :=
    match v with
    | HList [] => Go none ρ
    | HList (w :: l) => match assign e (HList l) ρ with Some ρ => Go (some w) ρ | None => Lost end
    | _ => Lost
    end.
  Definition push_to (e : expr) (v w : hv) (ρ : env) : out :=
    match v with
    | HPunct l => match assign e (HPunct (l ++ [w])) ρ with Some ρ => Go HUnit ρ | None => Lost end
    | _ => Lost
    end.
  Definition append_to (e : expr) (v old : hv) (ρ : env) : out :=
    match toks v, old with
    | Some ts, HToks l => match assign e (HToks (l ++ ts)) ρ with Some ρ => Go HUnit ρ | None => Lost end
    | _, _ => Lost
    end.

  (* (Rust: evaluation) *)
  Fixpoint eval (e : expr) (ρ : env) {struct e} : out :=
    let fix args (es : list expr) (ρ : env) {struct es} : out :=
      match es with
      | [] => Go (HList []) ρ
      | e :: es' => next (eval e ρ) (fun v ρ => next (args es' ρ) (fun r ρ => match r with HList vs => Go (HList (v :: vs)) ρ | _ => Lost end))
      end in
    let fix fields (fs : list (name * expr)) (ρ : env) {struct fs} : out :=
      match fs with
      | [] => Go (HRec id_Self []) ρ
      | (x, e) :: fs' => next (eval e ρ) (fun v ρ => next (fields fs' ρ) (fun r ρ => match r with HRec t l => Go (HRec t ((x, v) :: l)) ρ | _ => Lost end))
      end in
    let fix arms (l : list (pat * expr)) (v : hv) (ρ : env) {struct l} : out :=
      match l with
      | [] => Lost
      | (p, e) :: l' => match matches p v with Some b => leave ρ (eval e (b ++ ρ)) | None => arms l' v ρ end
      end in
    match e with
    | EPath [(x, _)] =>
      match lookup x ρ with
      | Some v => Go v ρ
      | None => if name_eqb x id_None then Go none ρ else Lost
      end
    | EPath [(q, _); (c, _)] =>
      if name_eqb q id_impls then Go (HFn c) ρ else Go (HCon (if name_eqb q id_Self then self_ty else q) c []) ρ
    | EInt z _ => Go (HNum z) ρ
    | EBool b => Go (HBool b) ρ
    | EStr s => Go (HText s) ρ
    | ERef e | EDeref e => eval e ρ
    | SourceSyntax.EField e x => next (eval e ρ) (fun v ρ => match field v x with Some w => Go w ρ | None => Lost end)
    | ECast e t => next (eval e ρ) (fun v ρ => match cast t v with Some w => Go w ρ | None => Lost end)
    | EBin OEq a b => next (eval a ρ) (fun v ρ => next (eval b ρ) (fun w ρ => match equal v w with Some b => Go (HBool b) ρ | None => Lost end))
    | ERec p fs =>
      next (fields fs ρ) (fun r ρ =>
        match r, last_name p with
        | HRec _ l, Some x => Go (HRec (if name_eqb x id_Self then self_ty else x) l) ρ
        | _, _ => Lost
        end)
    | ECall (EPath p) es =>
      next (args es ρ) (fun r ρ =>
        match r, p with
        | HList vs, [(f, _)] => match lookup f ρ with Some (HFn g) => call_path None g vs ρ | Some _ => Lost | None => call_path None f vs ρ end
        | HList vs, [(q, _); (f, _)] => call_path (Some q) f vs ρ
        | _, _ => Lost
        end)
    | EMethod e m ts es =>
      match es with
      | [EClosure [p] body] =>
        next (eval e ρ) (fun v ρ =>
          closure_method v m (fun w ρ => match matches p w with Some b => leave ρ (returned (eval body (b ++ ρ))) | None => Lost end) ρ)
      | [EClosure [] body] => next (eval e ρ) (fun v ρ => default_method v m (fun ρ => leave ρ (returned (eval body ρ))) ρ)
      | [] => next (eval e ρ) (fun v ρ => if name_eqb m id_next then next_of e v ρ else call_method v m ts [] ρ)
      | [a] =>
        next (eval e ρ) (fun v ρ => next (eval a ρ) (fun w ρ =>
          if name_eqb m id_push then push_to e v w ρ
          else if name_eqb m id_to_tokens then append_to a v w ρ
          else call_method v m ts [w] ρ))
      | _ => next (eval e ρ) (fun v ρ => next (args es ρ) (fun r ρ => match r with HList vs => call_method v m ts vs ρ | _ => Lost end))
      end
    | EMacro m es =>
      if name_eqb m id_panic then Die
      else if name_eqb m id_parse_macro_input then match es with [e] => eval e ρ | _ => Lost end
      else if name_eqb m id_format then
        match es with [EStr s] => match format ρ s with Some v => Go v ρ | None => Lost end | _ => Lost end
      else if name_eqb m id_quote then
        match es with
        | [EInt z _] =>
          match nth_error src_quotes (Z.to_nat z) with
          | Some qs => match inst_all qs ρ with Some ts => Go (HToks ts) ρ | None => Lost end
          | None => Lost
          end
        | _ => Lost
        end
      else Lost
    | ETry e =>
      next (eval e ρ) (fun v ρ =>
        match v with
        | HCon _ c [w] => if name_eqb c id_Some || name_eqb c id_Ok then Go w ρ else Ret v ρ
        | HCon _ c [] => Ret v ρ
        | _ => Lost
        end)
    | EIf c a b => next (eval c ρ) (fun v ρ => match v with HBool t => leave ρ (if t then eval a ρ else eval b ρ) | _ => Lost end)
    | EIfLet p e a b =>
      next (eval e ρ) (fun v ρ => match matches p v with Some bs => leave ρ (eval a (bs ++ ρ)) | None => leave ρ (eval b ρ) end)
    | EMatch e l => next (eval e ρ) (fun v ρ => arms l v ρ)
    | EFor p e body =>
      next (eval e ρ) (fun v ρ =>
        match elements v with
        | Some vs => for_each (fun w ρ => match matches p w with Some b => leave ρ (eval body (b ++ ρ)) | None => Lost end) vs ρ
        | None => Lost
        end)
    | EAssign None a b => next (eval b ρ) (fun v ρ => match assign a v ρ with Some ρ => Go HUnit ρ | None => Lost end)
    | ELet p _ (Some e) els rest =>
      next (eval e ρ) (fun v ρ =>
        match matches p v, els with
        | Some b, _ => leave ρ (eval rest (b ++ ρ))
        | None, Some e => next (eval e ρ) (fun _ _ => Lost)
        | None, None => Lost
        end)
    | ESeq a b => next (eval a ρ) (fun _ ρ => eval b ρ)
    | EUnit | ETuple [] => Go HUnit ρ
    | _ => Lost
    end.
End Run.

(* ---- calls *)

(* (Rust: name resolution) *)
Fixpoint find_fn (f : name) (l : list fn) : option fn :=
  match l with [] => None | g :: l' => if name_eqb f (fn_name g) then Some g else find_fn f l' end.
Fixpoint find_impl (q f : name) (l : list impl) : option fn :=
  match l with
  | [] => None
  | im :: l' =>
    if SourceText.heads (im_self im) q then match find_fn f (im_fns im) with Some g => Some g | None => find_impl q f l' end
    else find_impl q f l'
  end.
Definition find (q : option name) (f : name) : option fn :=
  match q with None => find_fn f src_macros_fns | Some q => find_impl q f src_macros_impls end.
(* (Rust: parameters) *)
Fixpoint bind_params (ps : list (pat * rty)) (vs : list hv) : option env :=
  match ps, vs with
  | [], [] => Some []
  | (PVar x, _) :: ps', v :: vs' => option_map (cons (x, v)) (bind_params ps' vs')
  | _, _ => None
  end.
Definition final (ρ : env) (ps : list (pat * rty)) : list hv :=
  map (fun p => match fst p with PVar x => match lookup x ρ with Some v => v | None => HUnit end | _ => HUnit end) ps.
(* a call of the text, to a depth *)
(* (Rust) *)
Fixpoint call (turns d : nat) (q : option name) (f : name) (vs : list hv) {struct d} : option fin :=
  match find q f with
  | None => None
  | Some g =>
    match d, bind_params (fn_params g) vs with
    | S d', Some ρ =>
      match eval turns (match q with Some q => q | None => id_Self end) (call turns d') (fn_body g) ρ with
      | Go v ρ' | Ret v ρ' => Some (Done v (final ρ' (fn_params g)))
      | Die => Some Dies
      | Lost => Some Leaves
      end
    | _, _ => Some Leaves
    end
  end.
