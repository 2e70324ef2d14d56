(* What the implementations in oct/src/error do, read from their text (SourceErrors.v): messages, sources and conversions. This is a second, small
   account of Rust beside SourceMeaning.v, for functions that change nothing. [None] is a program that leaves this account. Definitions only. *)
From Coq Require Import String.
From Verif Require Import Base Streams Utf8 Types Traits SizedSlice SizedStr SourceNames SourceSyntax SourceMeaning SourceRun SourceErrors SourceDiscriminant ErrorText Format.
Local Open Scope list_scope.
Local Open Scope Z_scope.

(* ---- values *)

(* (Rust: values; a struct is an enumeration with one variant, of its own name) *)
Inductive xval :=
| XInt (i : ity) (z : Z)
| XData (type variant : name) (args : list xval) (fields : list (name * xval))
| XSome (x : xval) | XNone
| XText (s : list byte)       (* the text that `write!` has written *)
| XFormatter.

(* ---- core: format strings *)

(* `{arg:spec}`, or a character that stands for itself *)
(* core: std::fmt, Syntax *)
Inductive piece := PText (c : byte) | PHole (arg spec : list byte).
(* where in the string we are: outside of braces, behind `{`, between the braces, behind `}` *)
(* core: std::fmt, Syntax *)
Inductive scan := Outside | Opened | Inside (arg spec : list byte) (colon : bool) | Closed.
Definition is (c : byte) (code : Z) : bool := b2z c =? code.
Fixpoint after (s : list byte) (c : byte) : list byte := match s with [] => [c] | a :: r => a :: after r c end.
Fixpoint pieces (at_ : scan) (s : list byte) : option (list piece) :=
  match s with
  | [] => match at_ with Outside => Some [] | _ => None end
  | c :: r =>
    match at_ with
    | Outside => if is c 123 then pieces Opened r else if is c 125 then pieces Closed r else option_map (cons (PText c)) (pieces Outside r)
    | Opened =>
      if is c 123 then option_map (cons (PText c)) (pieces Outside r)
      else if is c 125 then option_map (cons (PHole [] [])) (pieces Outside r)
      else if is c 58 then pieces (Inside [] [] true) r else pieces (Inside [c] [] false) r
    | Inside arg spec colon =>
      if is c 125 then option_map (cons (PHole arg spec)) (pieces Outside r)
      else if colon then pieces (Inside arg (after spec c) true) r
      else if is c 58 then pieces (Inside arg [] true) r else pieces (Inside (after arg c) [] false) r
    | Closed => if is c 125 then option_map (cons (PText c)) (pieces Outside r) else None
    end
  end.
(* a number at the start *)
(* core: std::fmt, `width` *)
Fixpoint number (s : list byte) (n : option nat) : option nat * list byte :=
  match s with
  | c :: r =>
    if (48 <=? b2z c) && (b2z c <=? 57)
    then number r (Some ((match n with Some n => n | None => O end) * 10 + Z.to_nat (b2z c - 48))%nat)
    else (n, s)
  | [] => (n, s)
  end.
Definition flag (code : Z) (s : list byte) : bool * list byte :=
  match s with
  | c :: r => if is c code then (true, r) else (false, s)
  | [] => (false, s)
  end.
(* `[#][0][width][type]`, with the types of `Display` and `UpperHex` *)
(* core: std::fmt, `format_spec` *)
Definition spec_of (s : list byte) : option (options * bool) :=
  let (alt, s) := flag 35 s in
  let (zero, s) := flag 48 s in
  let (w, s) := number s None in
  let o := Options alt None zero [x20] None w None in
  match s with
  | [] => Some (o, false)
  | [c] => if is c 88 then Some (o, true) else None
  | _ => None
  end.
(* `Display` and `UpperHex` of a number; a negative number is not padded here *)
(* core: core/src/fmt/num.rs *)
Definition int_text (o : options) (upper : bool) (i : ity) (z : Z) : option (list byte) :=
  if upper then Some (pad_integral o (ErrorText.txt "0x") (radix 16 (Z.to_N (z mod 2 ^ (8 * Z.of_nat (iwidth i))))))
  else if 0 <=? z then Some (pad_integral o [] (fmt_unsigned (Z.to_N z)))
  else match width o with None => Some (x2d :: fmt_unsigned (Z.to_N (- z))) | Some _ => None end.
(* the variables that format strings name *)
(* oct/src/error: `{e}` and `{value}` *)
Definition captured (s : list byte) : option name :=
  if bytes_eqb s (ErrorText.txt "e") then Some id_e else if bytes_eqb s (ErrorText.txt "value") then Some id_value else None.

(* ---- implementations *)

(* (Rust: the type that a path names, without its arguments) *)
Definition head (t : rty) : option name := match t with YPath p => last_name p | _ => None end.
Definition heads (t : rty) (x : name) : bool := match head t with Some y => name_eqb x y | None => false end.
(* `impl Trait for X` *)
(* (rustc: the implementation that applies) *)
Fixpoint trait_impl (tr x : name) (ims : list impl) : option impl :=
  match ims with
  | [] => None
  | im :: ims' =>
    match im_trait im with
    | Some p => if (match last_name p with Some y => name_eqb tr y | None => false end) && heads (im_self im) x then Some im else trait_impl tr x ims'
    | None => trait_impl tr x ims'
    end
  end.
(* `impl From<X> for Y` *)
(* (rustc: the implementation that applies) *)
Fixpoint from_impl (x y : name) (ims : list impl) : option impl :=
  match ims with
  | [] => None
  | im :: ims' =>
    match im_trait im with
    | Some [(tr, [arg])] => if name_eqb tr id_From && heads arg x && heads (im_self im) y then Some im else from_impl x y ims'
    | _ => from_impl x y ims'
    end
  end.
(* the name of an integer type *)
(* (core) *)
Definition int_name (i : ity) : name :=
  match i with
  | U8 => id_u8 | U16 => id_u16 | U32 => id_u32 | U64 => id_u64 | U128 => id_u128 | Usize => id_usize
  | I8 => id_i8 | I16 => id_i16 | I32 => id_i32 | I64 => id_i64 | I128 => id_i128 | Isize => id_isize
  end.
(* the type of a value *)
(* (Rust: types) *)
Definition type_name (x : xval) : option name :=
  match x with
  | XInt i _ => Some (int_name i)
  | XData t _ _ _ => Some t
  | _ => None
  end.

(* ---- evaluation *)

Section Eval.
  Variable message : xval -> option (list byte).     (* `Display::fmt` of a part *)
  Variable convert : name -> xval -> option xval.    (* `.into()` to this type *)
  Variable method : name -> xval -> option xval.     (* other methods *)
  Variable self : name.                              (* `Self` *)

  (* (core: what stands for a hole) *)
  Definition value_text (s : list byte) (x : xval) : option (list byte) :=
    match spec_of s with
    | None => None
    | Some (o, upper) =>
      match x with
      | XInt i z => int_text o upper i z
      | XData _ _ _ _ => match s with [] => message x | _ => None end
      | _ => None
      end
    end.
  (* (core: `write!`; each argument is used once, in order) *)
  Fixpoint render (ps : list piece) (args : list xval) (ρ : list (name * xval)) : option (list byte) :=
    match ps with
    | [] => match args with [] => Some [] | _ => None end
    | PText c :: ps' => option_map (cons c) (render ps' args ρ)
    | PHole arg s :: ps' =>
      match arg, args with
      | [], x :: args' =>
        match value_text s x, render ps' args' ρ with Some a, Some b => Some (a ++ b) | _, _ => None end
      | [], [] => None
      | _, _ =>
        match captured arg with
        | Some y =>
          match lookup y ρ with
          | Some x => match value_text s x, render ps' args ρ with Some a, Some b => Some (a ++ b) | _, _ => None end
          | None => None
          end
        | None => None
        end
      end
    end.

  (* a name of a type, with `use .. as ..` and `Self` resolved *)
  (* (Rust: names) *)
  Definition resolve (al : list (name * name)) (x : name) : name :=
    match lookup x al with
    | Some y => y
    | None => if name_eqb x id_Self then self else x
    end.
  (* does a path name this variant of this type *)
  (* (Rust: names) *)
  Definition is_variant (al : list (name * name)) (q : path) (t v : name) : bool :=
    match last_name q, owner q with
    | Some y, Some o => name_eqb y v && name_eqb (resolve al o) t
    | _, _ => false
    end.
  (* (Rust: patterns) *)
  Fixpoint matches (al : list (name * name)) (p : pat) (x : xval) (ρ : list (name * xval)) {struct p} : option (list (name * xval)) :=
    let fix all (ps : list pat) (xs : list xval) (ρ : list (name * xval)) {struct ps} :=
      match ps, xs with
      | [], [] => Some ρ
      | p :: ps', x :: xs' => match matches al p x ρ with Some ρ => all ps' xs' ρ | None => None end
      | _, _ => None
      end in
    let fix fields (fs : list (name * pat)) (xs : list (name * xval)) (ρ : list (name * xval)) {struct fs} :=
      match fs with
      | [] => Some ρ
      | (f, p) :: fs' =>
        match lookup f xs with
        | Some x => match matches al p x ρ with Some ρ => fields fs' xs ρ | None => None end
        | None => None
        end
      end in
    match p with
    | PAny => Some ρ
    | PVar y => Some ((y, x) :: ρ)
    | PCon q ps => match x with XData t v args _ => if is_variant al q t v then all ps args ρ else None | _ => None end
    | PRec q fs => match x with XData t v _ xs => if is_variant al q t v then fields fs xs ρ else None | _ => None end
    | _ => None
    end.
  (* `i16::MIN`, `u16::MAX` *)
  (* (core) *)
  Definition limit (x y : name) : option xval :=
    match primitive x with
    | Some (TInt i) =>
      let half := 2 ^ (8 * Z.of_nat (iwidth i) - 1) in
      if name_eqb y id_MAX then Some (XInt i (if isigned i then half - 1 else 2 * half - 1))
      else if name_eqb y id_MIN then Some (XInt i (if isigned i then - half else 0))
      else None
    | _ => None
    end.

  (* (Rust: expressions) *)
  Fixpoint ev (e : expr) (al : list (name * name)) (ρ : list (name * xval)) {struct e} : option xval :=
    let fix evs (es : list expr) : option (list xval) :=
      match es with
      | [] => Some []
      | e :: es' => match ev e al ρ, evs es' with Some x, Some xs => Some (x :: xs) | _, _ => None end
      end in
    let fix evfs (es : list (name * expr)) : option (list (name * xval)) :=
      match es with
      | [] => Some []
      | (f, e) :: es' => match ev e al ρ, evfs es' with Some x, Some xs => Some ((f, x) :: xs) | _, _ => None end
      end in
    let fix arms (x : xval) (es : list (pat * expr)) : option xval :=
      match es with
      | [] => None
      | (p, e) :: es' => match matches al p x ρ with Some ρ' => ev e al ρ' | None => arms x es' end
      end in
    match e with
    | EPath [(x, _)] => match lookup x ρ with Some v => Some v | None => if name_eqb x id_None then Some XNone else None end
    | EPath [(x, _); (y, _)] => limit x y
    | EDeref e | ERef e => ev e al ρ
    | EField e f => match ev e al ρ with Some (XData _ _ _ fs) => lookup f fs | _ => None end
    | EIdx e n => match ev e al ρ with Some (XData _ _ xs _) => place xs n | _ => None end
    | EMatch e es => match ev e al ρ with Some x => arms x es | None => None end
    | ELet (PVar x) _ (Some e) None rest => match ev e al ρ with Some v => ev rest al ((x, v) :: ρ) | None => None end
    | EUse x p rest => match last_name p with Some y => ev rest ((x, y) :: al) ρ | None => None end
    | ECast e (YPath [(t, [])]) =>
      match ev e al ρ, primitive t with
      | Some (XInt _ z), Some (TInt i) => Some (XInt i (cast i z))
      | _, _ => None
      end
    | ECall (EPath [(f, _)]) [e] => if name_eqb f id_Some then option_map XSome (ev e al ρ) else None
    | ECall (EPath [(t, _); (v, _)]) es => option_map (fun xs => XData (resolve al t) v xs []) (evs es)
    | ERec [(t, _); (v, _)] fs => option_map (XData (resolve al t) v []) (evfs fs)
    | EMethod e m _ [] =>
      match ev e al ρ with
      | Some x => if name_eqb m id_into then convert self x else method m x
      | None => None
      end
    | EMacro m (EPath [(f, _)] :: EStr s :: es) =>
      if name_eqb m id_write then
        match lookup f ρ, pieces Outside s, evs es with
        | Some XFormatter, Some ps, Some xs => option_map XText (render ps xs ρ)
        | _, _, _ => None
        end
      else None
    | _ => None
    end.

  (* (Rust: a call) *)
  Fixpoint parameters (ps : list (pat * rty)) (xs : list xval) : option (list (name * xval)) :=
    match ps, xs with
    | [], [] => Some []
    | (PVar y, _) :: ps', x :: xs' => option_map (cons (y, x)) (parameters ps' xs')
    | _, _ => None
    end.
  Definition call (f : fn) (xs : list xval) : option xval :=
    match parameters (fn_params f) xs with
    | Some ρ => ev (fn_body f) [] ρ
    | None => None
    end.
  (* a function of the implementation [im] *)
  (* (Rust: a call) *)
  Definition call_in (im : option impl) (f : name) (xs : list xval) : option xval :=
    match im with
    | Some im => match find_fn f (im_fns im) with Some f => call f xs | None => None end
    | None => None
    end.
End Eval.

(* `PrimitiveDiscriminant::to_u128` *)
(* oct/src/primitive_discriminant/mod.rs:45-74 *)
Definition discriminant_method (m : name) (x : xval) : option xval :=
  match type_name x with
  | Some t =>
    call_in (fun _ => None) (fun _ _ => None) (fun _ _ => None) t (trait_impl id_SealedPrimitiveDiscriminant t src_discriminant_impls) m [x]
  | None => None
  end.
(* `Display::fmt`, to any depth below [n] *)
(* oct/src/error: `impl Display for ..`; core/src/cell.rs: BorrowError *)
Fixpoint message (n : nat) (x : xval) : option (list byte) :=
  match n, type_name x with
  | S n', Some t =>
    if name_eqb t id_BorrowError then Some (ErrorText.txt "already mutably borrowed")
    else
      match call_in (message n') (fun _ _ => None) (fun _ _ => None) t (trait_impl id_Display t src_errors_impls) id_fmt [x; XFormatter] with
      | Some (XText s) => Some s
      | _ => None
      end
  | _, _ => None
  end.
(* `From::from`, to any depth below [n]; every type converts to itself *)
(* oct/src/error: `impl From<..> for ..`; core: `impl From<T> for T` *)
Fixpoint convert (n : nat) (y : name) (x : xval) : option xval :=
  match n, type_name x with
  | S n', Some t =>
    if name_eqb t y then Some x
    else call_in (fun _ => None) (convert n') discriminant_method y (from_impl t y src_errors_impls) id_from [x]
  | _, _ => None
  end.
(* `Error::source`; without a definition there is none *)
(* oct/src/error: `impl Error for ..`; core/src/cell.rs: BorrowError *)
Definition source_of (x : xval) : option xval :=
  match type_name x with
  | Some t =>
    if name_eqb t id_BorrowError then Some XNone
    else
      match trait_impl id_Error t src_errors_impls with
      | Some im =>
        match find_fn id_source (im_fns im) with
        | Some f => call (fun _ => None) (fun _ _ => None) (fun _ _ => None) t f [x]
        | None => Some XNone
        end
      | None => None
      end
  | None => None
  end.
