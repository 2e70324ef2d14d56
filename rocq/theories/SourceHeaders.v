(* What rustc decides from the headers of the implementations alone: which types implement Encode and Decode and with which errors, and which error
   types convert, print and are errors. The headers are those in SourceEncode.v, SourceDecode.v, SourceErrors.v and SourceDiscriminant.v: parameters,
   bounds, trait, type and `type Error`. Traits of core that the model leaves aside (Copy, ToOwned, Borrow, Eq, Hash, BuildHasher, Default, Debug) are
   taken to be implemented (C116_asked and C117_asked list where they are asked for), and so is Sized, which every parameter without
   `?Sized` asks for (C129). Definitions only. *)
From Verif Require Import Base Streams Utf8 Types Traits Encode Decode Sized SourceNames SourceSyntax SourceMeaning SourceEncode SourceDecode SourceSizes SourceErrors SourceDiscriminant SourceRun SourceText.

(* a type by its name *)
(* (Rust: types) *)
Definition plain (x : name) : rty := YPath [(x, [])].
Definition applied (x : name) (ts : list rty) : rty := YPath [(x, ts)].

(* equality of types, without the modules that paths name *)
(* (rustc: equality of types) *)
Fixpoint rty_eqb (a b : rty) {struct a} : bool :=
  let fix all (l m : list rty) {struct l} : bool :=
    match l, m with
    | [], [] => true
    | x :: l', y :: m' => rty_eqb x y && all l' m'
    | _, _ => false
    end in
  match a, b with
  | YPath [(x, ts)], YPath [(y, us)] => name_eqb x y && all ts us
  | YTup ts, YTup us => all ts us
  | _, _ => false
  end.

(* what the parameters of an implementation stand for when [pattern] is to be the type [t] *)
(* (rustc: unification of a header with a type) *)
Fixpoint bind (params : list name) (pattern t : rty) (s : list (name * rty)) {struct pattern} : option (list (name * rty)) :=
  let fix all (l m : list rty) (s : list (name * rty)) {struct l} : option (list (name * rty)) :=
    match l, m with
    | [], [] => Some s
    | p :: l', x :: m' => match bind params p x s with Some s => all l' m' s | None => None end
    | _, _ => None
    end in
  match pattern with
  | YPath [(x, [])] =>
    if is_param x params then
      match lookup x s with Some u => if rty_eqb u t then Some s else None | None => Some ((x, t) :: s) end
    else match t with YPath [(y, [])] => if name_eqb x y then Some s else None | _ => None end
  | YPath [(x, ts)] => match t with YPath [(y, us)] => if name_eqb x y then all ts us s else None | _ => None end
  | _ => None
  end.
(* `impl Trait for X`, and `impl From<X> for Y` *)
(* (rustc: the implementation that applies) *)
Fixpoint implementation (tr : name) (t : rty) (ims : list impl) : option (impl * list (name * rty)) :=
  match ims with
  | [] => None
  | im :: ims' =>
    match im_trait im with
    | Some p =>
      if match last_name p with Some x => name_eqb tr x | None => false end
      then match bind (im_types im) (im_self im) t [] with Some s => Some (im, s) | None => implementation tr t ims' end
      else implementation tr t ims'
    | None => implementation tr t ims'
    end
  end.
Fixpoint conversion (t y : rty) (ims : list impl) : option (impl * list (name * rty)) :=
  match ims with
  | [] => None
  | im :: ims' =>
    match im_trait im with
    | Some [(tr, [arg])] =>
      if name_eqb tr id_From
      then
        match bind (im_types im) (im_self im) y [] with
        | Some s => match bind (im_types im) arg t s with Some s => Some (im, s) | None => conversion t y ims' end
        | None => conversion t y ims'
        end
      else conversion t y ims'
    | _ => conversion t y ims'
    end
  end.
(* core: numbers and `bool` are Display; Infallible is Display and Error *)
(* core/src/fmt/num.rs, core/src/convert/mod.rs *)
Definition in_core (tr : name) (t : rty) : bool :=
  match t with
  | YPath [(x, [])] =>
    name_eqb x id_Infallible && (name_eqb tr id_Display || name_eqb tr id_Error) ||
    name_eqb tr id_Display && match primitive x with Some (TInt _) | Some TBool => true | _ => false end
  | _ => false
  end.

(* `DecodeBorrowed<B>` has Decode as its supertrait, and the implementations of it are for the types that are Decode *)
(* oct/src/decode/decode_borrowed/mod.rs:61-90 *)
Definition code_trait (tr : name) : option name :=
  if name_eqb tr id_Encode then Some id_Encode
  else if name_eqb tr id_Decode || name_eqb tr id_DecodeBorrowed then Some id_Decode
  else None.
(* the type that a path names here *)
(* (rustc: what a type means here) *)
Fixpoint ty_of (st : list (name * ty)) (t : rty) : option ty :=
  match t with
  | YPath [(x, [])] =>
    match lookup x st with
    | Some t => Some t
    | None => if name_eqb x id_str then Some TStr else if name_eqb x id_CStr then Some TCStr else primitive x
    end
  | YSlice t => option_map TSlice (ty_of st t)
  | _ => None
  end.

Section Solve.
  Variable holds : rty -> name -> list rty -> bool.          (* does this error type implement this trait *)
  Variable error_of : name -> ty -> option rty.              (* `<T as Encode>::Error`, if T implements Encode; and Decode *)

  (* the trait that the bound on the parameter [x] names, which is the one of `x::Error` *)
  (* (rustc: associated types) *)
  Fixpoint bound_trait (x : name) (bs : list (rty * path)) : option name :=
    match bs with
    | [] => None
    | (YPath [(y, [])], p) :: bs' =>
      match last_name p with
      | Some tr => if name_eqb x y then match code_trait tr with Some c => Some c | None => bound_trait x bs' end else bound_trait x bs'
      | None => bound_trait x bs'
      end
    | _ :: bs' => bound_trait x bs'
    end.
  (* a type of a header: parameters replaced, associated types looked up *)
  (* (rustc: normalisation) *)
  Fixpoint norm (im : impl) (st : list (name * ty)) (se : list (name * rty)) (self : rty) (t : rty) {struct t} : option rty :=
    let fix all (l : list rty) {struct l} : option (list rty) :=
      match l with
      | [] => Some []
      | x :: l' => match norm im st se self x, all l' with Some y, Some m => Some (y :: m) | _, _ => None end
      end in
    let fix last (p : path) {struct p} : option rty :=
      match p with
      | [] => None
      | [(x, ts)] => option_map (applied x) (all ts)
      | _ :: p' => last p'
      end in
    match t with
    | YPath [(x, [])] =>
      match lookup x se with
      | Some u => Some u
      | None => if name_eqb x id_Self then Some self else Some t
      end
    | YPath [(x, []); (y, [])] =>
      if name_eqb y id_Error then
        match bound_trait x (im_bounds im) with
        | Some tr =>
          match lookup x st with
          | Some t => error_of tr t
          | None => match lookup x se with Some u => match ty_of [] u with Some t => error_of tr t | None => None end | None => None end
          end
        | None => None
        end
      else None
    | YPath p => last p
    | YTup ts => option_map YTup (all ts)
    | YQual u p [(y, [])] =>
      if name_eqb y id_Error then
        match last_name p, ty_of st u with
        | Some tr, Some t => error_of tr t
        | _, _ => None
        end
      else None
    | _ => None
    end.
  (* one bound; it may say what a parameter stands for that the type does not mention *)
  (* (rustc: the bounds of an implementation) *)
  Fixpoint norms (im : impl) (st : list (name * ty)) (se : list (name * rty)) (self : rty) (l : list rty) : option (list rty) :=
    match l with
    | [] => Some []
    | x :: l' => match norm im st se self x, norms im st se self l' with Some y, Some m => Some (y :: m) | _, _ => None end
    end.
  Definition bound (im : impl) (st : list (name * ty)) (se : list (name * rty)) (self : rty) (s : rty) (p : path) : option (list (name * rty)) :=
    match last_name p with
    | None => None
    | Some tr =>
      let general := match norm im st se self s, norms im st se self (last_args p) with
                     | Some t, Some ys => if holds t tr ys then Some se else None
                     | _, _ => None
                     end in
      match s with
      | YPath [(x, [])] =>
        if is_param x (im_types im) then
          match lookup x st with
          | Some t =>
            match code_trait tr with
            | None => Some se
            | Some c =>
              match error_of c t, last_args p with
              | None, _ => None
              | Some e, [YAssoc _ (YPath [(y, [])])] =>
                match lookup y se with
                | Some u => if rty_eqb e u then Some se else None
                | None => Some ((y, e) :: se)
                end
              | Some _, _ => Some se
              end
            end
          | None => match lookup x se with Some _ => general | None => Some se end
          end
        else general
      | _ => general
      end
    end.
  Fixpoint bounds (im : impl) (st : list (name * ty)) (se : list (name * rty)) (self : rty) (bs : list (rty * path)) : option (list (name * rty)) :=
    match bs with
    | [] => Some se
    | (s, p) :: bs' => match bound im st se self s p with Some se => bounds im st se self bs' | None => None end
    end.
  (* `B: ToOwned<Owned = T>` says what T is *)
  (* oct/src/decode/decode/mod.rs:260-263; alloc: ToOwned *)
  Fixpoint owners (st : list (name * ty)) (bs : list (rty * path)) : list (name * ty) :=
    match bs with
    | [] => st
    | (YPath [(x, [])], [(tr, [YAssoc _ (YPath [(y, [])])])]) :: bs' =>
      if name_eqb tr id_ToOwned then match lookup x st with Some t => (y, owned t) :: owners st bs' | None => owners st bs' end
      else owners st bs'
    | _ :: bs' => owners st bs'
    end.

  (* `Self` in `type Error = Self`, which only Infallible has *)
  (* oct/src/encode/encode/mod.rs, oct/src/decode/decode/mod.rs: Infallible *)
  Definition self_type (t : ty) : rty := match t with TInfallible => plain id_Infallible | _ => plain id_Self end.
  (* the error of the trait [tr] for a type of the standard library or of the crate *)
  (* (rustc: the implementation that applies, and its `type Error`) *)
  Definition implemented (tr : name) (ims : list impl) (t : ty) : option rty :=
    match find_impl ims t with
    | Some (im, s) =>
      let st := owners (fst s) (im_bounds im) in
      match bounds im st [] (self_type t) (im_bounds im) with
      | Some se =>
        match lookup id_Error (im_assoc im) with
        | Some e =>
          norm im st se (self_type t) e
        | None => None
        end
      | None => None
      end
    | None => None
    end.
  (* and for a type with derived implementations: the errors of the fields have to convert *)
  (* oct-macros/src/impls/encode_struct.rs:50-64, encode_enum.rs:68-93, decode_struct.rs:52-60, decode_enum.rs:64-81 *)
  Definition generic (tr : name) : name := if name_eqb tr id_Encode then id_GenericEncodeError else id_GenericDecodeError.
  Definition enum_error (tr : name) : name := if name_eqb tr id_Encode then id_EnumEncodeError else id_EnumDecodeError.
  Definition field (tr : name) (t : ty) : bool := match error_of tr t with Some e => holds e id_Into [plain (generic tr)] | None => false end.
  Definition error_type (tr : name) (t : ty) : option rty :=
    match t with
    | TStruct ts => if forallb (field tr) ts then Some (plain (generic tr)) else None
    | TEnum r vs =>
      if forallb (fun v => forallb (field tr) (snd v)) vs then Some (applied (enum_error tr) [plain (int_name r); plain (generic tr)]) else None
    | _ => implemented tr (if name_eqb tr id_Encode then src_encode_impls else src_decode_impls) t
    end.

  (* does a type of oct/src/error, of core or a tuple of such implement a trait *)
  (* (rustc: the implementation that applies, and its bounds) *)
  Definition satisfied (self : rty) (o : option (impl * list (name * rty))) : bool :=
    match o with
    | Some (im, se) => match bounds im [] se self (im_bounds im) with Some _ => true | None => false end
    | None => false
    end.
  Definition implements (t : rty) (tr : name) (args : list rty) : bool :=
    if name_eqb tr id_Into then
      match args with
      | [y] => rty_eqb t y || satisfied y (conversion t y src_errors_impls)
      | _ => false
      end
    else if name_eqb tr id_Display || name_eqb tr id_Error || name_eqb tr id_PrimitiveDiscriminant then
      in_core tr t || satisfied t (implementation tr t (src_errors_impls ++ src_discriminant_impls))
    else
      match code_trait tr with
      | Some c => match ty_of [] t with Some t => match error_of c t with Some _ => true | None => false end | None => false end
      | None => true
      end.
End Solve.

(* all of it, to any depth below [n] *)
(* (rustc) *)
Fixpoint holds (n : nat) (t : rty) (tr : name) (args : list rty) {struct n} : bool :=
  match n with
  | O => false
  | S n' => implements (holds n') (error_of n') t tr args
  end
with error_of (n : nat) (tr : name) (t : ty) {struct n} : option rty :=
  match n with
  | O => None
  | S n' => error_type (holds n') (error_of n') tr t
  end.

(* `T: SizedEncode`: the bounds of the header that are on SizedEncode, and the others; a derived implementation needs it of every field, and Encode of
   the type itself, which is a supertrait *)
(* oct/src/encode/sized_encode/mod.rs:78-345; oct-macros/src/impls/sized_encode_struct.rs:33-35, sized_encode_enum.rs:32-60 *)
Section Sizes.
  Variable holds : rty -> name -> list rty -> bool.
  Variable error_of : name -> ty -> option rty.
  Variable sized_of : ty -> bool.
  Fixpoint sized_bounds (st : list (name * ty)) (bs : list (rty * path)) : bool :=
    match bs with
    | [] => true
    | (YPath [(x, [])], p) :: bs' =>
      match last_name p, lookup x st with
      | Some tr, Some t => (if name_eqb tr id_SizedEncode then sized_of t else true) && sized_bounds st bs'
      | _, _ => false
      end
    | _ => false
    end.
  Definition derivable (t : ty) : bool := match error_of id_Encode t with Some _ => true | None => false end.
  Definition sized_type (t : ty) : bool :=
    match t with
    | TStruct ts => forallb sized_of ts && derivable t
    | TEnum _ vs => forallb (fun v => forallb sized_of (snd v)) vs && derivable t
    | _ =>
      match find_impl src_sizes_impls t with
      | Some (im, s) =>
        sized_bounds (fst s) (im_bounds im) &&
        match bounds holds error_of im (fst s) [] (self_type t) (im_bounds im) with Some _ => true | None => false end
      | None => false
      end
    end.
End Sizes.
Fixpoint sized_of (n : nat) (t : ty) {struct n} : bool :=
  match n with
  | O => false
  | S n' => sized_type (holds n') (error_of n') (sized_of n') t
  end.
