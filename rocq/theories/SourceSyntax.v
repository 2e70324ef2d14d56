(* The syntax of the Rust in which the crate is written, as far as the crate uses it. The trees in the files Source<Module>.v are written by
   tools/rust2v.py from the text of /repo/oct/src, where it is said what the translation drops. Definitions only. *)
From Coq Require Import String Ascii.
From Verif Require Import Base SourceNames.

(* types, as in `fn decode(input: &mut Input) -> Result<Self, Self::Error>`, oct/src/decode/decode/mod.rs:120 *)
Inductive rty :=
| YPath (p : list (name * list rty))                                       (* `Vec<T>`, `Self::Error`: segments with their arguments *)
| YQual (t : rty) (tr : list (name * list rty)) (p : list (name * list rty))   (* `<T as Trait>::X` *)
| YRef (mut : bool) (t : rty)
| YPtr (mut : bool) (t : rty)
| YSlice (t : rty)
| YArr (t n : rty)                                                         (* the length is a parameter or a literal *)
| YTup (ts : list rty)
| YLit (z : Z)
| YAssoc (x : name) (t : rty)                                              (* the argument `Error = E` of a trait *)
| YInfer | YDyn | YFn.

(* paths, as in `::core::num::NonZero::new_unchecked`, oct/src/decode/decode/mod.rs:875 *)
Definition path := list (name * list rty).

(* patterns, as in `code_point @ (0x0000..=0xD7FF | 0xDE00..=0x10FFFF)`, oct/src/decode/decode/mod.rs:248 *)
Inductive pat :=
| PAny
| PRest
| PVar (x : name)
| PAt (x : name) (p : pat)
| PLit (z : Z)
| PRange (lo hi : Z)
| POr (ps : list pat)
| PTup (ps : list pat)
| PCon (p : path) (ps : list pat)
| PRec (p : path) (fs : list (name * pat)).

(* operators *)
(* oct/src: those that occur *)
Inductive binop := OEq | ONe | OLt | OGt | OLe | OGe | OAdd | OSub | OMul | ODiv | ORem | OAnd | OOr.

(* expressions, with blocks unfolded: `let` and statements carry what follows them *)
(* oct/src: those that occur *)
Inductive expr :=
| EPath (p : path)
| EHole (k : nat) (p : path)              (* the k-th `Decode::decode` of a function whose type rustc infers *)
| EQual (t : rty) (tr p : path)           (* `<T as Trait>::x` *)
| EInt (z : Z) (suffix : option name)
| EChar (z : Z)
| EBool (b : bool)
| EStr (s : list byte)
| ECall (f : expr) (es : list expr)
| EMethod (e : expr) (m : name) (ts : list rty) (es : list expr)
| EField (e : expr) (x : name)
| EIdx (e : expr) (n : nat)               (* `e.0` *)
| EIndex (e i : expr)
| ENot (e : expr) | ENeg (e : expr) | EDeref (e : expr) | ERef (e : expr) | ERaw (e : expr)
| EBin (o : binop) (a b : expr)
| ECast (e : expr) (t : rty)
| ERange (lo hi : option expr) (inclusive : bool)
| ETry (e : expr)                         (* `e?` *)
| EReturn (e : expr)
| EBreak
| EIf (c a b : expr)
| EIfLet (p : pat) (e a b : expr)
| EMatch (e : expr) (arms : list (pat * expr))
| EFor (p : pat) (e body : expr)
| EWhile (c body : expr)
| ETuple (es : list expr)
| EArray (es : list expr)
| ERepeat (e n : expr)                    (* `[e; n]` *)
| ERec (p : path) (fs : list (name * expr))
| EClosure (ps : list pat) (body : expr)
| EMacro (m : name) (es : list expr)
| EAssign (o : option binop) (a b : expr)
| ELet (p : pat) (t : option rty) (e els : option expr) (rest : expr)
| ESeq (a b : expr)
| EUse (x : name) (p : path) (rest : expr)
| EUnit.

(* a function: name, type parameters, parameters, result, body *)
(* oct/src: each `fn` *)
Record fn := Fn { fn_name : name; fn_types : list name; fn_params : list (pat * rty); fn_result : rty; fn_body : expr }.

(* an implementation: parameters, constant parameters, bounds, trait, type, constants, types, functions *)
(* oct/src: each `impl` *)
Record impl := Impl {
  im_types : list name;
  im_consts : list name;
  im_bounds : list (rty * path);
  im_trait : option path;
  im_self : rty;
  im_values : list (name * expr);
  im_assoc : list (name * rty);
  im_fns : list fn }.

(* the octets of a string literal of the source *)
(* oct/src: string literals *)
Fixpoint txt (s : string) : list byte :=
  match s with
  | EmptyString => []
  | String a s' => byte_of_ascii a :: txt s'
  end.

(* the definition of a type: name, parameters, bounds, and the types of the fields of each variant, of which a struct has one *)
(* oct/src: each `struct` and `enum` *)
Record tydef := TyDef { td_name : name; td_types : list name; td_consts : list name; td_bounds : list (rty * path); td_variants : list (name * list rty) }.
