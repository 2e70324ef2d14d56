(* What it takes for the names in the text of a crate to resolve, for one choice of features and one target. SourceBuild.v (generated by
   tools/cfg2v.py) is the crate in this form. This is a part of what the compiler does, and the only part that is said here: a name that does
   not resolve is an error (E0432, E0433, E0412, E0425, E0599), so a crate whose names do not resolve does not build. Types are not checked, nor who may see
   a definition (`pub`), except that a private `use` does not serve other modules. *)
From Coq Require Import String List Bool.
Import ListNotations.
Local Open Scope string_scope.
Local Open Scope list_scope.

(* The features of oct/Cargo.toml:20-25, and the atomics of the target (`target_has_atomic`). *)
Record build := Build { alloc : bool; std : bool; proc_macro : bool; atomic_8 : bool; atomic_16 : bool; atomic_32 : bool; atomic_64 : bool; atomic_ptr : bool }.

(* What stands in `#[cfg( .. )]`. *)
Inductive cfg := On (key value : string) | All (l : list cfg) | Any (l : list cfg) | Not (c : cfg).

(* One option: `feature = "alloc"` and so on. What is not among them is off. *)
Definition option_on (b : build) (key value : string) : bool :=
  if String.eqb key "feature"
  then if String.eqb value "alloc" then alloc b else if String.eqb value "std" then std b else if String.eqb value "proc-macro" then proc_macro b else false
  else if String.eqb key "target_has_atomic"
  then if String.eqb value "8" then atomic_8 b else if String.eqb value "16" then atomic_16 b else if String.eqb value "32" then atomic_32 b
       else if String.eqb value "64" then atomic_64 b else if String.eqb value "ptr" then atomic_ptr b else false
  else false.

Fixpoint holds (b : build) (c : cfg) : bool :=
  match c with
  | On k v => option_on b k v
  | All l => forallb (holds b) l
  | Any l => existsb (holds b) l
  | Not c => negb (holds b c)
  end.

(* All the conditions around a piece of text. *)
Definition on (b : build) (cs : list cfg) : Prop := forall c, In c cs -> holds b c = true.

(* The lines of a file that bring a name into it. The number is the line. *)
Inductive entry :=
| Item (line : nat) (cs : list cfg) (n : string)                                          (* struct, enum, trait, fn, macro_rules *)
| Child (line : nat) (cs : list cfg) (n : string)                                         (* mod n; *)
| Use (line : nat) (cs : list cfg) (p : list string) (n : string) (public : bool)         (* use p as n; *)
| Glob (line : nat) (cs : list cfg) (p : list string).                                    (* use p::*; *)
(* A variant of an enumeration. *)
Inductive variant := Variant (line : nat) (cs : list cfg) (t v : string).
(* The paths that stand in its items; `Own` is `Self::v` in an implementation for `t`. *)
Inductive mention := Mention (line : nat) (cs : list cfg) (p : list string) | Own (line : nat) (cs : list cfg) (t v : string).

(* A module of the crate, and the crate: the other crates it can name, and its modules. *)
Record file := File { path : list string; entries : list entry; variants : list variant; mentions : list mention }.
Record krate := Krate { externs : list (string * list cfg); files : list file }.

Section Build.
Context (b : build) (k : krate).

(* `m` is a module of this build: each `mod` on the way to it is there. *)
Inductive Present : list string -> Prop :=
| P_root : Present []
| P_child f line cs n : In f (files k) -> Present (path f) -> In (Child line cs n) (entries f) -> on b cs -> Present (path f ++ [n]).

(* Module `m` gives the name `n` to those outside it. *)
Inductive Gives : list string -> string -> Prop :=
| G_item f line cs n : In f (files k) -> In (Item line cs n) (entries f) -> on b cs -> Gives (path f) n
| G_child f line cs n : In f (files k) -> In (Child line cs n) (entries f) -> on b cs -> Gives (path f) n
| G_use f line cs p n : In f (files k) -> In (Use line cs p n true) (entries f) -> on b cs -> Gives (path f) n
| G_glob f line cs p n : In f (files k) -> In (Glob line cs p) (entries f) -> on b cs -> Gives (path f ++ p) n -> Gives (path f) n.

(* The name `n` can be used inside `m`. *)
Definition Has (m : list string) (n : string) : Prop :=
  Gives m n \/ exists f line cs p public, In f (files k) /\ path f = m /\ In (Use line cs p n public) (entries f) /\ on b cs.

(* The path `p`, started in `m`, ends at something that is there. What follows a name that is no module is not looked at. *)
Fixpoint Reaches (m p : list string) : Prop :=
  match p with
  | [] => True
  | x :: rest => Gives m x /\ (In (m ++ [x]) (map path (files k)) -> Reaches (m ++ [x]) rest)
  end.

(* Names that need no import in a crate with `#![no_std]` (oct/src/lib.rs:348): core's prelude and the primitive types. *)
Definition prelude : list string :=
  ["Option"; "Some"; "None"; "Result"; "Ok"; "Err"; "Iterator"; "IntoIterator"; "DoubleEndedIterator"; "ExactSizeIterator"; "Extend"; "FromIterator";
   "From"; "Into"; "TryFrom"; "TryInto"; "AsRef"; "AsMut"; "Default"; "Clone"; "Copy"; "Send"; "Sync"; "Sized"; "Drop"; "Fn"; "FnMut"; "FnOnce";
   "PartialEq"; "Eq"; "PartialOrd"; "Ord"; "drop";
   "u8"; "u16"; "u32"; "u64"; "u128"; "usize"; "i8"; "i16"; "i32"; "i64"; "i128"; "isize"; "f32"; "f64"; "char"; "str"; "bool"].

(* What the standard library itself leaves out on targets without some atomics. *)
Definition library (p : list string) : list cfg :=
  match p with
  | [_; "sync"; "atomic"; a] =>
      if existsb (String.eqb a) ["AtomicBool"; "AtomicI8"; "AtomicU8"] then [On "target_has_atomic" "8"]
      else if existsb (String.eqb a) ["AtomicI16"; "AtomicU16"] then [On "target_has_atomic" "16"]
      else if existsb (String.eqb a) ["AtomicI32"; "AtomicU32"] then [On "target_has_atomic" "32"]
      else if existsb (String.eqb a) ["AtomicI64"; "AtomicU64"] then [On "target_has_atomic" "64"]
      else if existsb (String.eqb a) ["AtomicIsize"; "AtomicUsize"; "AtomicPtr"] then [On "target_has_atomic" "ptr"] else []
  | [_; "sync"; "Arc"] => [On "target_has_atomic" "ptr"]
  | _ => []
  end.

(* A path in module `m` resolves. `oct` is the crate itself (oct/src/lib.rs:356). *)
Definition Resolves (m p : list string) : Prop :=
  match p with
  | [] => True
  | x :: rest =>
      if (x =? "crate") || (x =? "oct") then Reaches [] rest
      else (exists cs, In (x, cs) (externs k) /\ on b cs /\ on b (library p))
           \/ (Has m x /\ (In (m ++ [x]) (map path (files k)) -> Reaches (m ++ [x]) rest))
           \/ In x prelude
  end.

(* If some line declares the variant `t::v`, then one that counts in this build does. *)
Definition Declared (t v : string) : Prop :=
  (exists f line cs, In f (files k) /\ In (Variant line cs t v) (variants f)) ->
  exists f line cs, In f (files k) /\ In (Variant line cs t v) (variants f) /\ on b cs.

(* Every name that the build has resolves. *)
Definition Builds : Prop :=
  forall f, In f (files k) -> Present (path f) ->
    (forall line cs p n public, In (Use line cs p n public) (entries f) -> on b cs -> Resolves (path f) p) /\
    (forall line cs p, In (Glob line cs p) (entries f) -> on b cs -> Reaches (path f) p) /\
    (forall line cs p, In (Mention line cs p) (mentions f) -> on b cs -> Resolves (path f) p /\ (forall t v, p = [t; v] -> Declared t v)) /\
    (forall line cs t v, In (Own line cs t v) (mentions f) -> on b cs -> Declared t v).
End Build.

(* `b'` has what `b` has. *)
Definition includes (b b' : build) : Prop := forall key value, option_on b key value = true -> option_on b' key value = true.

(* A path in module `m` that does not resolve in this build. *)
Inductive Fault (b : build) (k : krate) : list string -> list string -> Prop :=
| F_use f line cs p n public : In f (files k) -> Present b k (path f) -> In (Use line cs p n public) (entries f) -> on b cs -> ~ Resolves b k (path f) p -> Fault b k (path f) p
| F_glob f line cs p : In f (files k) -> Present b k (path f) -> In (Glob line cs p) (entries f) -> on b cs -> ~ Reaches b k (path f) p -> Fault b k (path f) p
| F_mention f line cs p : In f (files k) -> Present b k (path f) -> In (Mention line cs p) (mentions f) -> on b cs -> ~ Resolves b k (path f) p -> Fault b k (path f) p
| F_variant f line cs t v : In f (files k) -> Present b k (path f) -> In (Mention line cs [t; v]) (mentions f) -> on b cs -> ~ Declared b k t v -> Fault b k (path f) [t; v]
| F_own f line cs t v : In f (files k) -> Present b k (path f) -> In (Own line cs t v) (mentions f) -> on b cs -> ~ Declared b k t v -> Fault b k (path f) [t; v].

(* The conditions on the lines of a file. *)
Definition conditions (f : file) : list (list cfg) :=
  map (fun e => match e with Item _ cs _ | Child _ cs _ | Use _ cs _ _ _ | Glob _ cs _ => cs end) (entries f) ++
  map (fun v => match v with Variant _ cs _ _ => cs end) (variants f) ++
  map (fun x => match x with Mention _ cs _ | Own _ cs _ _ => cs end) (mentions f).

(* Where the crate as it stands names what a build lacks: the build, the module and the path. *)
Definition alloc_off : cfg := Not (On "feature" "alloc").
Definition std_off : cfg := Not (On "feature" "std").
Definition width (w : string) : cfg := On "target_has_atomic" w.
Definition atomics : list (cfg * string) :=
  [(width "8", "AtomicBool"); (width "8", "AtomicI8"); (width "8", "AtomicU8"); (width "16", "AtomicI16"); (width "16", "AtomicU16");
   (width "32", "AtomicI32"); (width "32", "AtomicU32"); (width "64", "AtomicI64"); (width "64", "AtomicU64"); (width "ptr", "AtomicIsize"); (width "ptr", "AtomicUsize")].
Definition fault_table : list (cfg * list string * list string) :=
  (* oct/src/decode/decode/mod.rs:26-34 imports both without a condition; oct/src/error/mod.rs:50 and 53 define them with one *)
  [(alloc_off, ["decode"; "decode"], ["crate"; "error"; "CStringDecodeError"]);
   (std_off, ["decode"; "decode"], ["crate"; "error"; "SystemTimeDecodeError"]);
  (* oct/src/error/generic_decode_error.rs:24-32 *)
   (std_off, ["error"; "generic_decode_error"], ["crate"; "error"; "SystemTimeDecodeError"]);
  (* oct/src/error/generic_decode_error.rs:85 and 147, against the variant of line 56 *)
   (std_off, ["error"; "generic_decode_error"], ["GenericDecodeError"; "NullString"]);
  (* oct/src/error/generic_decode_error.rs:56, against the import of lines 34-35 *)
   (All [alloc_off; On "feature" "std"], ["error"; "generic_decode_error"], ["CStringDecodeError"]);
  (* oct/src/encode/encode/mod.rs:922 *)
   (All [std_off; Any [width "8"; width "16"; width "32"; width "64"; width "ptr"]], ["encode"; "encode"], ["std"; "sync"; "atomic"; "Ordering"])] ++
  (* oct/src/decode/decode/mod.rs:1043-1107, oct/src/encode/encode/mod.rs:1068-1132, oct/src/encode/sized_encode/mod.rs:468-532 *)
  flat_map (fun m => map (fun a => (All [std_off; fst a], m, ["std"; "sync"; "atomic"; snd a])) atomics) [["decode"; "decode"]; ["encode"; "encode"]; ["encode"; "sized_encode"]].
