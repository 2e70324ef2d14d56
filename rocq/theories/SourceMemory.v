(* What the syntax of SourceSyntax.v does when it runs, for the streams and containers of the crate: Output, Input, Slot, SizedSlice, SizedIter and
   SizedStr. Here memory is in view: structs with fields that are assigned to, buffers whose cells may be uninitialised, pointers into them, and
   undefined behaviour as an outcome. The functions of the crate are the ones of the text; those of core and alloc are below. Definitions only.

   Evaluation is written with continuations, as in SourceMeaning.v. A program that leaves this account ends in [FStuck].
   References to structs are transparent: a struct lives at a place, and both its owner and a reference to it name the place. *)
From Coq Require Import List.
From Verif Require Import Base Streams Utf8 Types Encode Decode Mem SourceNames SourceSyntax SourceMeaning.
From Verif Require Import SourceOutput SourceInput SourceSlot SourceSizedSlice SourceSizedIter SourceSizedStr.
Import ListNotations.

(* ---- values, objects and outcomes *)

(* what an expression can be worth; the items of the containers are of type [A] *)
(* (Rust: values) *)
Inductive mval (A : Type) :=
| MNum (n : nat)                       (* usize *)
| MBool (b : bool)
| MTup (vs : list (mval A))
| MCon (x : name) (vs : list (mval A))   (* a variant *)
| MItem (a : A)                        (* an item of a container, an octet of a stream *)
| MChar (z : Z)
| MRef (l : nat)                       (* a struct, or a reference to it *)
| MSlice (l off n : nat)               (* an array, or a reference to a slice: [n] cells of the buffer at [l], from number [off] on *)
| MText (l off n : nat)                (* the same as a `str` *)
| MPtr (l lo hi off : nat)             (* a pointer to the cell number [off]; it may be used for the cells from [lo] to [hi] *)
| MWhole (raw : bool) (l off n : nat)  (* a pointer to an array or slice, of `MaybeUninit` or of items *)
| MNull                                (* the null pointer *)
| MSpan (a b : nat)                    (* `a..b` *)
| MIter (vs : list (mval A))           (* an iterator of core, with what it will yield *)
| MOrd (c : comparison)
| MUninit                              (* `MaybeUninit::uninit()` *)
| MVal (v : val)                       (* a value that is written to or read from a Slot *)
| MEErr (e : eerr) | MDErr (e : derr). (* errors that a call of `encode` or `decode` returned *)
Arguments MNum {A} _. Arguments MBool {A} _. Arguments MTup {A} _. Arguments MCon {A} _ _. Arguments MItem {A} _. Arguments MChar {A} _.
Arguments MRef {A} _. Arguments MSlice {A} _ _ _. Arguments MText {A} _ _ _. Arguments MPtr {A} _ _ _ _. Arguments MWhole {A} _ _ _ _.
Arguments MNull {A}. Arguments MSpan {A} _ _. Arguments MIter {A} _. Arguments MOrd {A} _. Arguments MUninit {A}. Arguments MVal {A} _.
Arguments MEErr {A} _. Arguments MDErr {A} _.

(* what lives in memory; [S] are the states of a user's iterator *)
(* (Rust: places) *)
Inductive mobj (A S : Type) :=
| OBuf (cs : list (option (mval A)))                (* a buffer; `None` is a cell that is not initialised *)
| OStruct (x : name) (fs : list (name * mval A))
| OPos (x : name) (vs : list (mval A))              (* a tuple struct *)
| OUser (s : S)                                     (* a user's iterator *)
| OHasher (hs : list hash_call).                    (* a user's hasher, with the calls it got *)
Arguments OBuf {A S} _. Arguments OStruct {A S} _ _. Arguments OPos {A S} _ _. Arguments OUser {A S} _. Arguments OHasher {A S} _.

(* the memory, and the items that were dropped in place *)
(* (Rust: the memory of the program) *)
Record mem (A S : Type) := Memory { objs : list (mobj A S); dropped : list (mval A) }.
Arguments Memory {A S} _ _. Arguments objs {A S} _. Arguments dropped {A S} _.

(* how a function ends *)
(* (Rust: return, unwinding, undefined behaviour) *)
Inductive mfin (A : Type) := FDone (v : mval A) | FFail (p : panic) | FUndef (u : ub) | FLost.
Arguments FDone {A} _. Arguments FFail {A} _. Arguments FUndef {A} _. Arguments FLost {A}.
(* (Rust: the memory afterwards, and the end) *)
Definition mres (A S : Type) := (mem A S * mfin A)%type.
(* (Rust: the variables in scope) *)
Definition menv (A : Type) := list (name * mval A).

(* what a function is run in: its `Self`, N, the build, and what it is told about T, the iterator and the machine *)
(* (rustc: the instantiation of an implementation) *)
Record mctx (A S : Type) := MCtx {
  k_self : name;
  k_len : nat;                                       (* `N` *)
  k_checks : bool;                                   (* overflow checks and debug assertions *)
  k_fuel : nat;                                      (* how many turns a loop may take that is not over a list *)
  k_clone : A -> option A;                           (* `T::clone`; None is a panic *)
  k_eq : A -> A -> bool;
  k_cmp : A -> A -> comparison;
  k_partial : A -> A -> option comparison;
  k_hash : A -> list hash_call;
  k_next : S -> option (mval A) * S;                 (* `next` of the user's iterator *)
  k_lit : nat -> A;                                  (* a literal as an item *)
  k_text : list A -> option nat;                     (* `str::from_utf8`: the first octet that is wrong *)
  k_char : Z -> list A;                              (* `char::encode_utf8` *)
  k_text_hash : list A -> list hash_call;            (* `str::hash` *)
  k_start : list A -> nat -> bool;                   (* `str::is_char_boundary` *)
  k_item_size : N;                                   (* `size_of::<T>()` *)
  k_granted : bool;                                  (* whether the allocator returns memory *)
  k_max : nat;                                       (* `T::MAX_ENCODED_SIZE` *)
  k_encode : val -> list A -> nat -> list A * nat * res eerr unit;   (* `T::encode` on a stream: its buffer and position *)
  k_decode : list A -> nat -> nat * res derr val;    (* `T::decode` *)
  k_call : name -> fn -> list (mval A) -> mem A S -> mres A S }.     (* a call of a function of the crate *)

Arguments k_self {A S} _. Arguments k_len {A S} _. Arguments k_checks {A S} _. Arguments k_fuel {A S} _. Arguments k_clone {A S} _. Arguments k_eq {A S} _. Arguments k_cmp {A S} _. Arguments k_partial {A S} _.
Arguments k_hash {A S} _. Arguments k_next {A S} _. Arguments k_lit {A S} _. Arguments k_text {A S} _. Arguments k_char {A S} _. Arguments k_text_hash {A S} _. Arguments k_start {A S} _. Arguments k_item_size {A S} _.
Arguments k_granted {A S} _. Arguments k_max {A S} _. Arguments k_encode {A S} _. Arguments k_decode {A S} _. Arguments k_call {A S} _.

Section Meaning.
Variables A S : Type.
Notation V := (mval A).
Notation H := (mem A S).
Notation R := (mres A S).
Notation C := (mctx A S).
Notation Env := (menv A).

(* ---- memory *)

(* (none of the program) *)
Definition lost (m : H) : R := (m, FLost).
Definition object (m : H) (l : nat) : option (mobj A S) := place (objs m) l.
Definition put (m : H) (l : nat) (o : mobj A S) : H := Memory (update (objs m) l o) (dropped m).
(* (Rust: a new object) *)
Definition fresh (m : H) (o : mobj A S) (k : nat -> H -> R) : R := k (count (objs m)) (Memory (extend (objs m) o) (dropped m)).
(* goes on with what an access gives *)
Definition go_on {X} (o : out X) (m : H) (k : X -> R) : R :=
  match o with Done x => k x | Panics p => (m, FFail p) | Undefined u => (m, FUndef u) end.
Definition cells (m : H) (l : nat) (k : list (option V) -> R) : R :=
  match object m l with Some (OBuf cs) => k cs | _ => lost m end.

(* `*p`, `p.read()` *)
Definition load (m : H) (v : V) (k : V -> R) : R :=
  match v with
  | MPtr l lo hi off => cells m l (fun cs => if (lo <=? off) && (off <? hi) then go_on (mem_read cs off) m k else (m, FUndef UOutOfBounds))
  | _ => lost m
  end.
(* `p.write(x)` *)
Definition save (m : H) (v x : V) (k : H -> R) : R :=
  match v with
  | MPtr l lo hi off =>
    cells m l (fun cs =>
      if (lo <=? off) && (off <? hi) then go_on (mem_write cs off x) m (fun cs' => k (put m l (OBuf cs'))) else (m, FUndef UOutOfBounds))
  | _ => lost m
  end.
(* what a pointer with a length covers must be initialised when it becomes a slice *)
(* (core: `slice::from_raw_parts`, `Box::from_raw`) *)
Definition as_items (m : H) (l off n : nat) (k : list V -> R) : R := cells m l (fun cs => go_on (mem_slice cs off n) m k).
(* the items themselves *)
Fixpoint plain_items (vs : list V) : option (list A) :=
  match vs with
  | [] => Some []
  | MItem a :: vs' => option_map (cons a) (plain_items vs')
  | _ => None
  end.
Definition items (m : H) (v : V) (k : list A -> R) : R :=
  match v with
  | MSlice l off n | MText l off n => as_items m l off n (fun vs => match plain_items vs with Some xs => k xs | None => lost m end)
  | _ => lost m
  end.
(* `copy_nonoverlapping`: the cells as they are, between different buffers *)
(* (core) *)
Definition copy_cells (m : H) (src dst : V) (n : nat) (k : H -> R) : R :=
  match src, dst with
  | MPtr l lo hi off, MPtr l' lo' hi' off' =>
    if l =? l' then lost m
    else cells m l (fun cs => cells m l' (fun cs' =>
      if (lo <=? off) && (off + n <=? hi) && (lo' <=? off') && (off' + n <=? hi')
      then k (put m l' (OBuf (firstn off' cs' ++ firstn n (skipn off cs) ++ skipn (off' + n) cs')))
      else (m, FUndef UOutOfBounds)))
  | _, _ => lost m
  end.
(* overwrites the cells from [off] on by items, which fit *)
Definition overwrite (m : H) (l off : nat) (xs : list A) (k : H -> R) : R :=
  cells m l (fun cs => k (put m l (OBuf (firstn off cs ++ map (fun a => Some (MItem a)) xs ++ skipn (off + length xs) cs)))).

(* ---- arithmetic *)

(* (core: usize) *)
Definition fits_usize (n : nat) : bool := (Z.of_nat n <? 2 ^ 64)%Z.
Definition add_usize (c : C) (a b : nat) (m : H) (k : nat -> R) : R :=
  if fits_usize (a + b) then k (a + b)
  else if k_checks c then (m, FFail PArith) else k (Z.to_nat ((Z.of_nat a + Z.of_nat b) mod 2 ^ 64)).
Definition sub_usize (c : C) (a b : nat) (m : H) (k : nat -> R) : R :=
  if b <=? a then k (a - b)
  else if k_checks c then (m, FFail PArith) else k (Z.to_nat ((Z.of_nat a - Z.of_nat b) mod 2 ^ 64)).
(* the operators on numbers; on slices `==` *)
(* (core) *)
Definition arithmetic (c : C) (o : binop) (a b : nat) (m : H) (k : V -> R) : R :=
  match o with
  | OEq => k (MBool (a =? b))
  | OLt => k (MBool (a <? b))
  | OGt => k (MBool (b <? a))
  | OLe => k (MBool (a <=? b))
  | OAdd => add_usize c a b m (fun n => k (MNum n))
  | OSub => sub_usize c a b m (fun n => k (MNum n))
  | _ => lost m
  end.
Definition operator (c : C) (o : binop) (a b : V) (m : H) (k : V -> R) : R :=
  match a, b with
  | MNum x, MNum y => arithmetic c o x y m k
  | _, _ =>
    match o with
    | OEq => items m a (fun xs => items m b (fun ys => k (MBool (slice_eq (k_eq c) xs ys))))
    | _ => lost m
    end
  end.

(* ---- variables and patterns *)

Fixpoint set_var (x : name) (v : V) (ρ : Env) : option Env :=
  match ρ with
  | [] => None
  | (y, w) :: ρ' => if name_eqb x y then Some ((y, v) :: ρ') else option_map (cons (y, w)) (set_var x v ρ')
  end.
Fixpoint set_field (x : name) (v : V) (fs : list (name * V)) : option (list (name * V)) :=
  match fs with
  | [] => None
  | (y, w) :: fs' => if name_eqb x y then Some ((y, v) :: fs') else option_map (cons (y, w)) (set_field x v fs')
  end.

(* (Rust: matching) *)
Fixpoint match_with (p : pat) (v : V) (m : H) (ρ : Env) (ks : Env -> R) (kf : R) {struct p} : R :=
  let fix all (ps : list pat) (vs : list V) (ρ : Env) (ks : Env -> R) {struct ps} : R :=
    match ps, vs with
    | [], [] => ks ρ
    | p :: ps', v :: vs' => match_with p v m ρ (fun ρ => all ps' vs' ρ ks) kf
    | _, _ => kf
    end in
  let fix fields (fs : list (name * pat)) (vs : list (name * V)) (ρ : Env) (ks : Env -> R) {struct fs} : R :=
    match fs with
    | [] => ks ρ
    | (x, p) :: fs' =>
      match lookup x vs with
      | Some v => match_with p v m ρ (fun ρ => fields fs' vs ρ ks) kf
      | None => kf
      end
    end in
  match p with
  | PAny | PRest => ks ρ
  | PVar x => ks ((x, v) :: ρ)
  | PTup ps => match v with MTup vs => all ps vs ρ ks | _ => kf end
  | PCon q ps =>
    match v with
    | MCon x vs => match last_name q with Some y => if name_eqb x y then all ps vs ρ ks else kf | None => kf end
    | MRef l => match object m l with Some (OPos _ vs) => all ps vs ρ ks | _ => kf end
    | _ => kf
    end
  | PRec _ fs =>
    match v with
    | MRef l => match object m l with Some (OStruct _ vs) => fields fs vs ρ ks | _ => kf end
    | _ => kf
    end
  | _ => kf
  end.

(* ---- functions of core and alloc *)

(* an element of an array expression *)
Definition cell_of (c : C) (v : V) : option V :=
  match v with
  | MUninit => None
  | MNum n => Some (MItem (k_lit c n))
  | _ => Some v
  end.
(* pointers to the cells of a slice, in order *)
Definition pointers (l off n : nat) : list V := map (MPtr l off (off + n)) (seq off n).
(* the stream at [l]: its buffer and position *)
Definition stream (m : H) (l : nat) (k : name -> nat -> nat -> nat -> nat -> R) : R :=
  match object m l with
  | Some (OStruct x [(_, MSlice l' off n); (_, MNum pos)]) => k x l' off n pos
  | _ => lost m
  end.
(* `value.encode(&mut stream)` *)
Definition encode_to (c : C) (v : val) (l : nat) (m : H) (k : V -> H -> R) : R :=
  stream m l (fun x l' off n pos => items m (MSlice l' off n) (fun xs =>
    match k_encode c v xs pos with
    | (xs', pos', r) =>
      overwrite m l' off xs' (fun m =>
        let m := put m l (OStruct x [(id_buf, MSlice l' off n); (id_pos, MNum pos')]) in
        match r with
        | Ok _ => k (MCon id_Ok [MTup []]) m
        | Err e => k (MCon id_Err [MEErr e]) m
        | Panic p => (m, FFail p)
        end)
    end)).
(* `Decode::decode(&mut stream)` *)
Definition decode_from (c : C) (l : nat) (m : H) (k : V -> H -> R) : R :=
  stream m l (fun x l' off n pos => items m (MSlice l' off n) (fun xs =>
    match k_decode c xs pos with
    | (pos', r) =>
      let m := put m l (OStruct x [(id_buf, MSlice l' off n); (id_pos, MNum pos')]) in
      match r with
      | Ok v => k (MCon id_Ok [MVal v]) m
      | Err e => k (MCon id_Err [MDErr e]) m
      | Panic p => (m, FFail p)
      end
    end)).
(* a pointer to a whole array is read: a copy, of the cells as they are or of items *)
Definition read_whole (m : H) (raw : bool) (l off n : nat) (k : V -> H -> R) : R :=
  cells m l (fun cs =>
    if off + n <=? length cs then
      if raw then fresh m (OBuf (firstn n (skipn off cs))) (fun l' m => k (MSlice l' 0 n) m)
      else go_on (mem_slice cs off n) m (fun vs => fresh m (OBuf (map Some vs)) (fun l' m => k (MSlice l' 0 n) m))
    else (m, FUndef UOutOfBounds)).
(* the elements of the array type need not be initialised *)
(* (core: `MaybeUninit`) *)
Definition is_raw (t : rty) : bool := match t with YPath [(x, _)] => name_eqb x id_MaybeUninit | _ => false end.
(* `from_utf8_unchecked` *)
Definition as_text (c : C) (v : V) (m : H) (k : V -> R) : R :=
  match v with
  | MSlice l off n => items m v (fun xs => match k_text c xs with None => k (MText l off n) | Some _ => (m, FUndef UText) end)
  | _ => lost m
  end.

(* a layout of size zero *)
Definition no_size (c : C) (n : nat) : bool := (k_item_size c * N.of_nat n =? 0)%N.

(* functions by path: the segment before the last, and the last *)
(* (core, alloc; called in oct/src/encode/output, decode/input, slot, sized_slice, sized_iter, sized_str) *)
Definition core_call (c : C) (q : option name) (f : name) (vs : list V) (m : H) (k : V -> H -> R) : R :=
  if name_eqb f id_Ok || name_eqb f id_Err || name_eqb f id_Some || name_eqb f id_SmallBuffer || name_eqb f id_BadUtf8 then k (MCon f vs) m
  else if name_eqb f id_uninit then k MUninit m
  else if name_eqb f id_null || name_eqb f id_null_mut then k MNull m
  else if name_eqb f id_copy_nonoverlapping then
    match vs with
    | [a; b; MNum n] => copy_cells m a b n (fun m => k (MTup []) m)
    | _ => lost m
    end
  else if name_eqb f id_from_raw_parts || name_eqb f id_from_raw_parts_mut then       (* `slice::` *)
    match vs with
    | [MPtr l lo hi off; MNum n] =>
      if (lo <=? off) && (off + n <=? hi) then as_items m l off n (fun _ => k (MSlice l off n) m) else (m, FUndef UOutOfBounds)
    | _ => lost m
    end
  else if name_eqb f id_slice_from_raw_parts_mut then
    match vs with
    | [MPtr l lo hi off; MNum n] => k (MWhole false l off n) m
    | _ => lost m
    end
  else if name_eqb f id_from_raw then                                                 (* `Box::` *)
    match vs with
    | [MWhole _ l off n] => as_items m l off n (fun _ => k (MSlice l off n) m)
    | _ => lost m
    end
  else if name_eqb f id_array then                                                    (* `Layout::` *)
    match vs with
    | [MNum n] => k (MCon id_Ok [MCon id_Layout [MNum n]]) m
    | _ => lost m
    end
  else if name_eqb f id_alloc then
    match vs with
    | [MCon _ [MNum n]] =>
      if no_size c n then (m, FUndef UZeroAlloc)
      else if k_granted c then fresh m (OBuf (repeat None n)) (fun l m => k (MPtr l 0 n 0) m)
      else k MNull m
    | _ => lost m
    end
  else if name_eqb f id_clone then                                                    (* `Clone::` *)
    match vs with
    | [v] => load m v (fun w => match w with
                                | MItem a => match k_clone c a with Some b => k (MItem b) m | None => (m, FFail PUser) end
                                | _ => lost m
                                end)
    | _ => lost m
    end
  else if name_eqb f id_new then                                                      (* `ManuallyDrop::` *)
    match vs with [v] => k v m | _ => lost m end
  else if name_eqb f id_fmt then                                                      (* `Debug::`, `Display::` on a slice or `str`: whatever it writes *)
    match q, vs with
    | Some q, [v; _] => items m v (fun _ => k (MCon q [v]) m)
    | _, _ => lost m
    end
  else if name_eqb f id_from_utf8 then                                                (* `str::` *)
    match vs with
    | [MSlice l off n] =>
      items m (MSlice l off n) (fun xs =>
        match k_text c xs with
        | None => k (MCon id_Ok [MText l off n]) m
        | Some i => k (MCon id_Err [MCon id_Utf8Error [MNum i]]) m
        end)
    | _ => lost m
    end
  else if name_eqb f id_from_utf8_unchecked || name_eqb f id_from_utf8_unchecked_mut || name_eqb f id_from_boxed_utf8_unchecked then
    match vs with [v] => as_text c v m (fun v => k v m) | _ => lost m end
  else if name_eqb f id_decode then
    match vs with [MRef l] => decode_from c l m k | _ => lost m end
  else lost m.

(* `get_unchecked` and `get` of a slice *)
Definition pick (m : H) (l off n : nat) (i : V) (checked : bool) (k : V -> R) : R :=
  match i with
  | MNum j =>
    if j <? n then (if checked then k (MCon id_Some [MPtr l off (off + n) (off + j)]) else k (MPtr l off (off + n) (off + j)))
    else if checked then k (MCon id_None []) else (m, FUndef UOutOfBounds)
  | MSpan a b =>
    if checked then (if (a <=? b) && (b <=? n) then k (MCon id_Some [MSlice l (off + a) (b - a)]) else k (MCon id_None []))
    else if b <? a then (m, FUndef URange)
    else if n <? b then (m, FUndef UOutOfBounds)
    else k (MSlice l (off + a) (b - a))
  | _ => lost m
  end.
Definition compare (c : C) (v w : V) (m : H) (k : V -> R) : R :=
  items m v (fun xs => items m w (fun ys => k (MOrd (slice_cmp (k_cmp c) xs ys)))).
Definition compare_partially (c : C) (v w : V) (m : H) (k : V -> R) : R :=
  items m v (fun xs => items m w (fun ys =>
    k (match slice_partial_cmp (k_partial c) xs ys with Some o => MCon id_Some [MOrd o] | None => MCon id_None [] end))).
Definition hash_on (c : C) (hs : list hash_call) (v : V) (m : H) (k : V -> H -> R) : R :=
  match v with
  | MRef l => match object m l with Some (OHasher hs') => k (MTup []) (put m l (OHasher (hs' ++ hs))) | _ => lost m end
  | _ => lost m
  end.

(* methods; the receiver comes first *)
(* (core, alloc; called in oct/src/encode/output, decode/input, slot, sized_slice, sized_iter, sized_str) *)
Definition core_method (c : C) (f : name) (ts : list rty) (v : V) (vs : list V) (m : H) (k : V -> H -> R) : R :=
  if name_eqb f id_len then
    match v with MSlice _ _ n | MText _ _ n => k (MNum n) m | _ => lost m end
  else if name_eqb f id_as_ptr || name_eqb f id_as_mut_ptr then
    match v with MSlice l off n | MText l off n => k (MPtr l off (off + n) off) m | _ => lost m end
  else if name_eqb f id_add then
    match v, vs with
    | MPtr l lo hi off, [MNum n] => if off + n <=? hi then k (MPtr l lo hi (off + n)) m else (m, FUndef UOutOfBounds)
    | _, _ => lost m
    end
  else if name_eqb f id_cast then
    match ts, v with
    | [YArr t _], MPtr l lo hi off => k (MWhole (is_raw t) l off (k_len c)) m           (* every array type here is one of N elements *)
    | [YArr t _], MSlice l off n => k (MWhole (is_raw t) l off n) m
    | [YArr _ _], _ => lost m
    | _, _ => k v m
    end
  else if name_eqb f id_read then
    match v with
    | MWhole raw l off n => read_whole m raw l off n k
    | _ => lost m
    end
  else if name_eqb f id_is_null then
    match v with MNull => k (MBool true) m | MPtr _ _ _ _ => k (MBool false) m | _ => lost m end
  else if name_eqb f id_unchecked_sub then
    match v, vs with
    | MNum a, [MNum b] => if a <? b then (m, FUndef UUnderflow) else k (MNum (a - b)) m
    | _, _ => lost m
    end
  else if name_eqb f id_get_unchecked || name_eqb f id_get_unchecked_mut then
    match v, vs with MSlice l off n, [i] => pick m l off n i false (fun v => k v m) | _, _ => lost m end
  else if name_eqb f id_get || name_eqb f id_get_mut then
    match v, vs with
    | MSlice l off n, [i] => pick m l off n i true (fun v => k v m)
    | MText l off n, [MSpan a b] =>
      items m v (fun xs =>
        if (a <=? b) && k_start c xs a && k_start c xs b then k (MCon id_Some [MText l (off + a) (b - a)]) m else k (MCon id_None []) m)
    | _, _ => lost m
    end
  else if name_eqb f id_unwrap then
    match v with
    | MCon x [w] => if name_eqb x id_Ok || name_eqb x id_Some then k w m else lost m
    | MCon x [] => if name_eqb x id_None then (m, FFail PIndex) else lost m             (* the only `None` here is that of `get` *)
    | _ => lost m
    end
  else if name_eqb f id_assume_init then                                                (* at the type `[MaybeUninit<T>; N]` *)
    match v with MUninit => fresh m (OBuf (repeat None (k_len c))) (fun l m => k (MSlice l 0 (k_len c)) m) | _ => lost m end
  else if name_eqb f id_assume_init_read then load m v (fun w => k w m)
  else if name_eqb f id_assume_init_drop then load m v (fun w => k (MTup []) (Memory (objs m) (dropped m ++ [w])))
  else if name_eqb f id_write then
    match vs with [w] => save m v w (fun m => k (MTup []) m) | _ => lost m end
  else if name_eqb f id_clone then
    load m v (fun w => match w with
                       | MItem a => match k_clone c a with Some b => k (MItem b) m | None => (m, FFail PUser) end
                       | _ => lost m
                       end)
  else if name_eqb f id_iter || name_eqb f id_iter_mut then
    match v with MSlice l off n => k (MIter (pointers l off n)) m | _ => lost m end
  else if name_eqb f id_zip then
    match v, vs with
    | MIter xs, [MIter ys] => k (MIter (map (fun '(x, y) => MTup [x; y]) (combine xs ys))) m
    | _, _ => lost m
    end
  else if name_eqb f id_into_iter then k v m                                            (* of an iterator *)
  else if name_eqb f id_next then
    match v with
    | MRef l =>
      match object m l with
      | Some (OUser s) =>
        match k_next c s with
        | (Some x, s') => k (MCon id_Some [x]) (put m l (OUser s'))
        | (None, s') => k (MCon id_None []) (put m l (OUser s'))
        end
      | _ => lost m
      end
    | _ => lost m
    end
  else if name_eqb f id_cmp then
    match vs with [w] => compare c v w m (fun v => k v m) | _ => lost m end
  else if name_eqb f id_partial_cmp then
    match vs with [w] => compare_partially c v w m (fun v => k v m) | _ => lost m end
  else if name_eqb f id_hash then
    match v, vs with
    | MText l off n, [w] => items m v (fun xs => hash_on c (k_text_hash c xs) w m k)
    | MPtr _ _ _ _, [w] => load m v (fun x => match x with MItem a => hash_on c (k_hash c a) w m k | _ => lost m end)
    | _, _ => lost m
    end
  else if name_eqb f id_into || name_eqb f id_into_vec || name_eqb f id_as_slice then   (* of a Vec or boxed slice: the same memory *)
    match v with MSlice _ _ _ => k v m | _ => lost m end
  else if name_eqb f id_into_string || name_eqb f id_as_str || name_eqb f id_as_ref then  (* of a String, boxed or borrowed `str` *)
    match v with MText _ _ _ => k v m | _ => lost m end
  else if name_eqb f id_as_bytes then
    match v with MText l off n => k (MSlice l off n) m | _ => lost m end
  else if name_eqb f id_chars || name_eqb f id_char_indices || name_eqb f id_to_socket_addrs then   (* of a `str`: whatever they are *)
    match v with MText _ _ _ => k (MCon f [v]) m | _ => lost m end
  else if name_eqb f id_valid_up_to then
    match v with MCon _ [MNum i] => k (MNum i) m | _ => lost m end
  else if name_eqb f id_len_utf8 then
    match v with MChar z => k (MNum (len_utf8 z)) m | _ => lost m end
  else if name_eqb f id_encode_utf8 then
    match v, vs with
    | MChar z, [MSlice l off n] =>
      if length (k_char c z) <=? n then overwrite m l off (k_char c z) (fun m => k (MText l off (length (k_char c z))) m) else (m, FFail PIndex)
    | _, _ => lost m
    end
  else if name_eqb f id_borrow then
    match v with MVal _ => k v m | _ => lost m end
  else if name_eqb f id_encode then
    match v, vs with MVal x, [MRef l] => encode_to c x l m k | _, _ => lost m end
  else lost m.

(* ---- functions of the crate *)

(* (the files of the crate that are run here) *)
Definition memory_impls : list impl :=
  src_output_impls ++ src_input_impls ++ src_slot_impls ++ src_sizedslice_impls ++ src_sizediter_impls ++ src_sizedstr_impls.
(* the function of that name of the struct *)
(* (rustc: method lookup; the functions looked up so have one implementation each) *)
Definition self_name (t : rty) : option name := match t with YPath p => last_name p | _ => None end.
Fixpoint fn_named (f : name) (fs : list fn) : option fn :=
  match fs with
  | [] => None
  | g :: fs' => if name_eqb (fn_name g) f then Some g else fn_named f fs'
  end.
Fixpoint fn_of (x f : name) (is : list impl) : option fn :=
  match is with
  | [] => None
  | i :: is' =>
    match self_name (im_self i) with
    | Some y => if name_eqb x y then match fn_named f (im_fns i) with Some g => Some g | None => fn_of x f is' end else fn_of x f is'
    | None => fn_of x f is'
    end
  end.
(* `IntoIterator` of a reference to the struct *)
Fixpoint ref_into_iter (x : name) (is : list impl) : option fn :=
  match is with
  | [] => None
  | i :: is' =>
    match im_self i with
    | YRef _ t =>
      match self_name t with
      | Some y => if name_eqb x y then match fn_named id_into_iter (im_fns i) with Some g => Some g | None => ref_into_iter x is' end else ref_into_iter x is'
      | None => ref_into_iter x is'
      end
    | _ => ref_into_iter x is'
    end
  end.
Definition struct_name (m : H) (v : V) : option name :=
  match v with
  | MRef l => match object m l with Some (OStruct x _) | Some (OPos x _) => Some x | _ => None end
  | _ => None
  end.
(* goes on after a call *)
Definition returned (r : R) (k : V -> H -> R) : R :=
  match r with
  | (m, FDone v) => k v m
  | (m, FFail p) => (m, FFail p)
  | (m, FUndef u) => (m, FUndef u)
  | (m, FLost) => (m, FLost)
  end.
(* which of `deref` and `deref_mut` *)
Definition deref_for (f : name) : name :=
  if name_eqb f id_get_mut || name_eqb f id_iter_mut || name_eqb f id_get_unchecked_mut then id_deref_mut else id_deref.
(* a method: of the struct, of what it dereferences to, or of core *)
(* (rustc: method lookup) *)
Definition method (c : C) (f : name) (ts : list rty) (v : V) (vs : list V) (m : H) (k : V -> H -> R) : R :=
  match struct_name m v with
  | Some x =>
    match fn_of x f memory_impls with
    | Some g => returned (k_call c x g (v :: vs) m) k
    | None =>
      match fn_of x (deref_for f) memory_impls with
      | Some g => returned (k_call c x g [v] m) (fun w m => core_method c f ts w vs m k)
      | None => lost m
      end
    end
  | None =>
    if name_eqb f id_parse then                    (* `str::parse::<Self>` *)
      match fn_of (k_self c) id_from_str memory_impls with
      | Some g => returned (k_call c (k_self c) g [v] m) k
      | None => lost m
      end
    else core_method c f ts v vs m k
  end.
(* (rustc: what a path before `::` names) *)
Definition resolve (c : C) (x : name) : name := if name_eqb x id_Self then k_self c else x.
Definition function (c : C) (p : path) (vs : list V) (m : H) (k : V -> H -> R) : R :=
  match last_name p with
  | Some f =>
    match owner p with
    | Some q =>
      match fn_of (resolve c q) f memory_impls with
      | Some g => returned (k_call c (resolve c q) g vs m) k
      | None => core_call c (Some q) f vs m k
      end
    | None =>
      if name_eqb f id_Self then fresh m (OPos (k_self c) vs) (fun l m => k (MRef l) m)
      else core_call c None f vs m k
    end
  | None => lost m
  end.

(* ---- expressions *)

(* a loop over values *)
Fixpoint each (step : V -> Env -> H -> (Env -> H -> R) -> R) (vs : list V) (ρ : Env) (m : H) (k : Env -> H -> R) : R :=
  match vs with
  | [] => k ρ m
  | v :: vs' => step v ρ m (fun ρ m => each step vs' ρ m k)
  end.
(* a loop over a user's iterator *)
Fixpoint drain (c : C) (l : nat) (step : V -> Env -> H -> (Env -> H -> R) -> R) (fuel : nat) (ρ : Env) (m : H) (k : Env -> H -> R) : R :=
  match fuel with
  | O => lost m
  | Datatypes.S fuel' =>
    match object m l with
    | Some (OUser s) =>
      match k_next c s with
      | (Some v, s') => step v ρ (put m l (OUser s')) (fun ρ m => drain c l step fuel' ρ m k)
      | (None, s') => k ρ (put m l (OUser s'))
      end
    | _ => lost m
    end
  end.
(* `while` *)
Fixpoint again (test : Env -> H -> (V -> Env -> H -> R) -> R) (body : Env -> H -> (Env -> H -> R) -> R) (fuel : nat)
  (ρ : Env) (m : H) (k : Env -> H -> R) : R :=
  match fuel with
  | O => lost m
  | Datatypes.S fuel' =>
    test ρ m (fun v ρ m =>
      match v with
      | MBool true => body ρ m (fun ρ m => again test body fuel' ρ m k)
      | MBool false => k ρ m
      | _ => lost m
      end)
  end.
Definition numbers (a b : nat) : list V := map MNum (seq a (b - a)).

(* [brk] is where `break` goes *)
Fixpoint evaluate (c : C) (e : expr) (ρ : Env) (m : H) (brk : Env -> H -> R) (k : V -> Env -> H -> R) {struct e} : R :=
  let fix list_of (es : list expr) (ρ : Env) (m : H) (k : list V -> Env -> H -> R) {struct es} : R :=
    match es with
    | [] => k [] ρ m
    | e :: es' => evaluate c e ρ m brk (fun v ρ m => list_of es' ρ m (fun vs ρ m => k (v :: vs) ρ m))
    end in
  let fix fields_of (fs : list (name * expr)) (ρ : Env) (m : H) (k : list (name * V) -> Env -> H -> R) {struct fs} : R :=
    match fs with
    | [] => k [] ρ m
    | (x, e) :: fs' => evaluate c e ρ m brk (fun v ρ m => fields_of fs' ρ m (fun vs ρ m => k ((x, v) :: vs) ρ m))
    end in
  let fix arms_of (v : V) (arms : list (pat * expr)) (ρ : Env) (m : H) {struct arms} : R :=
    match arms with
    | [] => lost m
    | (p, e) :: arms' => match_with p v m ρ (fun ρ' => evaluate c e ρ' m brk (fun v ρ' m => k v (restore ρ ρ') m)) (arms_of v arms' ρ m)
    end in
  match e with
  | EUnit => k (MTup []) ρ m
  | EInt z _ => k (MNum (Z.to_nat z)) ρ m
  | EBool b => k (MBool b) ρ m
  | EPath p =>
    match p with
    | [(x, _)] =>
      match lookup x ρ with
      | Some v => k v ρ m
      | None =>
        if name_eqb x id_N then k (MNum (k_len c)) ρ m
        else if name_eqb x id_None then k (MCon id_None []) ρ m
        else if name_eqb x id_PhantomData then k (MTup []) ρ m
        else lost m
      end
    | [(_, _); (x, _)] => if name_eqb x id_MAX_ENCODED_SIZE then k (MNum (k_max c)) ρ m else lost m
    | _ => lost m
    end
  | ETuple es => list_of es ρ m (fun vs ρ m => k (MTup vs) ρ m)
  | ERec p fs =>
    match last_name p with
    | Some x => fields_of fs ρ m (fun vs ρ m => fresh m (OStruct (resolve c x) vs) (fun l m => k (MRef l) ρ m))
    | None => lost m
    end
  | EField e x =>
    evaluate c e ρ m brk (fun v ρ m =>
      match v with
      | MRef l => match object m l with
                  | Some (OStruct _ fs) => match lookup x fs with Some w => k w ρ m | None => lost m end
                  | _ => lost m
                  end
      | _ => lost m
      end)
  | EIdx e n =>
    evaluate c e ρ m brk (fun v ρ m =>
      match v with
      | MRef l => match object m l with
                  | Some (OPos _ vs) => match place vs n with Some w => k w ρ m | None => lost m end
                  | _ => lost m
                  end
      | _ => lost m
      end)
  | EIndex e i =>
    evaluate c e ρ m brk (fun v ρ m => evaluate c i ρ m brk (fun j ρ m =>
      match v, j with
      | MSlice l off n, MNum j => if j <? n then load m (MPtr l off (off + n) (off + j)) (fun w => k w ρ m) else (m, FFail PIndex)
      | MSlice l off n, MSpan a b => if (a <=? b) && (b <=? n) then k (MSlice l (off + a) (b - a)) ρ m else (m, FFail PIndex)
      | _, _ => lost m
      end))
  | ERange (Some a) (Some b) false =>
    evaluate c a ρ m brk (fun v ρ m => evaluate c b ρ m brk (fun w ρ m =>
      match v, w with MNum a, MNum b => k (MSpan a b) ρ m | _, _ => lost m end))
  | ERepeat e n =>
    evaluate c e ρ m brk (fun v ρ m => evaluate c n ρ m brk (fun w ρ m =>
      match w with
      | MNum n => fresh m (OBuf (repeat (cell_of c v) n)) (fun l m => k (MSlice l 0 n) ρ m)
      | _ => lost m
      end))
  | ENot e => evaluate c e ρ m brk (fun v ρ m => match v with MBool b => k (MBool (negb b)) ρ m | _ => lost m end)
  | EDeref e | ERef e | ERaw e => evaluate c e ρ m brk k
  | EBin o a b =>
    evaluate c a ρ m brk (fun v ρ m => evaluate c b ρ m brk (fun w ρ m => operator c o v w m (fun v => k v ρ m)))
  | ECall (EPath p) es => list_of es ρ m (fun vs ρ m => function c p vs m (fun v m => k v ρ m))
  | ECall (EHole _ p) es => list_of es ρ m (fun vs ρ m => function c p vs m (fun v m => k v ρ m))
  | EMethod e f ts es =>
    evaluate c e ρ m brk (fun v ρ m => list_of es ρ m (fun vs ρ m => method c f ts v vs m (fun v m => k v ρ m)))
  | ETry e =>
    evaluate c e ρ m brk (fun v ρ m =>
      match v with
      | MCon x [w] => if name_eqb x id_Ok then k w ρ m else if name_eqb x id_Err then (m, FDone v) else lost m
      | _ => lost m
      end)
  | EReturn e => evaluate c e ρ m brk (fun v _ m => (m, FDone v))
  | EBreak => brk ρ m
  | EIf i a b =>
    evaluate c i ρ m brk (fun v ρ m =>
      match v with
      | MBool t => if t then evaluate c a ρ m brk (fun v ρ' m => k v (restore ρ ρ') m) else evaluate c b ρ m brk (fun v ρ' m => k v (restore ρ ρ') m)
      | _ => lost m
      end)
  | EMatch e arms => evaluate c e ρ m brk (fun v ρ m => arms_of v arms ρ m)
  | EFor p e body =>
    evaluate c e ρ m brk (fun v ρ0 m =>
      let step := fun w ρ m k' =>
        match_with p w m ρ (fun ρ' => evaluate c body ρ' m (fun ρ'' m => k (MTup []) (restore ρ0 ρ'') m) (fun _ ρ'' m => k' (restore ρ ρ'') m)) (lost m) in
      match v with
      | MSpan a b => each step (numbers a b) ρ0 m (fun ρ m => k (MTup []) ρ m)
      | MSlice l off n => each step (pointers l off n) ρ0 m (fun ρ m => k (MTup []) ρ m)
      | MIter vs => each step vs ρ0 m (fun ρ m => k (MTup []) ρ m)
      | MRef l =>
        match object m l with
        | Some (OUser _) => drain c l step (k_fuel c) ρ0 m (fun ρ m => k (MTup []) ρ m)
        | _ =>
          match struct_name m v with
          | Some x =>
            match ref_into_iter x memory_impls with
            | Some g =>
              returned (k_call c x g [v] m) (fun w m =>
                match w with MIter vs => each step vs ρ0 m (fun ρ m => k (MTup []) ρ m) | _ => lost m end)
            | None => lost m
            end
          | None => lost m
          end
        end
      | _ => lost m
      end)
  | EWhile i body =>
    again (fun ρ m k' => evaluate c i ρ m brk k') (fun ρ m k' => evaluate c body ρ m (fun ρ' m => k (MTup []) (restore ρ ρ') m) (fun _ ρ' m => k' (restore ρ ρ') m))
      (k_fuel c) ρ m (fun ρ m => k (MTup []) ρ m)
  | EMacro x es =>
    match es with
    | [a; EStr _] =>
      if name_eqb x id_assert || (name_eqb x id_debug_assert && k_checks c) then
        evaluate c a ρ m brk (fun v ρ m =>
          match v with MBool b => if b then k (MTup []) ρ m else (m, FFail PAssert) | _ => lost m end)
      else if name_eqb x id_debug_assert then k (MTup []) ρ m
      else lost m
    | [a; b] =>
      if name_eqb x id_vec then
        evaluate c a ρ m brk (fun v ρ m => evaluate c b ρ m brk (fun w ρ m =>
          match w with
          | MNum n => fresh m (OBuf (repeat (cell_of c v) n)) (fun l m => k (MSlice l 0 n) ρ m)
          | _ => lost m
          end))
      else lost m
    | [_; EStr s; b] =>                              (* `write!(f, "{:?}", b)` *)
      if name_eqb x id_write then
        match list_eq_dec Byte.byte_eq_dec s [x7b; x3a; x3f; x7d] with
        | left _ => evaluate c b ρ m brk (fun v ρ m => items m v (fun _ => k (MCon id_Debug [v]) ρ m))
        | right _ => lost m
        end
      else lost m
    | _ => lost m
    end
  | EAssign o (EPath [(x, _)]) e =>
    evaluate c e ρ m brk (fun v ρ m =>
      let store w := match set_var x w ρ with Some ρ => k (MTup []) ρ m | None => lost m end in
      match o with
      | None => store v
      | Some o => match lookup x ρ with Some w => operator c o w v m store | None => lost m end
      end)
  | EAssign o (EField a x) e =>
    evaluate c e ρ m brk (fun v ρ m => evaluate c a ρ m brk (fun s ρ m =>
      match s with
      | MRef l =>
        match object m l with
        | Some (OStruct y fs) =>
          let store w := match set_field x w fs with Some fs => k (MTup []) ρ (put m l (OStruct y fs)) | None => lost m end in
          match o with
          | None => store v
          | Some o => match lookup x fs with Some w => operator c o w v m store | None => lost m end
          end
        | _ => lost m
        end
      | _ => lost m
      end))
  | ELet p _ (Some e) els rest =>
    evaluate c e ρ m brk (fun v ρ m =>
      match_with p v m ρ (fun ρ' => evaluate c rest ρ' m brk (fun v ρ' m => k v (restore ρ ρ') m))
        (match els with Some e => evaluate c e ρ m brk k | None => lost m end))
  | ESeq a b => evaluate c a ρ m brk (fun _ ρ m => evaluate c b ρ m brk k)
  | _ => lost m
  end.

(* ---- running a function *)

Fixpoint parameters (ps : list (pat * rty)) (vs : list V) : option Env :=
  match ps, vs with
  | [], [] => Some []
  | (PVar x, _) :: ps', v :: vs' => option_map (cons (x, v)) (parameters ps' vs')
  | _, _ => None
  end.
Definition with_self (c : C) (x : name) (call : name -> fn -> list V -> H -> R) : C :=
  MCtx A S x (k_len c) (k_checks c) (k_fuel c) (k_clone c) (k_eq c) (k_cmp c) (k_partial c) (k_hash c) (k_next c) (k_lit c) (k_text c) (k_char c)
    (k_text_hash c) (k_start c) (k_item_size c) (k_granted c) (k_max c) (k_encode c) (k_decode c) call.
(* [d] bounds the depth of calls among the functions of the crate *)
Fixpoint call_fn (d : nat) (c : C) (x : name) (f : fn) (vs : list V) (m : H) : R :=
  match d with
  | O => lost m
  | Datatypes.S d' =>
    match parameters (fn_params f) vs with
    | Some ρ => evaluate (with_self c x (call_fn d' c)) (fn_body f) ρ m (fun _ m => lost m) (fun v _ m => (m, FDone v))
    | None => lost m
    end
  end.
End Meaning.
Arguments lost {A S}. Arguments object {A S}. Arguments put {A S}. Arguments fresh {A S}. Arguments go_on {A S} {X}.
Arguments cells {A S}. Arguments load {A S}. Arguments save {A S}. Arguments as_items {A S}. Arguments plain_items {A}.
Arguments items {A S}. Arguments copy_cells {A S}. Arguments overwrite {A S}. Arguments add_usize {A S}. Arguments sub_usize {A S}.
Arguments arithmetic {A S}. Arguments operator {A S}. Arguments set_var {A}. Arguments set_field {A}. Arguments match_with {A S}.
Arguments cell_of {A S}. Arguments pointers {A}. Arguments stream {A S}. Arguments encode_to {A S}. Arguments decode_from {A S}.
Arguments read_whole {A S}. Arguments as_text {A S}. Arguments no_size {A S}. Arguments core_call {A S}. Arguments pick {A S}.
Arguments compare {A S}. Arguments compare_partially {A S}. Arguments hash_on {A S}. Arguments core_method {A S}. Arguments struct_name {A S}.
Arguments returned {A S}. Arguments method {A S}. Arguments resolve {A S}. Arguments function {A S}. Arguments each {A S}.
Arguments drain {A S}. Arguments again {A S}. Arguments numbers {A}. Arguments evaluate {A S}. Arguments parameters {A}.
Arguments with_self {A S}. Arguments call_fn {A S}.
