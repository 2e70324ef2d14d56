(* Programs that use a SizedSlice through the text of its functions alone, and what they should see. Vocabulary of C122. Definitions only. *)
From Coq Require Import List.
From Verif Require Import Base Types SizedSlice SourceNames SourceSyntax SourceMeaning SourceMemory SourceSizedSlice SpecMemory.
Import ListNotations.

(* ---- programs *)

(* calls on a variable that holds a SizedSlice, each with what the program keeps elsewhere; data lie in a buffer with other things before and behind them.
   Of a panic the program gets hold (`catch_unwind`) and goes on *)
Inductive sized_call (A S : Type) :=
| SizedNew (pre : list (option (mval A))) (data : list A) (post : list (option (mval A))) (rest : list (mobj A S)) (d : list (mval A)) (* `if let Ok(new) = SizedSlice::new(data) { s = new }` *)
| SizedCopy (pre : list (option (mval A))) (data : list A) (post : list (option (mval A))) (rest : list (mobj A S)) (d : list (mval A)) (* `s.copy_from_slice(data)` *)
| SizedSet (k : nat) (x : A) (rest : list (mobj A S)) (d : list (mval A))  (* `s[k] = x` *)
| SizedClone (rest : list (mobj A S)) (d : list (mval A)).                (* `s = s.clone()` *)
Arguments SizedNew {A S} _ _ _ _ _. Arguments SizedCopy {A S} _ _ _ _ _. Arguments SizedSet {A S} _ _ _ _. Arguments SizedClone {A S} _ _.

(* a container that a function made, and its array: they become the first two objects *)
(* (Rust: a value is moved) *)
Definition made {A S} (m : mem A S) (v : mval A) : option (mobj A S * mobj A S) :=
  match v with
  | MRef n =>
    match nth_error (objs m) n with
    | Some (OStruct x ((y, MSlice l off k) :: fs)) => option_map (fun b => (OStruct x ((y, MSlice 1 off k) :: fs), b)) (nth_error (objs m) l)
    | _ => None
    end
  | _ => None
  end.
(* the first two objects *)
(* (none of the program) *)
Definition first_two {A S} (m : mem A S) : option (mobj A S * mobj A S) := match objs m with a :: b :: _ => Some (a, b) | _ => None end.
(* a LengthError *)
(* oct/src/error/length_error.rs:28-35 *)
Definition length_error_at {A S} (m : mem A S) (v : mval A) : option length_error :=
  match v with
  | MRef n =>
    match nth_error (objs m) n with
    | Some (OStruct _ [(a, MNum capacity); (b, MNum len)]) => if name_eqb a id_capacity && name_eqb b id_len then Some (LengthError capacity len) else None
    | _ => None
    end
  | _ => None
  end.

(* one call: the text's run of it *)
Definition text_sized_call {A S} (c : mctx A S) (a b : mobj A S) (k : sized_call A S) : mres A S :=
  match k with
  | SizedNew pre data post rest d => called c id_SizedSlice src_impl_SizedSlice_T_N_2_new [MSlice 0 (length pre) (length data)] (Memory (within pre data post :: rest) d)
  | SizedCopy pre data post rest d =>
    called c id_SizedSlice src_impl_SizedSlice_T_N_copy_from_slice [MRef 0; MSlice 2 (length pre) (length data)] (Memory (a :: b :: within pre data post :: rest) d)
  | SizedSet k x rest d => called c id_SizedSlice src_IndexMut_I_SizedSlice_T_N_index_mut [MRef 0; MNum k] (Memory (a :: b :: rest) d)
  | SizedClone rest d => called c id_SizedSlice src_Clone_SizedSlice_T_N_clone [MRef 0] (Memory (a :: b :: rest) d)
  end.
(* and what the program makes of it: the container and its array afterwards, and how the call ended *)
Definition text_sized_step {A S} (c : mctx A S) (a b : mobj A S) (k : sized_call A S) : option (mobj A S * mobj A S * res length_error unit) :=
  let r := text_sized_call c a b k in
  match k, snd r with
  | SizedNew _ _ _ _ _, FDone (MCon n [v]) =>
    if name_eqb n id_Ok then option_map (fun p => (p, Ok tt)) (made (fst r) v)
    else if name_eqb n id_Err then option_map (fun e => (a, b, Err e)) (length_error_at (fst r) v)
    else None
  | SizedCopy _ _ _ _ _, FDone (MTup []) => option_map (fun p => (p, Ok tt)) (first_two (fst r))
  | SizedSet _ x _ _, FDone (MPtr 1 _ _ k) =>
    match first_two (fst r) with
    | Some (a', OBuf cs) => Some (a', OBuf (firstn k cs ++ Some (MItem x) :: skipn (Datatypes.S k) cs), Ok tt)
    | _ => None
    end
  | SizedSet _ _ _ _, FFail p => option_map (fun q => (q, Panic p)) (first_two (fst r))
  | SizedClone _ _, FDone v => option_map (fun p => (p, Ok tt)) (made (fst r) v)
  | _, _ => None
  end.
Fixpoint text_sized_calls {A S} (c : mctx A S) (a b : mobj A S) (calls : list (sized_call A S)) : option (mobj A S * mobj A S * list (res length_error unit)) :=
  match calls with
  | [] => Some (a, b, [])
  | k :: calls' =>
    match text_sized_step c a b k with
    | Some (a', b', x) => option_map (fun '(a, b, xs) => (a, b, x :: xs)) (text_sized_calls c a' b' calls')
    | None => None
    end
  end.
(* `SizedSlice::default()`, then the calls *)
Definition text_sized {A S} (c : mctx A S) (rest : list (mobj A S)) (d : list (mval A)) (calls : list (sized_call A S)) : option (mobj A S * mobj A S * list (res length_error unit)) :=
  let r := called c id_SizedSlice src_Default_SizedSlice_T_N_default [] (Memory rest d) in
  match snd r with
  | FDone v => match made (fst r) v with Some (a, b) => text_sized_calls c a b calls | None => None end
  | _ => None
  end.

(* ---- what they should see *)

(* a list of at most [cap] items. [cl]: what `Clone` makes of an item. [None]: the program is not defined *)
Definition list_step {A S} (cap : nat) (cl : A -> A) (xs : list A) (k : sized_call A S) : option (list A * res length_error unit) :=
  match k with
  | SizedNew _ data _ _ _ => Some (if length data <=? cap then (map cl data, Ok tt) else (xs, Err (LengthError cap (length data))))
  | SizedCopy _ data _ _ _ => if length data <=? cap then Some (data, Ok tt) else None
  | SizedSet k x _ _ => Some (if k <? length xs then (firstn k xs ++ x :: skipn (Datatypes.S k) xs, Ok tt) else (xs, Panic PIndex))
  | SizedClone _ _ => Some (map cl xs, Ok tt)
  end.
Fixpoint list_history {A S} (cap : nat) (cl : A -> A) (xs : list A) (calls : list (sized_call A S)) : option (list A * list (res length_error unit)) :=
  match calls with
  | [] => Some (xs, [])
  | k :: calls' =>
    match list_step cap cl xs k with
    | Some (ys, x) => option_map (fun '(zs, rs) => (zs, x :: rs)) (list_history cap cl ys calls')
    | None => None
    end
  end.
