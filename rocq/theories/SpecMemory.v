(* Where the streams and containers of the models lie in the memory of SourceMemory.v. Definitions only. *)
From Coq Require Import List.
From Verif Require Import Base Streams Utf8 Types Encode Decode Mem Slot SizedSlice SizedIter SizedStr SourceNames SourceSyntax SourceMeaning SourceMemory.
Import ListNotations.

(* initialised cells *)
(* (Rust: an array or slice of items) *)
Definition filled {A} (xs : list A) : list (option (mval A)) := map (fun a => Some (MItem a)) xs.
(* cells that may be uninitialised *)
(* (Rust: `[MaybeUninit<T>; N]`) *)
Definition raw {A} (cs : list (option A)) : list (option (mval A)) := map (option_map MItem) cs.

(* a call, by itself: of the function [f] of the struct [x] *)
(* (none of the program; no function of these files nests deeper) *)
Definition called {A S} (c : mctx A S) (x : name) (f : fn) (vs : list (mval A)) (m : mem A S) : mres A S := call_fn 8 c x f vs m.

(* an output whose buffer is the object number [b], from its cell [off] on *)
(* oct/src/encode/output/mod.rs:29-33 *)
Definition output_obj {S} (b off : nat) (o : output) : mobj byte S :=
  OStruct id_Output [(id_buf, MSlice b off (length (o_buf o))); (id_pos, MNum (o_pos o))].
(* oct/src/decode/input/mod.rs:28-31 *)
Definition input_obj {S} (b off : nat) (i : input) : mobj byte S :=
  OStruct id_Input [(id_buf, MSlice b off (length (i_buf i))); (id_pos, MNum (i_pos i))].
(* oct/src/error/output_error/mod.rs, input_error/mod.rs *)
Definition error_obj {A S} (x : name) (e : stream_error) : mobj A S :=
  OStruct x [(id_capacity, MNum (se_capacity e)); (id_position, MNum (se_position e)); (id_count, MNum (se_count e))].
(* items in a buffer, with other cells before and behind them *)
(* (Rust: a slice) *)
Definition within {A S} (pre : list (option (mval A))) (xs : list A) (post : list (option (mval A))) : mobj A S := OBuf (pre ++ filled xs ++ post).
(* a slot whose boxed buffer is the object number [b] *)
(* oct/src/slot/mod.rs:69-74 *)
Definition slot_obj {S} (b : nat) (s : slot) : mobj byte S :=
  OStruct id_Slot [(id_buf, MSlice b 0 (length (s_buf s))); (id_len, MNum (s_len s)); (id__ty, MTup [])].
(* what the calls of `encode` and `decode` in Slot do, for a slot of the type [t] *)
(* oct/src/slot/mod.rs:270-303 *)
Definition encodes {S} (c : mctx byte S) (t : ty) : Prop :=
  forall v bs pos, k_encode c v bs pos = let (o, r) := encode (k_checks c) t v (Output bs pos) in (o_buf o, o_pos o, r).
Definition decodes {S} (c : mctx byte S) (t : ty) : Prop :=
  forall bs pos, k_decode c bs pos = let (i, r) := decode t (Input bs pos) in (i_pos i, r).

(* ---- containers *)

(* the call ends as the model says: it returns, panics, or is undefined *)
(* (none of the program) *)
Definition ends {A S X} (r : mres A S) (o : out X) (done : X -> mres A S) : Prop :=
  match o with Done x => r = done x | Panics p => snd r = FFail p | Undefined u => snd r = FUndef u end.
(* (core: Option) *)
Definition option_val {A} (r : option A) : mval A := match r with Some x => MCon id_Some [MItem x] | None => MCon id_None [] end.

(* oct/src/sized_iter/mod.rs:31-36; the array is the object number [b] *)
Definition iter_obj {A S} (b : nat) (i : siter A) : mobj A S :=
  OStruct id_SizedIter [(id_buf, MSlice b 0 (length (it_buf i))); (id_pos, MNum (it_pos i)); (id_len, MNum (it_len i))].
(* oct/src/sized_slice/mod.rs:73-76 *)
Definition sized_obj {A S} (b : nat) (s : sslice A) : mobj A S :=
  OStruct id_SizedSlice [(id_buf, MSlice b 0 (length (ss_buf s))); (id_len, MNum (ss_len s))].
(* oct/src/error/length_error.rs:28-35 *)
Definition length_obj {A S} (e : length_error) : mobj A S := OStruct id_LengthError [(id_capacity, MNum (le_capacity e)); (id_len, MNum (le_len e))].
(* (core: Option<Ordering>) *)
Definition order_val {A} (r : option comparison) : mval A := match r with Some o => MCon id_Some [MOrd o] | None => MCon id_None [] end.
(* an array of pointers into the [n] cells of the object number [b]; those that are not set are null *)
(* oct/src/sized_slice/mod.rs:100, 126 *)
Definition refs {A} (b n : nat) (cs : list (option nat)) : list (option (mval A)) :=
  map (fun r => Some (match r with Some i => MPtr b 0 n i | None => MNull end)) cs.

(* oct/src/sized_str/mod.rs:74-75; the SizedSlice is the object number [b] *)
Definition str_obj {S} (b : nat) : mobj byte S := OPos id_SizedStr [MRef b].
(* items are octets: what they, a `char` and a `str` do is what core says, and Utf8.v *)
(* (core: u8, char, str) *)
Record octets {S} (c : mctx byte S) : Prop := Octets {
  of_lit : k_lit c 0 = x00;
  of_size : k_item_size c = 1%N;
  of_eq : k_eq c = byte_eqb;
  of_cmp : k_cmp c = byte_cmp;
  of_partial : k_partial c = fun a b => Some (byte_cmp a b);
  of_text : k_text c = from_utf8;
  of_char : k_char c = encode_utf8;
  of_text_hash : k_text_hash c = str_hash;
  of_start : k_start c = is_char_boundary }.
(* the error object that a StringError holds, if it holds one, is the object number [l] *)
(* oct/src/error/string_error.rs *)
Definition string_error_obj {S} (e : string_error) : mobj byte S :=
  match e with
  | BadUtf8 b i => OStruct id_Utf8Error [(id_value, MItem b); (id_index, MNum i)]
  | SmallBuffer e => length_obj e
  end.
Definition string_error_val {A} (l : nat) (e : string_error) : mval A :=
  match e with
  | BadUtf8 _ _ => MCon id_BadUtf8 [MRef l]
  | SmallBuffer _ => MCon id_SmallBuffer [MRef l]
  end.
(* what a constructor adds to a memory of [n] objects: the array in the function, the one in the string, and the string, which is the last of the four *)
(* oct/src/sized_str/conv.rs:85-115 *)
Definition made {S} (n : nat) (s : sstr) : list (mobj byte S) :=
  [OBuf (raw (ss_buf s)); OBuf (raw (ss_buf s)); sized_obj (1 + n) s; str_obj (2 + n)].
(* how a constructor ends that was called in a memory of these objects, with them unchanged *)
(* oct/src/sized_str/mod.rs:86-91 *)
Definition string_result {S} (os : list (mobj byte S)) (d : list (mval byte)) (r : string_error + sstr) : mres byte S :=
  match r with
  | inl e => (Memory (os ++ [string_error_obj e]) d, FDone (MCon id_Err [string_error_val (length os) e]))
  | inr s => (Memory (os ++ made (length os) s) d, FDone (MCon id_Ok [MRef (3 + length os)]))
  end.
