(* Programs that use a stream or an iterator through the text of its functions alone, and what they should see. Vocabulary of C122. Definitions only. *)
From Coq Require Import List.
From Verif Require Import Base Streams Types Encode Slot SizedSlice SizedIter SpecStreams SpecContainers SourceNames SourceSyntax SourceMeaning SourceMemory SourceOutput SourceInput SourceSizedIter
  SourceSizedSlice SourceSlot SpecMemory.
Import ListNotations.

(* ---- what a program sees of the memory *)

(* the numbers of objects in a value, changed by [f]: objects have no places of their own *)
(* (Rust: a value is moved) *)
Fixpoint moved_val {A} (f : nat -> nat) (v : mval A) {struct v} : mval A :=
  match v with
  | MRef l => MRef (f l)
  | MSlice l off n => MSlice (f l) off n
  | MText l off n => MText (f l) off n
  | MPtr l lo hi off => MPtr (f l) lo hi off
  | MWhole r l off n => MWhole r (f l) off n
  | MTup vs => MTup (map (moved_val f) vs)
  | MCon x vs => MCon x (map (moved_val f) vs)
  | MIter vs => MIter (map (moved_val f) vs)
  | _ => v
  end.
Definition moved {A S} (f : nat -> nat) (o : mobj A S) : mobj A S :=
  match o with
  | OBuf cs => OBuf (map (option_map (moved_val f)) cs)
  | OStruct x fs => OStruct x (map (fun p => (fst p, moved_val f (snd p))) fs)
  | OPos x vs => OPos x (map (moved_val f) vs)
  | _ => o
  end.
(* the object that a function returned *)
(* (Rust) *)
Definition returned {A S} (r : mres A S) : option (mobj A S) :=
  match snd r with FDone (MRef n) => nth_error (objs (fst r)) n | _ => None end.
(* the octets in cells of a buffer *)
(* (Rust) *)
Fixpoint items {A} (cs : list (option (mval A))) : option (list A) :=
  match cs with
  | [] => Some []
  | Some (MItem a) :: cs' => option_map (cons a) (items cs')
  | _ => None
  end.
Definition items_at {A S} (m : mem A S) (l off n : nat) : option (list A) :=
  match nth_error (objs m) l with Some (OBuf cs) => items (firstn n (skipn off cs)) | _ => None end.
(* a `Result<X, E>` with E an OutputError or InputError; [ok] reads X *)
(* oct/src/error/output_error.rs, oct/src/error/input_error.rs *)
Definition result {S X} (ok : mval byte -> option X) (r : mres byte S) : option (res stream_error X) :=
  match snd r with
  | FDone (MCon k [v]) =>
    if name_eqb k id_Ok then option_map Ok (ok v)
    else
      match v with
      | MRef n =>
        match nth_error (objs (fst r)) n with
        | Some (OStruct _ [(a, MNum capacity); (b, MNum position); (c, MNum count)]) =>
          if name_eqb a id_capacity && name_eqb b id_position && name_eqb c id_count then Some (Err (StreamError capacity position count)) else None
        | _ => None
        end
      | _ => None
      end
  | _ => None
  end.

(* ---- programs *)

(* what the program keeps elsewhere may be anything at each call *)
Record elsewhere (S : Type) := Elsewhere { el_rest : list (mobj byte S); el_dropped : list (mval byte) }.
Arguments el_rest {S} _. Arguments el_dropped {S} _.

(* one `write` of some data, which lie in a buffer with other things before and behind them *)
Record write_call (S : Type) := WriteCall { w_pre : list (option (mval byte)); w_data : list byte; w_post : list (option (mval byte)); w_else : elsewhere S }.
Arguments w_pre {S} _. Arguments w_data {S} _. Arguments w_post {S} _. Arguments w_else {S} _.
Fixpoint text_writes {S} (c : mctx byte S) (a b : mobj byte S) (calls : list (write_call S)) : option (mobj byte S * mobj byte S * list (res stream_error unit)) :=
  match calls with
  | [] => Some (a, b, [])
  | k :: calls' =>
    let r := called c id_Output src_impl_Output_write [MRef 0; MSlice 2 (length (w_pre k)) (length (w_data k))]
               (Memory (a :: b :: within (w_pre k) (w_data k) (w_post k) :: el_rest (w_else k)) (el_dropped (w_else k))) in
    match objs (fst r), result (fun _ => Some tt) r with
    | a' :: b' :: _, Some x => option_map (fun '(a, b, xs) => (a, b, x :: xs)) (text_writes c a' b' calls')
    | _, _ => None
    end
  end.
(* `Output::new` on octets somewhere in a buffer, then the writes; the new object goes first and everything else moves up by one *)
Definition text_output {S} (c : mctx byte S) (pre : list (option (mval byte))) (bs : list byte) (post : list (option (mval byte))) (e : elsewhere S)
    (calls : list (write_call S)) : option (mobj byte S * mobj byte S * list (res stream_error unit)) :=
  let r := called c id_Output src_impl_Output_new [MSlice 0 (length pre) (length bs)] (Memory (within pre bs post :: el_rest e) (el_dropped e)) in
  match objs (fst r), returned r with
  | b :: _, Some a => text_writes c (moved (fun l => 1 + l) a) b calls
  | _, _ => None
  end.

(* one `read` or `read_into`; the destination of the latter lies in a buffer with other things before and behind it. What it gives: the result, with the
   octets that were handed out, and the destination afterwards *)
Inductive read_call (S : Type) :=
| ReadCall (n : nat) (e : elsewhere S)
| ReadIntoCall (pre : list (option (mval byte))) (dst : list byte) (post : list (option (mval byte))) (e : elsewhere S).
Arguments ReadCall {S} _ _. Arguments ReadIntoCall {S} _ _ _ _.
Definition text_read {S} (c : mctx byte S) (a b : mobj byte S) (k : read_call S) : mres byte S * option (res stream_error (list byte) * list byte) :=
  match k with
  | ReadCall n e =>
    let r := called c id_Input src_impl_Input_read [MRef 0; MNum n] (Memory (a :: b :: el_rest e) (el_dropped e)) in
    (r, option_map (fun x => (x, [])) (result (fun v => match v with MSlice l off n => items_at (fst r) l off n | _ => None end) r))
  | ReadIntoCall pre dst post e =>
    let r := called c id_Input src_impl_Input_read_into [MRef 0; MSlice 2 (length pre) (length dst)]
               (Memory (a :: b :: within pre dst post :: el_rest e) (el_dropped e)) in
    (r, match items_at (fst r) 2 (length pre) (length dst) with
        | Some after => option_map (fun x => (x, after)) (result (fun _ => Some after) r)
        | None => None
        end)
  end.
Fixpoint text_reads {S} (c : mctx byte S) (a b : mobj byte S) (calls : list (read_call S)) :
    option (mobj byte S * mobj byte S * list (res stream_error (list byte) * list byte)) :=
  match calls with
  | [] => Some (a, b, [])
  | k :: calls' =>
    let '(r, x) := text_read c a b k in
    match objs (fst r), x with
    | a' :: b' :: _, Some x => option_map (fun '(a, b, xs) => (a, b, x :: xs)) (text_reads c a' b' calls')
    | _, _ => None
    end
  end.
Definition text_input {S} (c : mctx byte S) (pre : list (option (mval byte))) (bs : list byte) (post : list (option (mval byte))) (e : elsewhere S)
    (calls : list (read_call S)) : option (mobj byte S * mobj byte S * list (res stream_error (list byte) * list byte)) :=
  let r := called c id_Input src_impl_Input_new [MSlice 0 (length pre) (length bs)] (Memory (within pre bs post :: el_rest e) (el_dropped e)) in
  match objs (fst r), returned r with
  | b :: _, Some a => text_reads c (moved (fun l => 1 + l) a) b calls
  | _, _ => None
  end.

(* `next` and `next_back` of a SizedIter, each with what is elsewhere; what they return, and what has been dropped by then *)
Fixpoint text_steps {A S} (c : mctx A S) (a b : mobj A S) (calls : list (end_of * list (mobj A S) * list (mval A))) :
    option (mobj A S * mobj A S * list (option A * list (mval A))) :=
  match calls with
  | [] => Some (a, b, [])
  | (k, rest, d) :: calls' =>
    let r := called c id_SizedIter (match k with Front => src_Iterator_SizedIter_T_N_next | Back => src_DoubleEndedIterator_SizedIter_T_N_next_back end) [MRef 0]
               (Memory (a :: b :: rest) d) in
    let x := match snd r with
             | FDone (MCon k [MItem x]) => if name_eqb k id_Some then Some (Some x) else None
             | FDone (MCon k []) => if name_eqb k id_None then Some None else None
             | _ => None
             end in
    match objs (fst r), x with
    | a' :: b' :: _, Some x => option_map (fun '(a, b, xs) => (a, b, (x, dropped (fst r)) :: xs)) (text_steps c a' b' calls')
    | _, _ => None
    end
  end.
(* `into_iter` of a SizedSlice with the given items, the cells behind them being anything; then the steps. The iterator takes the place of the slice *)
Definition text_iterated {A S} (c : mctx A S) (xs : list A) (spare : list (option A)) (rest : list (mobj A S)) (d : list (mval A))
    (calls : list (end_of * list (mobj A S) * list (mval A))) : option (mobj A S * mobj A S * list (option A * list (mval A))) :=
  let cs := map Some xs ++ spare in
  let r := called c id_SizedSlice src_IntoIterator_SizedSlice_T_N_into_iter [MRef 0]
             (Memory (OStruct id_SizedSlice [(id_buf, MSlice 1 0 (length cs)); (id_len, MNum (length xs))] :: OBuf (raw cs) :: rest) d) in
  match objs (fst r), returned r with
  | _ :: b :: _, Some a => text_steps c a b calls
  | _, _ => None
  end.

(* ---- what they should see *)

(* data are taken in turn as long as they fit into what is left of [cap] octets *)
Fixpoint verdicts (cap used : nat) (ds : list (list byte)) : list (res stream_error unit) :=
  match ds with
  | [] => []
  | d :: ds' =>
    if used + length d <=? cap then Ok tt :: verdicts cap (used + length d) ds'
    else Err (StreamError cap used (length d)) :: verdicts cap used ds'
  end.
Definition kept (cap : nat) (ds : list (list byte)) : list byte := concat (accepted ds (verdicts cap 0 ds)).

(* octets are handed out in order; a call that asks for more than are left gets none and changes nothing *)
Fixpoint served {S} (bs : list byte) (pos : nat) (cs : list (read_call S)) : list (res stream_error (list byte) * list byte) * nat :=
  match cs with
  | [] => ([], pos)
  | k :: cs' =>
    let n := match k with ReadCall n _ => n | ReadIntoCall _ dst _ _ => length dst end in
    let dst := match k with ReadCall _ _ => [] | ReadIntoCall _ dst _ _ => dst end in
    let piece := firstn n (skipn pos bs) in
    if pos + n <=? length bs then
      let '(xs, p) := served bs (pos + n) cs' in ((Ok piece, match k with ReadCall _ _ => [] | _ => piece end) :: xs, p)
    else let '(xs, p) := served bs pos cs' in ((Err (StreamError (length bs) pos n), dst) :: xs, p)
  end.

(* ---- Slot *)

(* calls on a slot; of a panic the program gets hold (`catch_unwind`) and goes on *)
Inductive slot_call (S : Type) :=
| SlotWrite (v : val) (e : elsewhere S)
| SlotCopy (pre : list (option (mval byte))) (data : list byte) (post : list (option (mval byte))) (e : elsewhere S)
| SlotSetLen (n : nat) (e : elsewhere S)
| SlotSet (k : nat) (x : byte) (e : elsewhere S).           (* `slot[k] = x` *)
Arguments SlotWrite {S} _ _. Arguments SlotCopy {S} _ _ _ _. Arguments SlotSetLen {S} _ _. Arguments SlotSet {S} _ _ _.
(* how a call ended *)
(* (Rust) *)
Definition ended {S} (r : mres byte S) : option (res eerr unit) :=
  match snd r with
  | FDone (MTup []) => Some (Ok tt)
  | FDone (MPtr _ _ _ _) => Some (Ok tt)
  | FDone (MCon k [MTup []]) => if name_eqb k id_Ok then Some (Ok tt) else None
  | FDone (MCon k [MEErr e]) => if name_eqb k id_Err then Some (Err e) else None
  | FFail p => Some (Panic p)
  | _ => None
  end.
(* a store through a pointer *)
(* (Rust) *)
Definition stored {S} (x : byte) (r : mres byte S) (b : mobj byte S) : mobj byte S :=
  match snd r, b with
  | FDone (MPtr _ _ _ k), OBuf cs => OBuf (firstn k cs ++ Some (MItem x) :: skipn (Datatypes.S k) cs)
  | _, _ => b
  end.
Definition text_slot_call {S} (c : mctx byte S) (a b : mobj byte S) (k : slot_call S) : mres byte S :=
  match k with
  | SlotWrite v e => called c id_Slot src_impl_Slot_T_2_write [MRef 0; MVal v] (Memory (a :: b :: el_rest e) (el_dropped e))
  | SlotCopy pre data post e =>
    called c id_Slot src_impl_Slot_T_copy_from_slice [MRef 0; MSlice 2 (length pre) (length data)] (Memory (a :: b :: within pre data post :: el_rest e) (el_dropped e))
  | SlotSetLen n e => called c id_Slot src_impl_Slot_T_set_len [MRef 0; MNum n] (Memory (a :: b :: el_rest e) (el_dropped e))
  | SlotSet k x e => called c id_Slot src_IndexMut_I_Slot_T_index_mut [MRef 0; MNum k] (Memory (a :: b :: el_rest e) (el_dropped e))
  end.
Fixpoint text_slot_calls {S} (c : mctx byte S) (a b : mobj byte S) (calls : list (slot_call S)) : option (mobj byte S * mobj byte S * list (res eerr unit)) :=
  match calls with
  | [] => Some (a, b, [])
  | k :: calls' =>
    let r := text_slot_call c a b k in
    match objs (fst r), ended r with
    | a' :: b' :: _, Some x =>
      option_map (fun '(a, b, xs) => (a, b, x :: xs)) (text_slot_calls c a' (match k with SlotSet _ x _ => stored x r b' | _ => b' end) calls')
    | _, _ => None
    end
  end.
(* `Slot::with_capacity`, then the calls; the slot and its buffer are moved to the first two places *)
Definition text_slot {S} (c : mctx byte S) (cap : nat) (e : elsewhere S) (calls : list (slot_call S)) : option (mobj byte S * mobj byte S * list (res eerr unit)) :=
  let r := called c id_Slot src_impl_Slot_T_with_capacity [MNum cap] (Memory (el_rest e) (el_dropped e)) in
  match nth_error (objs (fst r)) (length (el_rest e)), returned r with
  | Some b, Some a => text_slot_calls c (moved (fun l => 1 + (l - length (el_rest e))) a) b calls
  | _, _ => None
  end.
