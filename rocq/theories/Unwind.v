(* Panics of the user's code (`clone`, `next`, `decode`, destructors) inside of the operations of SizedSlice and SizedIter: which items have been
   made, released or handed out by then, and what the program's variables hold after it has caught the panic. Definitions only. *)
From Verif Require Import Base Streams Types Decode Mem SizedSlice SizedIter Owned.
Set Implicit Arguments.

(* (the observable effects of oct/src/sized_slice and oct/src/sized_iter on items; no code of its own) *)
Inductive uevent (A : Type) :=
| Made (x : A)          (* the user's code has made the item and returned it to the library *)
| Ended (x : A)         (* the destructor of the item has been called *)
| Moved (x : A).        (* the item has been moved out to the caller *)
Arguments Made {A} _.
Arguments Ended {A} _.
Arguments Moved {A} _.

(* oct/src/sized_slice/mod.rs:206-213, the loop of `new`, as [clone_into]: the copies made so far, and the buffer. The user's `clone` may do something
   else at each call: [cl k x] is call number [k], and [None] a panic. *)
Fixpoint clone_into_log {A} (cl : nat -> A -> option A) (k : nat) (buf : list (option A)) (data : list A) : list A * out (list (option A)) :=
  match buf, data with
  | _ :: buf', x :: data' =>
    match cl k x with
    | Some y => let (made, r) := clone_into_log cl (S k) buf' data' in (y :: made, omap (cons (Some y)) r)
    | None => ([], Panics PUser)
    end
  | _, _ => ([], Done buf)
  end.

(* oct/src/sized_slice/mod.rs:223-226 and oct/src/sized_iter/mod.rs:96-104, the loops of `clone`, as [clone_loop] *)
Fixpoint clone_loop_log {A} (cl : nat -> A -> option A) (c : nat) (src dst : list (option A)) (i n : nat) : list A * out (list (option A)) :=
  match n with
  | O => ([], Done dst)
  | S n' =>
    match mem_read src i with
    | Done x =>
      match cl c x with
      | None => ([], Panics PUser)
      | Some y =>
        match mem_write dst i y with
        | Done dst' => let (made, r) := clone_loop_log cl (S c) src dst' (S i) n' in (y :: made, r)
        | Panics p => ([y], Panics p)
        | Undefined u => ([y], Undefined u)
        end
      end
    | Panics p => ([], Panics p)
    | Undefined u => ([], Undefined u)
    end
  end.

(* What the user's iterator does at a call of `next`. *)
(* core: `Iterator::next`, called at oct/src/sized_slice/iter.rs:36 *)
Inductive answer (A : Type) := Gives (x : A) | Stops | Unwinds.
Arguments Gives {A} _.
Arguments Stops {A}.
Arguments Unwinds {A}.

(* oct/src/sized_slice/iter.rs:35-40, the loop of `from_iter`, as [fill]: [next k] is call number [k] *)
Fixpoint fill_log {A} (next : nat -> answer A) (k n : nat) : list A * out (list (option A) * nat) :=
  match n with
  | O => ([], Done ([], 0))
  | S n' =>
    match next k with
    | Gives x => let (made, r) := fill_log next (S k) n' in (x :: made, omap (fun '(buf, len) => (Some x :: buf, S len)) r)
    | Stops => ([], Done (uninit A n, 0))
    | Unwinds => ([], Panics PUser)
    end
  end.

(* oct/src/sized_slice/code.rs:40-45, the loop of `decode`, as [dec_cells]: the items decoded so far, and the outcome *)
Fixpoint dec_cells_log {A} (f : D A) (buf : list (option A)) (i : nat) (inp : input) : list A * (input * res derr (list (option A))) :=
  match buf with
  | [] => ([], (inp, Ok []))
  | _ :: buf' =>
    match f inp with
    | (inp', Ok x) =>
      let (made, r) := dec_cells_log f buf' (S i) inp' in
      (x :: made, let (inp'', r') := r in (inp'', match r' with Ok cells => Ok (Some x :: cells) | Err e => Err e | Panic p => Panic p end))
    | (inp', Err e) => ([], (inp', Err (DItem i e)))
    | (inp', Panic p) => ([], (inp', Panic p))
    end
  end.
(* oct/src/sized_slice/code.rs:33-48 *)
Definition ss_decode_log {A} (f : D A) (n : nat) (inp : input) : list A * (input * res derr (sslice A)) :=
  match dec_usize inp with
  | (inp', Ok len) =>
    if n <? Z.to_nat len then ([], (inp', Err (DLen (DLength n (Z.to_nat len)))))
    else
      let (made, r) := dec_cells_log f (uninit A n) 0 inp' in
      (made, let (inp'', r') := r in (inp'', match r' with Ok cells => Ok (SSlice cells (Z.to_nat len)) | Err e => Err e | Panic p => Panic p end))
  | (inp', Err e) => ([], (inp', Err e))
  | (inp', Panic p) => ([], (inp', Panic p))
  end.

(* oct/src/sized_iter/mod.rs:159-161, the loop of `nth` over the skipped items: those whose destructors are called, and whether all returned. [bad k x] says
   that destructor call number [k] panics. *)
Fixpoint drop_loop {A} (bad : nat -> A -> bool) (k : nat) (items : list A) : list A * bool :=
  match items with
  | [] => ([], true)
  | x :: items' => if bad k x then ([x], false) else let (d, ok) := drop_loop bad (S k) items' in (x :: d, ok)
  end.

(* oct/src/sized_iter/mod.rs:148-175 `nth`, as [it_nth]; when a destructor panics the state is as before the call, as 170-172 are not reached *)
Definition it_nth_log {A} (checks : bool) (bad : nat -> A -> bool) (i : siter A) (index : nat) : out (list A * option (option A) * siter A) :=
  if it_len i <? index then Done ([], Some None, i)
  else if it_pos i + index =? 0 then (if checks then Done ([], None, i) else Undefined UOutOfBounds)
  else
    let start := it_pos i in
    let stop := it_pos i + index - 1 in
    if stop <? start then Undefined URange
    else if length (it_buf i) <? stop then Undefined UOutOfBounds
    else
      obind (mem_slice (it_buf i) start (stop - start)) (fun skipped =>
        let (ended, ok) := drop_loop bad 0 skipped in
        if ok then omap (fun x => (ended, Some (Some x), SIter (it_buf i) (it_pos i + index) (it_len i - index))) (mem_read (it_buf i) index)
        else Done (ended, None, i)).

(* The calls that a program makes; [j] is the number of a variable. *)
(* oct/src/sized_slice/mod.rs:204, 218, code.rs:33, iter.rs:27, 46, conv.rs:119, oct/src/sized_iter/mod.rs:88, 113, 134, 148 *)
Inductive ucall (A : Type) :=
| KNew (cl : nat -> A -> option A) (n : nat) (data : list A)      (* of a borrowed slice, whose items stay where they are *)
| KFromIter (next : nat -> answer A) (n : nat)
| KDecode (f : D A) (n : nat) (inp : input)
| KClone (j : nat) (cl : nat -> A -> option A)
| KIntoIter (j : nat)
| KIntoVec (j : nat)
| KNext (j : nat) (e : end_of)
| KNth (j : nat) (k : nat) (bad : nat -> A -> bool)
| KDrop (j : nat).
Arguments KIntoIter {A} _.
Arguments KIntoVec {A} _.
Arguments KNext {A} _ _.
Arguments KDrop {A} _.

(* (auxiliary) *)
Fixpoint set_at {A} (l : list A) (k : nat) (x : A) : list A :=
  match l, k with
  | [], _ => []
  | _ :: l', O => x :: l'
  | y :: l', S k' => y :: set_at l' k' x
  end.

(* What a call does: it returns, having made a new variable or changed one, or it panics, and the program catches the panic. *)
(* (`catch_unwind` of std; no code of its own) *)
Record ustep (A : Type) := UStep { us_events : list (uevent A); us_vars : list (holder A); us_panicked : bool }.
Arguments UStep {A} _ _ _.

(* a call that makes a slice or an iterator from new items; on a panic, and on an error, the buffer is dropped, and MaybeUninit runs no destructors *)
(* oct/src/sized_slice/mod.rs:204-232, code.rs:33-48, iter.rs:27-43 *)
Definition makes {A} (vars : list (holder A)) (made : list A) (r : out (option (holder A))) : out (ustep A) :=
  match r with
  | Done (Some h) => Done (UStep (map Made made) (vars ++ [h]) false)
  | Done None => Done (UStep (map Made made) vars false)
  | Panics _ => Done (UStep (map Made made) vars true)
  | Undefined u => Undefined u
  end.

(* One call. A call that does not apply to the type of the variable does not compile; here it does nothing. *)
(* the lines at each case *)
Definition ucall_step {A} (checks : bool) (size : N) (c : ucall A) (vars : list (holder A)) : out (ustep A) :=
  let own j op :=
    match nth_error vars j with
    | Some h => omap (fun '(es, h') => UStep (map (fun e => match e with Dropped x => Ended x | Given x => Moved x end) es) (set_at vars j h') false)
                     (own_step checks size op h)
    | None => Done (UStep [] vars false)
    end in
  match c with
  (* oct/src/sized_slice/mod.rs:204-214 *)
  | KNew cl n data =>
    if n <? length data then Done (UStep [] vars false)
    else let (made, r) := clone_into_log cl 0 (uninit A n) data in makes vars made (omap (fun buf => Some (HSlice (SSlice buf (length data)))) r)
  (* oct/src/sized_slice/iter.rs:27-43 *)
  | KFromIter next n => let (made, r) := fill_log next 0 n in makes vars made (omap (fun '(buf, len) => Some (HSlice (SSlice buf len))) r)
  (* oct/src/sized_slice/code.rs:33-48 *)
  | KDecode f n inp =>
    let (made, r) := ss_decode_log f n inp in
    makes vars made match snd r with Ok s => Done (Some (HSlice s)) | Err _ => Done None | Panic p => Panics p end
  | KClone j cl =>
    match nth_error vars j with
    (* oct/src/sized_slice/mod.rs:218-232 *)
    | Some (HSlice s) =>
      let (made, r) := clone_loop_log cl 0 (ss_buf s) (uninit A (ss_capacity s)) 0 (ss_len s) in
      makes vars made (omap (fun buf => Some (HSlice (SSlice buf (ss_len s)))) r)
    (* oct/src/sized_iter/mod.rs:88-109 *)
    | Some (HIter i) =>
      let (made, r) := clone_loop_log cl 0 (it_buf i) (uninit A (length (it_buf i))) (it_pos i) (it_len i) in
      makes vars made (omap (fun buf => Some (HIter (SIter buf (it_pos i) (it_len i)))) r)
    | _ => Done (UStep [] vars false)
    end
  | KIntoIter j => own j OIntoIter
  | KIntoVec j => own j OIntoVec
  | KNext j e => own j (ONext e)
  (* oct/src/sized_iter/mod.rs:148-175 *)
  | KNth j k bad =>
    match nth_error vars j with
    | Some (HIter i) =>
      omap (fun '(ended, r, i') =>
        UStep (map Ended ended ++ match r with Some (Some x) => [Moved x] | _ => [] end) (set_at vars j (HIter i')) (match r with None => true | _ => false end))
        (it_nth_log checks bad i k)
    | _ => Done (UStep [] vars false)
    end
  (* a Vec releases all of its items even if the destructor of one panics *)
  | KDrop j => own j ODrop
  end.

(* (a program's calls; no code of its own) *)
Fixpoint ucall_run {A} (checks : bool) (size : N) (cs : list (ucall A)) (vars : list (holder A)) : out (list (uevent A) * list (holder A)) :=
  match cs with
  | [] => Done ([], vars)
  | c :: cs' =>
    obind (ucall_step checks size c vars) (fun st =>
    omap (fun '(es, vars') => (us_events st ++ es, vars')) (ucall_run checks size cs' (us_vars st)))
  end.
