(* Vocabulary of the stream properties C01-C04: histories of calls. Definitions only. *)
From Verif Require Import Base Streams.
Set Implicit Arguments.

(* A history of `write` calls, and what each call returned. *)
Fixpoint run_writes (o : output) (ds : list (list byte)) : output * list (res stream_error unit) :=
  match ds with
  | [] => (o, [])
  | d :: ds' =>
    let (o1, r) := output_write o d in
    let (o2, rs) := run_writes o1 ds' in
    (o2, r :: rs)
  end.

Definition is_ok {E A : Type} (r : res E A) : bool := match r with Ok _ => true | _ => false end.

(* The data of the calls that returned `Ok`, in call order. *)
Definition accepted (ds : list (list byte)) (rs : list (res stream_error unit)) : list (list byte) :=
  map fst (filter (fun p => is_ok (snd p)) (combine ds rs)).

(* A call on an input: `read(n)`, or `read_into(dst)` on a buffer with the given contents. *)
Inductive in_op := Read (n : nat) | ReadInto (dst : list byte).
Definition in_count (c : in_op) : nat := match c with Read n => n | ReadInto dst => length dst end.

(* One call: what it hands to the caller on success (for `read_into`, the caller's buffer afterwards). *)
Definition in_step (i : input) (c : in_op) : input * res stream_error (list byte) :=
  match c with
  | Read n => input_read i n
  | ReadInto dst =>
    match input_read_into i dst with
    | (i', dst', Ok _) => (i', Ok dst')
    | (i', _, Err e) => (i', Err e)
    | (i', _, Panic p) => (i', Panic p)
    end
  end.

Fixpoint run_reads (i : input) (cs : list in_op) : input * list (res stream_error (list byte)) :=
  match cs with
  | [] => (i, [])
  | c :: cs' =>
    let (i1, r) := in_step i c in
    let (i2, rs) := run_reads i1 cs' in
    (i2, r :: rs)
  end.

(* The pieces handed out by the successful calls, in order. *)
Definition pieces (rs : list (res stream_error (list byte))) : list (list byte) :=
  flat_map (fun r => match r with Ok bs => [bs] | _ => [] end) rs.
