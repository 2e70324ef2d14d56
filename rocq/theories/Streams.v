(* The two byte streams. Model of oct/src/encode/output/mod.rs and oct/src/decode/input/mod.rs. Definitions only. *)
From Verif Require Import Base.
Set Implicit Arguments.

(* ---- Output: oct/src/encode/output/mod.rs:29-33. The buffer is borrowed mutably, so its contents are part of the state. *)
Record output := Output { o_buf : list byte; o_pos : nat }.

(* output/mod.rs:39-41 `Output::new` *)
Definition output_new (buf : list byte) : output := Output buf 0.
(* output/mod.rs:95-97 `capacity` *)
Definition output_capacity (o : output) : nat := length (o_buf o).
(* output/mod.rs:111-113 `position` *)
Definition output_position (o : output) : nat := o_pos o.
(* output/mod.rs:102-106 `remaining`: `unsafe { capacity.unchecked_sub(position) }`; the position never exceeds the
   capacity in a reachable state (proved), so truncated subtraction is exact. *)
Definition output_remaining (o : output) : nat := output_capacity o - output_position o.
(* output/mod.rs:83-90 `as_slice`: the first `pos` octets *)
Definition output_as_slice (o : output) : list byte := firstn (o_pos o) (o_buf o).

(* output/mod.rs:49-71 `write`: `remaining = buf.len() - pos`; if it is less than the count return the error,
   else `copy_nonoverlapping` to `buf[pos..]` and advance. *)
Definition output_write (o : output) (data : list byte) : output * res stream_error unit :=
  let remaining := length (o_buf o) - o_pos o in
  let count := length data in
  if remaining <? count then
    (o, Err (StreamError (length (o_buf o)) (o_pos o) count))
  else
    (Output (firstn (o_pos o) (o_buf o) ++ data ++ skipn (o_pos o + count) (o_buf o)) (o_pos o + count), Ok tt).

(* output/mod.rs:130-156: `PartialEq` between outputs, and with byte slices, through `as_slice` *)
Fixpoint bytes_eqb (a b : list byte) : bool :=
  match a, b with
  | [], [] => true
  | x :: a', y :: b' => byte_eqb x y && bytes_eqb a' b'
  | _, _ => false
  end.
(* oct/src/encode/output/mod.rs:130-135 *)
Definition output_eqb (a b : output) : bool := bytes_eqb (output_as_slice a) (output_as_slice b).
(* oct/src/encode/output/mod.rs:137-156 *)
Definition output_eqb_slice (a : output) (b : list byte) : bool := bytes_eqb (output_as_slice a) b.

(* ---- Input: oct/src/decode/input/mod.rs:28-31 *)
Record input := Input { i_buf : list byte; i_pos : nat }.

(* input/mod.rs:37-39 `Input::new` *)
Definition input_new (buf : list byte) : input := Input buf 0.
(* input/mod.rs:106-108 `capacity` *)
Definition input_capacity (i : input) : nat := length (i_buf i).
(* input/mod.rs:122-124 `position` *)
Definition input_position (i : input) : nat := i_pos i.
(* input/mod.rs:113-117 `remaining`, with the same remark as for the output *)
Definition input_remaining (i : input) : nat := input_capacity i - input_position i.

(* input/mod.rs:49-69 `read` *)
Definition input_read (i : input) (count : nat) : input * res stream_error (list byte) :=
  let remaining := length (i_buf i) - i_pos i in
  if remaining <? count then
    (i, Err (StreamError (length (i_buf i)) (i_pos i) count))
  else
    (Input (i_buf i) (i_pos i + count), Ok (firstn count (skipn (i_pos i) (i_buf i)))).

(* input/mod.rs:79-101 `read_into`: as `read`, with the count being the length of the caller's buffer [dst], which is
   overwritten on success and left alone on failure. The second component of a result is the caller's buffer after the call. *)
Definition input_read_into (i : input) (dst : list byte) : input * list byte * res stream_error unit :=
  let count := length dst in
  let remaining := length (i_buf i) - i_pos i in
  if remaining <? count then
    (i, dst, Err (StreamError (length (i_buf i)) (i_pos i) count))
  else
    (Input (i_buf i) (i_pos i + count), firstn count (skipn (i_pos i) (i_buf i)), Ok tt).
