(* Vocabulary of the properties about encoding and decoding. Definitions only. *)
From Verif Require Import Base Streams Types Encode Decode.
Set Implicit Arguments.

(* Given room, the call appends exactly [bs] to the output and returns [r]. *)
Definition Appends (m : E) (bs : list byte) (r : res eerr unit) : Prop :=
  forall o, output_position o <= output_capacity o -> length bs <= output_remaining o ->
  exists o', m o = (o', r) /\ output_as_slice o' = output_as_slice o ++ bs.

(* Wherever [bs] stands in an input, the call consumes exactly it and returns [a]. *)
Definition Yields {A : Type} (m : D A) (bs : list byte) (a : A) : Prop :=
  forall pre post, m (Input (pre ++ bs ++ post) (length pre)) =
                   (Input (pre ++ bs ++ post) (length pre + length bs), Ok a).

(* Wherever [bs] stands in an input, the call consumes exactly it and returns the error [e]. *)
Definition Refuses {A : Type} (m : D A) (bs : list byte) (e : derr) : Prop :=
  forall pre post, m (Input (pre ++ bs ++ post) (length pre)) =
                   (Input (pre ++ bs ++ post) (length pre + length bs), Err e).

(* The position of a stream never exceeds its capacity. (Holds of every stream: C01, C03.) *)
Definition in_bounds (i : input) : Prop := input_position i <= input_capacity i.

(* The bytes an input has yet to deliver. *)
Definition unread (i : input) : list byte := skipn (i_pos i) (i_buf i).

(* Encoding values of any types one after another, stopping at the first that fails. *)
Fixpoint encode_list (checks : bool) (l : list (ty * val)) : E :=
  match l with
  | [] => eok
  | (t, v) :: l' => eseq (encode checks t v) (encode_list checks l')
  end.

(* Decoding values of the given types one after another. *)
Fixpoint decode_list (ts : list ty) : D (list val) :=
  match ts with
  | [] => dok []
  | t :: ts' => dbind (decode t) (fun v => dbind (decode_list ts') (fun vs => dok (v :: vs)))
  end.

(* Encoding the items [vs] fails: item number [k] is the first that cannot be encoded, its error is [e], and [bs] is what
   the items before it and the beginning of it wrote. *)
Definition FirstFailure (checks : bool) (t : ty) (vs : list val) (k : nat) (e : eerr) (bs : list byte) : Prop :=
  exists pre x post bss b,
    vs = pre ++ x :: post /\ length pre = k /\
    Forall2 (fun v c => Appends (encode checks t v) c (Ok tt)) pre bss /\
    Appends (encode checks t x) b (Err e) /\
    bs = concat bss ++ b.

(* Decoding items from [i] fails: [k] items were decoded, leaving the input [i1], and the next one failed with [e] and left
   the input [i2]. *)
Definition DecodeFailure (t : ty) (i : input) (k : nat) (e : derr) (i2 : input) : Prop :=
  exists vs i1, length vs = k /\ decode_list (repeat t k) i = (i1, Ok vs) /\ decode t i1 = (i2, Err e).

(* [t'] and [v'] are [t] and [v] inside any number of containers that add nothing. A RefCell must not be mutably borrowed. *)
Inductive Wrapped (t : ty) (v : val) : ty -> val -> Prop :=
| Wr_refl : Wrapped t v t v
| Wr_wrap w t' v' : Wrapped t v t' v' -> Wrapped t v (TWrap w t') (VWrap v')
| Wr_cow o t' v' : Wrapped t v t' v' -> Wrapped t v (TCow t') (VCow o v')
| Wr_refcell t' v' : Wrapped t v t' v' -> Wrapped t v (TRefCell t') (VRefCell false v')
| Wr_lock l p t' v' : Wrapped t v t' v' -> Wrapped t v (TLock l t') (VLock p v')
| Wr_tuple t' v' : Wrapped t v t' v' -> Wrapped t v (TTuple [t']) (VTuple [v']).
