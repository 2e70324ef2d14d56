(* C99-C101: types whose implementations the user of the library writes, inside the library's own containers and derived types. [us] gives these
   implementations by number, [cs] what their authors promise. *)
From Coq Require Import Lia.
From Verif Require Import Base Streams Types Traits Encode Decode Sized Slot Spec SpecCalls SpecDecode User SpecUser
  UserProofs UserSafety UserSize UserExamples.
Set Implicit Arguments.

(* C99: if the user's types keep their promises, so do all types built from them. As in C13, a SizedSlice must be full, which [Fit] says. *)
Theorem C99_containers_partial : forall checks us cs, (forall k, Honours (us k) (cs k)) -> forall t v, Fit cs t v ->
  exists bs r, Sends (uencode checks us t v) bs r /\ (r = Ok tt -> exists v', Yields (udecode us t) bs v' /\ Again cs t v v').
Proof. exact C99_containers_lemma. Qed.
Print Assumptions C99_containers_partial.

Theorem C99_containers_refuted : exists bs,
  Honours cached cached_contract /\ c_valid cached_contract (VTuple [VInt 7; VInt 1]) /\
  Sends (uencode true (fun _ => cached) (USizedSlice (UUser 0) 2) (VSeq [VTuple [VInt 7; VInt 1]])) bs (Ok tt) /\
  forall v', ~ Yields (udecode (fun _ => cached) (USizedSlice (UUser 0) 2)) bs v'.
Proof. exact C99_containers_refuted_lemma. Qed.
Print Assumptions C99_containers_refuted.

(* The containers of this chapter are the containers of the others: with standard types for the user's, they do the same. *)
Theorem C99_instances : forall checks f t, plain_conversions f t ->
  (forall v o, uencode checks (fun k => Impl (encode checks (f k)) (decode (f k))) t v o = encode checks (plain f t) v o) /\
  (forall i, udecode (fun k => Impl (encode checks (f k)) (decode (f k))) t i = decode (plain f t) i).
Proof. exact C99_instances_lemma. Qed.
Print Assumptions C99_instances.

(* a vector of pairs of a tag and a cached number, in an enum *)
Definition user_type : uty := UEnum into_generic_enc into_generic_dec U8 [(None, []); (Some 9%Z, [UVec (UTuple [UUser 0; UUser 1])])].
Definition user_value (cache : Z) : val := VEnum 1 [VSeq [VTuple [VStr [x61; x62]; VTuple [VInt 7; VInt cache]]; VTuple [VStr []; VTuple [VInt 8; VInt cache]]]].
Example C99_case : (forall k, Honours (users k) (promises k)) /\ Fit promises user_type (user_value 5) /\
  Again promises user_type (user_value 5) (user_value 0) /\
  (let o := output_new (repeat xff 12) in
   fst (uencode true users user_type (user_value 5) o) = Output [x09; x02; x00; x02; x61; x62; x07; x00; x08; xff; xff; xff] 9 /\
   snd (uencode true users user_type (user_value 5) o) = Ok tt) /\
  udecode users user_type (input_new [x09; x02; x00; x02; x61; x62; x07; x00; x08]) =
    (Input [x09; x02; x00; x02; x61; x62; x07; x00; x08] 9, Ok (user_value 0)) /\
  (forall f, plain_conversions f user_type).
Proof.
  split; [exact users_honour|]. split; [|split; [|split; [|split]]].
  - cbn. split.
    + split; [repeat constructor; vm_compute; congruence|]. repeat constructor; [intros [H|[]]; discriminate | intros []].
    + split; [|exact I]. repeat constructor; try (eexists; reflexivity).
      * exists 7%Z, 5%Z. split; [reflexivity | lia].
      * exists 8%Z, 5%Z. split; [reflexivity | lia].
  - cbn. split; [reflexivity|]. split; [reflexivity|]. split; [|exact I]. repeat constructor; repeat eexists.
  - split; vm_compute; reflexivity.
  - vm_compute. reflexivity.
  - intros f. cbn. tauto.
Qed.

(* maps with keys of the user: with an equality that finds nothing equal to anything, a key decoded twice is there twice *)
Example C99_map_case :
  (forall f, plain_conversions f (UHashMap map_insert (UUser 0) (UHashSet set_insert (UUser 1)))) /\
  udecode users (UHashMap map_insert (UUser 1) (UUser 1)) (input_new [x02; x00; x07; x01; x07; x02]) =
    (Input [x02; x00; x07; x01; x07; x02] 6, Ok (VMap [(VTuple [VInt 7; VInt 0], VTuple [VInt 2; VInt 0])])) /\
  udecode users (UHashMap (fun k v l => (k, v) :: l) (UUser 1) (UUser 1)) (input_new [x02; x00; x07; x01; x07; x02]) =
    (Input [x02; x00; x07; x01; x07; x02] 6,
     Ok (VMap [(VTuple [VInt 7; VInt 0], VTuple [VInt 2; VInt 0]); (VTuple [VInt 7; VInt 0], VTuple [VInt 1; VInt 0])])).
Proof. split; [intros f; cbn; tauto|]. split; vm_compute; reflexivity. Qed.

(* C100: what the library writes around the user's code keeps streams intact. If the user's code only calls `write` and `read`, in any way: *)
Theorem C100_output : forall checks us, (forall k v, OnlyWrites (u_encode (us k) v)) -> forall t v o o' r,
  output_position o <= output_capacity o -> uencode checks us t v o = (o', r) ->
  output_capacity o' = output_capacity o /\ output_position o <= output_position o' <= output_capacity o' /\
  (exists bs, output_as_slice o' = output_as_slice o ++ bs) /\ skipn (o_pos o') (o_buf o') = skipn (o_pos o') (o_buf o).
Proof. exact C100_output_lemma. Qed.
Print Assumptions C100_output.

Theorem C100_input : forall us, (forall k, OnlyReads (u_decode (us k))) -> forall t i i' r,
  in_bounds i -> udecode us t i = (i', r) -> i_buf i' = i_buf i /\ input_position i <= input_position i' <= input_capacity i.
Proof. exact C100_input_lemma. Qed.
Print Assumptions C100_input.

(* and whatever it does, as long as what it leaves is a stream: *)
Theorem C100_any : forall checks us, (forall k v o, output_position o <= output_capacity o ->
    output_position (fst (u_encode (us k) v o)) <= output_capacity (fst (u_encode (us k) v o))) ->
  forall t v o o' r, output_position o <= output_capacity o -> uencode checks us t v o = (o', r) -> output_position o' <= output_capacity o'.
Proof. exact C100_any_lemma. Qed.
Print Assumptions C100_any.

(* A Slot is never longer than its buffer, not even if the code that it calls puts another output in the place of its own. *)
Theorem C100_slot : forall s acts r s' q, slot_length s <= slot_capacity s -> slot_write_user s acts r = (s', q) ->
  slot_length s' <= slot_capacity s' /\ slot_capacity s' = slot_capacity s /\ length (slot_as_slice s') = slot_length s'.
Proof. exact C100_slot_lemma. Qed.
Print Assumptions C100_slot.

(* If the code only writes, and what it writes fits, the Slot holds just that; if it fails or panics, the Slot counts as many octets as before. *)
Theorem C100_slot_holds : forall s ds, length (concat ds) <= slot_capacity s ->
  (exists s', slot_write_user s (map AWrite ds) (Ok tt) = (s', Ok tt) /\ slot_as_slice s' = concat ds /\ slot_capacity s' = slot_capacity s) /\
  (forall acts r, r <> Ok tt -> exists s', slot_write_user s acts r = (s', r) /\ slot_length s' = slot_length s).
Proof. exact C100_slot_holds_lemma. Qed.
Print Assumptions C100_slot_holds.

(* The code writes, puts an output over another buffer in the place of the one it was given, and writes to that: the Slot keeps what was written first, and
   counts what was written last, if it has so many octets; else it panics and counts as many as before. *)
Theorem C100_slot_swapped : forall s ds buf es, length (concat ds) <= slot_capacity s -> length (concat es) <= length buf ->
  let held := concat ds ++ skipn (length (concat ds)) (s_buf s) in
  slot_write_user s (map AWrite ds ++ [AFresh buf; ASwap] ++ map AWrite es) (Ok tt) =
  if length (concat es) <=? slot_capacity s then (Slot held (length (concat es)), Ok tt) else (Slot held (slot_length s), Panic PAssert).
Proof. exact C100_swapped_lemma. Qed.
Print Assumptions C100_slot_swapped.

(* the user's code puts an output over three octets in the place of that of a Slot of two, and fills it: the Slot panics *)
Example C100_case : (forall k v, OnlyWrites (u_encode (users k) v)) /\ (forall k, OnlyReads (u_decode (users k))) /\
  (exists p, slot_write_user (Slot [xaa; xbb] 0) [AWrite [x01]; AFresh [x00; x00; x00]; ASwap; AWrite [x11; x12; x13]] (Ok tt) =
     (Slot [x01; xbb] 0, Panic p)) /\
  slot_write_user (Slot [xaa; xbb] 0) [AWrite [x01]; AFresh [x00; x00; x00]; ASwap; AWrite [x11; x12]] (Ok tt) = (Slot [x01; xbb] 2, Ok tt).
Proof.
  split; [exact users_only_write|]. split; [exact users_only_read|]. split; [eexists|]; vm_compute; reflexivity.
Qed.

(* C101: if the users' constants are right, so are those of types built from theirs. As in C35, [USizeOk] excludes SizedSlice, and Result whose parts
   have encodings larger than their memory. *)
Theorem C101_user_size_partial : forall checks us cs sz size_of usize_of,
  (forall k n v, sz k = Some n -> c_valid (cs k) v -> WithinSize (u_encode (us k) v) n) ->
  forall t n v, umax_size sz size_of usize_of t = Some n -> USizeOk sz size_of usize_of t -> Typed cs t v -> WithinSize (uencode checks us t v) n.
Proof. exact C101_lemma. Qed.
Print Assumptions C101_user_size_partial.

Theorem C101_user_size_refuted :
  (exists n o o', (forall v, c_valid cached_contract v -> WithinSize (u_encode cached v) 1) /\
     (forall so uso, umax_size (fun _ => Some 1%N) so uso (USizedSlice (UUser 0) 1) = Some n) /\
     Typed (fun _ => cached_contract) (USizedSlice (UUser 0) 1) (VSeq [VTuple [VInt 7; VInt 1]]) /\ output_position o = 0 /\
     uencode true (fun _ => cached) (USizedSlice (UUser 0) 1) (VSeq [VTuple [VInt 7; VInt 1]]) o = (o', Ok tt) /\ (n < N.of_nat (output_position o'))%N) /\
  (forall so uso, uso (UUser 0) = 0%N -> uso (UStd TUnit) = 0%N -> exists n o o',
     (forall v, c_valid marker_contract v -> WithinSize (u_encode marker v) 1) /\
     umax_size (fun _ => Some 1%N) so uso (UResult (fun e => e) (UUser 0) (UStd TUnit)) = Some n /\
     Typed (fun _ => marker_contract) (UResult (fun e => e) (UUser 0) (UStd TUnit)) (VOk VUnit) /\ output_position o = 0 /\
     uencode true (fun _ => marker) (UResult (fun e => e) (UUser 0) (UStd TUnit)) (VOk VUnit) o = (o', Ok tt) /\
     (n < N.of_nat (output_position o'))%N).
Proof. exact C101_refuted_lemma. Qed.
Print Assumptions C101_user_size_refuted.

(* again, with standard types for the user's, the constants are those of the other chapters *)
Theorem C101_instances : forall f size_of usize_of t, (forall t, usize_of t = size_of (plain f t)) ->
  umax_size (fun k => max_size size_of (f k)) size_of usize_of t = max_size size_of (plain f t).
Proof. exact C101_plain_lemma. Qed.
Print Assumptions C101_instances.

Example C101_case : forall so uso, umax_size (fun _ => Some 1%N) so uso (UArray (UOption (UUser 0)) 3) = Some 6%N /\
  USizeOk (fun _ => Some 1%N) so uso (UArray (UOption (UUser 0)) 3) /\
  Typed (fun _ => cached_contract) (UArray (UOption (UUser 0)) 3) (VSeq [VNone; VSome (VTuple [VInt 7; VInt 1]); VNone]) /\
  (forall k n v, Some 1%N = Some n -> c_valid cached_contract v -> WithinSize (u_encode ((fun _ : nat => cached) k) v) n).
Proof.
  intros so uso. split; [reflexivity|]. split; [exact I|]. split.
  - cbn. split; [reflexivity|]. repeat constructor. exists 7%Z, 1%Z. split; [reflexivity | lia].
  - intros k n v [= <-] Hv. destruct C101_user_size_refuted as [(m & o & o' & H & _) _]. exact (H v Hv).
Qed.
