(* C45, C54 and C97, exactly. *)
From Verif Require Import Base Streams Types Encode Decode Slot Spec SpecCalls Mem SizedSlice SpecContainers CopyExact.

(* A write that fails leaves the contents of the slot as they were exactly if what it had written by then, as far as the mark reaches, stood there
   already; in particular if the slot was empty or nothing was written. *)
Theorem C45_exact : forall checks t s v s' e bs, slot_length s <= slot_capacity s -> slot_write checks t s v = (s', Err e) ->
  Appends (encode checks t v) bs (Err e) ->
  (slot_as_slice s' = slot_as_slice s <-> firstn (slot_length s) bs = firstn (length bs) (slot_as_slice s)).
Proof. exact C45_exact_lemma. Qed.
Print Assumptions C45_exact.

Example C45_exact_case : slot_length (Slot [x07; x08] 2) <= slot_capacity (Slot [x07; x08] 2) /\
  slot_write true (TOption (TInt Usize)) (Slot [x07; x08] 2) (VSome (VInt 65536)) = (Slot [x01; x08] 2, Err (EUsize 65536)) /\
  slot_write true (TOption (TInt Usize)) (Slot [x01; x08] 2) (VSome (VInt 65536)) = (Slot [x01; x08] 2, Err (EUsize 65536)) /\
  slot_write true (TInt Usize) (Slot [x07; x08] 2) (VInt 65536) = (Slot [x07; x08] 2, Err (EUsize 65536)).
Proof. split; [apply le_n|]. repeat split. Qed.

(* copy_from_slice leaves the buffer exactly if the data is longer than the capacity. *)
Theorem C54_exact : forall n A (s : sslice A) data, Reachable n s -> ((exists u, ss_copy_from_slice s data = Undefined u) <-> n < length data).
Proof. exact C54_exact_lemma. Qed.
Print Assumptions C54_exact.

(* And it makes the slice hold the data exactly if it is not. *)
Theorem C97_exact : forall n A (s : sslice A) data, Reachable n s ->
  ((exists s', ss_copy_from_slice s data = Done s' /\ ss_as_slice s' = Done data /\ ss_capacity s' = n) <-> length data <= n).
Proof. exact C97_exact_lemma. Qed.
Print Assumptions C97_exact.

Example C97_exact_case : let s := fst (ss_from_iter list_next 2 [7]) in Reachable 2 s /\
  ss_copy_from_slice s [8; 9] = Done (SSlice [Some 8; Some 9] 2) /\ ss_copy_from_slice s [8; 9; 10] = Undefined UOutOfBounds.
Proof. intros s. split; [eapply (@R_from_iter _ _ _ list_next [7]); reflexivity|]. split; reflexivity. Qed.
