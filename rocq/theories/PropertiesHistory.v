(* C122: programs that call the text of Output, Input, Slot and SizedIter again and again. *)
From Coq Require Import List Lia.
From Verif Require Import Base Streams Types Encode Decode Slot Mem SizedSlice SizedIter Spec SpecCalls SpecDecode SpecValues SpecContainers SourceNames SourceSyntax SourceMeaning SourceMemory
  SourceOutput SourceInput SourceSlot SourceSizedIter SpecMemory SpecHistory HistoryProofs RunExamples EncodeFacts DecodeFacts ComputeFacts.
Import ListNotations.

(* Any octets, any writes: those that fit are kept, in order and without gaps; the others are refused and change nothing. *)
Theorem C122_output : forall St (c : mctx byte St) pre bs post e calls, (Z.of_nat (length bs) < 2 ^ 64)%Z ->
  let ds := map w_data calls in
  let n := length (kept (length bs) ds) in
  exists a, let b := within pre (kept (length bs) ds ++ skipn n bs) post in
    text_output c pre bs post e calls = Some (a, b, verdicts (length bs) 0 ds) /\ n <= length bs /\
    forall rest d, let m := Memory (a :: b :: rest) d in
      called c id_Output src_impl_Output_position [MRef 0] m = (m, FDone (MNum n)) /\
      called c id_Output src_impl_Output_capacity [MRef 0] m = (m, FDone (MNum (length bs))) /\
      called c id_Output src_impl_Output_remaining [MRef 0] m = (m, FDone (MNum (length bs - n))) /\
      called c id_Output src_impl_Output_as_slice [MRef 0] m = (m, FDone (MSlice 1 (length pre) n)) /\
      items_at m 1 (length pre) n = Some (kept (length bs) ds).
Proof. exact C122_output_lemma. Qed.
Print Assumptions C122_output.

(* Any octets, any reads of both kinds: the octets come in order and each once; a read of too many gets none, and the octets themselves stay. *)
Theorem C122_input : forall St (c : mctx byte St) pre bs post e calls, (Z.of_nat (length bs) < 2 ^ 64)%Z ->
  let b := within pre bs post in
  let n := snd (served bs 0 calls) in
  exists a,
    text_input c pre bs post e calls = Some (a, b, fst (served bs 0 calls)) /\ n <= length bs /\
    forall rest d, let m := Memory (a :: b :: rest) d in
      called c id_Input src_impl_Input_position [MRef 0] m = (m, FDone (MNum n)) /\
      called c id_Input src_impl_Input_capacity [MRef 0] m = (m, FDone (MNum (length bs))) /\
      called c id_Input src_impl_Input_remaining [MRef 0] m = (m, FDone (MNum (length bs - n))).
Proof. exact C122_input_lemma. Qed.
Print Assumptions C122_input.

(* Any items, any steps from both ends: the iterator is a queue with two ends, and drops nothing by itself. *)
Theorem C122_iter : forall A St (c : mctx A St) xs spare rest d calls, k_len c = length (map Some xs ++ spare) -> (Z.of_nat (k_len c) < 2 ^ 64)%Z ->
  exists a b, text_iterated c xs spare rest d calls = Some (a, b, combine (fst (deque (map (fun k => fst (fst k)) calls) xs)) (map snd calls)) /\
    forall rest d, let m := Memory (a :: b :: rest) d in
      exists off n, called c id_SizedIter src_impl_SizedIter_T_N_as_slice [MRef 0] m = (m, FDone (MSlice 1 off n)) /\
        items_at m 1 off n = Some (snd (deque (map (fun k => fst (fst k)) calls) xs)).
Proof. exact C122_iter_lemma. Qed.
Print Assumptions C122_iter.

(* Any calls on a slot, failing ones included: the length stays within the capacity, which stays. A value written next is accepted if and only if it fits, is
   then what the slot holds, and is what `read` gives, with the exclusions of C13. *)
Theorem C122_slot : forall St (c : mctx byte St) t cap e calls, k_lit c 0 = x00 -> encodes c t -> decodes c t ->
  exists a b rs, text_slot c cap e calls = Some (a, b, rs) /\ length rs = length calls /\
  (forall rest d, let m := Memory (a :: b :: rest) d in exists n, n <= cap /\
     called c id_Slot src_impl_Slot_T_capacity [MRef 0] m = (m, FDone (MNum cap)) /\
     called c id_Slot src_impl_Slot_T_len [MRef 0] m = (m, FDone (MNum n))) /\
  forall v bs e', Appends (encode (k_checks c) t v) bs (Ok tt) ->
    exists a' b' x, text_slot c cap e (calls ++ [SlotWrite v e']) = Some (a', b', rs ++ [x]) /\ (x = Ok tt <-> length bs <= cap) /\
    (x = Ok tt -> forall rest d, let m := Memory (a' :: b' :: rest) d in
       called c id_Slot src_impl_Slot_T_len [MRef 0] m = (m, FDone (MNum (length bs))) /\
       called c id_Slot src_impl_Slot_T_as_slice [MRef 0] m = (m, FDone (MSlice 1 0 (length bs))) /\
       items_at m 1 0 (length bs) = Some bs /\
       (wt t v -> RoundTrips t v -> lossless v = true ->
        exists m' v', called c id_Slot src_impl_Slot_T_3_read [MRef 0] m = (m', FDone (MCon id_Ok [MVal v'])) /\ erase v' = erase v)).
Proof. exact C122_slot_lemma. Qed.
Print Assumptions C122_slot.

(* two octets, three that do not fit behind them, and two more *)
Example C122_output_case :
  let c := sample_context 0 true in
  let e := Elsewhere nat [OUser 1] [MNum 4] in
  let w ds := WriteCall nat [None] ds [Some (MNum 1)] e in
  exists a, text_output c [Some (MItem x77)] [x00; x00; x00; x00] [] e [w [x01; x02]; w [x05; x06; x07]; w [x03; x04]] =
    Some (a, within [Some (MItem x77)] [x01; x02; x03; x04] [], [Ok tt; Err (StreamError 4 2 3); Ok tt]).
Proof. eexists. vm_compute. reflexivity. Qed.
(* one octet, two into a destination, three that are not there, and an empty read *)
Example C122_input_case :
  let c := sample_context 0 true in
  let e := Elsewhere nat [OUser 1] [MNum 4] in
  exists a, text_input c [Some (MItem x77)] [x01; x02; x03; x04] [None] e [ReadCall 1 e; ReadIntoCall [None] [xaa; xbb] [] e; ReadIntoCall [] [xcc; xdd] [] e; ReadCall 0 e] =
    Some (a, within [Some (MItem x77)] [x01; x02; x03; x04] [None],
      [(Ok [x01], []); (Ok [x02; x03], [x02; x03]); (Err (StreamError 4 3 2), [xcc; xdd]); (Ok [], [])]).
Proof. eexists. vm_compute. reflexivity. Qed.
(* three items of a slice of four, from both ends *)
Example C122_iter_case :
  let c := sample_context 4 true in
  k_len c = length (map Some [x01; x02; x03] ++ [None]) /\
  exists a b, text_iterated c [x01; x02; x03] [None] [OUser 1] [MNum 4] [(Front, [], []); (Back, [OUser 2], [MNum 3]); (Front, [], []); (Back, [], [])] =
    Some (a, b, [(Some x01, []); (Some x03, [MNum 3]); (Some x02, []); (None, [])]).
Proof. split; [reflexivity|]. eexists. eexists. vm_compute. reflexivity. Qed.
(* a length that is too great, octets, an octet behind them, and a u16 over all of it *)
Example C122_slot_case :
  let c := sample_context 0 true in
  let e := Elsewhere nat [OUser 1] [MNum 4] in
  k_lit c 0 = x00 /\ encodes c (TInt U16) /\ decodes c (TInt U16) /\ wt (TInt U16) (VInt 513) /\ RoundTrips (TInt U16) (VInt 513) /\ lossless (VInt 513) = true /\
  exists a, text_slot c 4 e [SlotSetLen 5 e; SlotCopy [None] [xaa; xbb; xcc] [] e; SlotSet 3 xdd e; SlotWrite (VInt 513) e] =
    Some (a, OBuf (filled [x01; x02; xcc; xdd]), [Panic PAssert; Ok tt; Ok tt; Ok tt]).
Proof.
  split; [reflexivity|]. split; [intros v bs pos; reflexivity|]. split; [intros bs pos; reflexivity|].
  split; [cbn; lia|]. split; [exact I|]. split; [reflexivity|]. eexists. vm_compute. reflexivity.
Qed.
