(* C124: a function panics when, and only when, its documentation says that it does. *)
From Coq Require Import List Lia.
From Verif Require Import Base Streams Slot SourceNames SourceMeaning SourceMemory SpecMemory SpecDocPanics DocPanicProofs RunExamples.
Import ListNotations.

(* Three of the five documented panics never happen: the text returns. *)
Theorem C124_refuted :
  (exists o data, o_pos o <= length (o_buf o) /\ write_said o data /\ ~ Panics (run_write (sample_context 0 true) [] o [] [] data [] [] [])) /\
  (exists i count, i_pos i <= length (i_buf i) /\ read_said i count /\ ~ Panics (run_read (sample_context 0 true) [] i [] count [] [])) /\
  (exists i dst, i_pos i <= length (i_buf i) /\ read_into_said i dst /\ ~ Panics (run_read_into (sample_context 0 true) [] i [] [] dst [] [] [])).
Proof. exact C124_refuted_lemma. Qed.
Print Assumptions C124_refuted.

(* What happens instead, for every stream: an error, exactly when a panic is documented, and never a panic. *)
Theorem C124_write : forall St (c : mctx byte St) pre o post pre' data post' rest d, o_pos o <= length (o_buf o) -> (Z.of_nat (length (o_buf o)) < 2 ^ 64)%Z ->
  Returns (run_write c pre o post pre' data post' rest d) /\ ~ Panics (run_write c pre o post pre' data post' rest d) /\
  (ReturnsErr (run_write c pre o post pre' data post' rest d) <-> write_said o data).
Proof. exact C124_write_lemma. Qed.
Print Assumptions C124_write.

Theorem C124_read : forall St (c : mctx byte St) pre i post count rest d, i_pos i <= length (i_buf i) -> (Z.of_nat (length (i_buf i)) < 2 ^ 64)%Z ->
  Returns (run_read c pre i post count rest d) /\ ~ Panics (run_read c pre i post count rest d) /\
  (ReturnsErr (run_read c pre i post count rest d) <-> read_said i count).
Proof. exact C124_read_lemma. Qed.
Print Assumptions C124_read.

Theorem C124_read_into : forall St (c : mctx byte St) pre i post pre' dst post' rest d, i_pos i <= length (i_buf i) -> (Z.of_nat (length (i_buf i)) < 2 ^ 64)%Z ->
  Returns (run_read_into c pre i post pre' dst post' rest d) /\ ~ Panics (run_read_into c pre i post pre' dst post' rest d) /\
  (ReturnsErr (run_read_into c pre i post pre' dst post' rest d) <-> read_into_said i dst).
Proof. exact C124_read_into_lemma. Qed.
Print Assumptions C124_read_into.

(* The part that holds: the two functions of Slot panic exactly when they are said to, and return otherwise. *)
Theorem C124_partial : forall St (c : mctx byte St) s rest d,
  (forall len, (Panics (run_set_len c s len rest d) <-> set_len_said s len) /\ (Returns (run_set_len c s len rest d) <-> ~ set_len_said s len)) /\
  (forall pre data post, (Panics (run_copy_from_slice c s pre data post rest d) <-> copy_from_slice_said s data) /\
     (Returns (run_copy_from_slice c s pre data post rest d) <-> ~ copy_from_slice_said s data)).
Proof. intros St c s rest d. exact (conj (fun len => C124_set_len_lemma St c s len rest d) (fun pre data post => C124_copy_lemma St c s pre data post rest d)). Qed.
Print Assumptions C124_partial.

(* An output with two free bytes after one: two fit, three do not. An input alike. A slot of two bytes: its length can be two, not three. *)
Example C124_case :
  let c := sample_context 0 true in let o := Output [x01; x00; x00] 1 in let i := Input [x01; x02; x03] 1 in let s := Slot [x01; x02] 0 in
  (o_pos o <= length (o_buf o) /\ i_pos i <= length (i_buf i)) /\ (~ write_said o [x05; x06] /\ write_said o [x05; x06; x07]) /\ (~ read_said i 2 /\ read_said i 3) /\
  (~ read_into_said i [x00; x00] /\ read_into_said i [x00; x00; x00]) /\ (~ set_len_said s 2 /\ set_len_said s 3) /\
  snd (run_write c [] o [] [] [x05; x06] [] [] []) = FDone (MCon id_Ok [MTup []]) /\
  snd (run_write c [] o [] [] [x05; x06; x07] [] [] []) = FDone (MCon id_Err [MRef 3]) /\
  snd (run_read c [] i [] 2 [] []) = FDone (MCon id_Ok [MSlice 1 1 2]) /\
  snd (run_set_len c s 2 [] []) = FDone (MTup []) /\ Panics (run_set_len c s 3 [] []) /\
  Panics (run_copy_from_slice c s [] [x01; x02; x03] [] [] []) /\ Returns (run_copy_from_slice c s [] [x03; x04] [] [] []).
Proof.
  cbv zeta. refine (conj _ (conj _ (conj _ (conj _ (conj _ (conj _ (conj _ (conj _ (conj _ (conj _ (conj _ _)))))))))));
    try (cbv [write_said read_said read_into_said set_len_said]; cbn; lia); try (vm_compute; reflexivity); vm_compute; eexists; eexists; reflexivity.
Qed.
