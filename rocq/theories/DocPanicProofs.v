From Coq Require Import List Lia PeanoNat ZArith.
From Verif Require Import Base Streams Slot SourceNames SourceMeaning SourceMemory SourceOutput SourceInput SourceSlot SpecMemory MemoryStreams MemorySlot SpecDocPanics RunExamples.
Import ListNotations.

Ltac decided :=
  let X := fresh in first [eexists; eexists; reflexivity | intros X; first [lia | eexists; eexists; reflexivity | destruct X as (? & ? & X); discriminate | intros ?; lia]].

Lemma C124_write_lemma S (c : mctx byte S) pre o post pre' data post' rest d : o_pos o <= length (o_buf o) -> (Z.of_nat (length (o_buf o)) < 2 ^ 64)%Z ->
  Returns (run_write c pre o post pre' data post' rest d) /\ ~ Panics (run_write c pre o post pre' data post' rest d) /\
  (ReturnsErr (run_write c pre o post pre' data post' rest d) <-> write_said o data).
Proof.
  intros P L. unfold run_write. rewrite text_output_write by assumption. unfold output_write, write_said. cbn zeta.
  destruct (Nat.ltb_spec (length (o_buf o) - o_pos o) (length data)) as [H|H];
    refine (conj _ (conj _ (conj _ _))); decided.
Qed.
Lemma C124_read_lemma S (c : mctx byte S) pre i post count rest d : i_pos i <= length (i_buf i) -> (Z.of_nat (length (i_buf i)) < 2 ^ 64)%Z ->
  Returns (run_read c pre i post count rest d) /\ ~ Panics (run_read c pre i post count rest d) /\ (ReturnsErr (run_read c pre i post count rest d) <-> read_said i count).
Proof.
  intros P L. unfold run_read. rewrite text_input_read by assumption. unfold input_read, read_said. cbn zeta.
  destruct (Nat.ltb_spec (length (i_buf i) - i_pos i) count) as [H|H];
    refine (conj _ (conj _ (conj _ _))); decided.
Qed.
Lemma C124_read_into_lemma S (c : mctx byte S) pre i post pre' dst post' rest d : i_pos i <= length (i_buf i) -> (Z.of_nat (length (i_buf i)) < 2 ^ 64)%Z ->
  Returns (run_read_into c pre i post pre' dst post' rest d) /\ ~ Panics (run_read_into c pre i post pre' dst post' rest d) /\
  (ReturnsErr (run_read_into c pre i post pre' dst post' rest d) <-> read_into_said i dst).
Proof.
  intros P L. unfold run_read_into. rewrite text_input_read_into by assumption. unfold input_read_into, read_into_said. cbn zeta.
  destruct (Nat.ltb_spec (length (i_buf i) - i_pos i) (length dst)) as [H|H];
    refine (conj _ (conj _ (conj _ _))); decided.
Qed.
Lemma C124_set_len_lemma S (c : mctx byte S) s len rest d : (Panics (run_set_len c s len rest d) <-> set_len_said s len) /\ (Returns (run_set_len c s len rest d) <-> ~ set_len_said s len).
Proof.
  unfold run_set_len. rewrite text_slot_set_len. unfold slot_set_len, slot_capacity, set_len_said.
  destruct (Nat.leb_spec len (length (s_buf s))) as [H|H]; split; split; decided.
Qed.
Lemma C124_copy_lemma S (c : mctx byte S) s pre data post rest d :
  (Panics (run_copy_from_slice c s pre data post rest d) <-> copy_from_slice_said s data) /\
  (Returns (run_copy_from_slice c s pre data post rest d) <-> ~ copy_from_slice_said s data).
Proof.
  unfold run_copy_from_slice. rewrite text_slot_copy_from_slice. unfold slot_copy_from_slice, slot_capacity, copy_from_slice_said.
  destruct (Nat.leb_spec (length data) (length (s_buf s))) as [H|H]; split; split; decided.
Qed.

Lemma C124_refuted_lemma :
  (exists o data, o_pos o <= length (o_buf o) /\ write_said o data /\ ~ Panics (run_write (sample_context 0 true) [] o [] [] data [] [] [])) /\
  (exists i count, i_pos i <= length (i_buf i) /\ read_said i count /\ ~ Panics (run_read (sample_context 0 true) [] i [] count [] [])) /\
  (exists i dst, i_pos i <= length (i_buf i) /\ read_into_said i dst /\ ~ Panics (run_read_into (sample_context 0 true) [] i [] [] dst [] [] [])).
Proof.
  refine (conj _ (conj _ _)).
  - exists (Output [x00] 1), [x01]. refine (conj _ (conj _ _)); [cbn; lia|unfold write_said; cbn; lia|]. apply C124_write_lemma; cbn; lia.
  - exists (Input [x00] 1), 1. refine (conj _ (conj _ _)); [cbn; lia|unfold read_said; cbn; lia|]. apply C124_read_lemma; cbn; lia.
  - exists (Input [x00] 1), [x01]. refine (conj _ (conj _ _)); [cbn; lia|unfold read_into_said; cbn; lia|]. apply C124_read_into_lemma; cbn; lia.
Qed.
