(* The functions of SizedIter, run from their text: proofs. *)
From Coq Require Import Lia.
From Verif Require Import Base Streams Types Mem SizedSlice SizedIter.
From Verif Require Import SourceNames SourceSyntax SourceMeaning SourceMemory SourceSizedIter SpecMemory MemoryRules MemoryCells.

Section Iter.
Variables (A St : Type) (c : mctx A St).
Implicit Types (i : siter A) (rest : list (mobj A St)) (d : list (mval A)).
Ltac start := intros; unfold called, iter_obj in *.
Notation here i rest d := (Memory (iter_obj 1 i :: OBuf (raw (it_buf i)) :: rest) d).

Lemma text_iter_new : forall cs len rest d, len <= k_len c -> k_len c = length cs ->
  called c id_SizedIter src_impl_SizedIter_T_N_new [MSlice 0 0 (length cs); MNum len] (Memory (OBuf (raw cs) :: rest) d) =
  (Memory (OBuf (raw cs) :: rest ++ [iter_obj 0 (ss_into_iter (SSlice cs len))]) d, FDone (MRef (1 + length rest))).
Proof. start. go. branch X1; go; reflexivity. Qed.

Lemma text_iter_as_slice : forall f i rest d, it_pos i + it_len i <= length (it_buf i) ->
  f = src_impl_SizedIter_T_N_as_slice \/ f = src_impl_SizedIter_T_N_as_mut_slice \/
  f = src_AsMut_slice_SizedIter_T_N_as_mut \/ f = src_AsRef_slice_SizedIter_T_N_as_ref ->
  ends (called c id_SizedIter f [MRef 0] (here i rest d)) (it_as_slice i) (fun _ => (here i rest d, FDone (MSlice 1 (it_pos i) (it_len i)))).
Proof.
  start. unfold it_as_slice. destruct H0 as [-> | [-> | [-> | ->]]]; go; rewrite slice_raw, ?Nat.add_0_l; destruct (mem_slice (it_buf i) (it_pos i) (it_len i)); cbn [ends omap obind go_on]; go; reflexivity.
Qed.

Lemma text_iter_next : forall i rest d, it_pos i + it_len i <= length (it_buf i) -> (Z.of_nat (length (it_buf i)) < 2 ^ 64)%Z ->
  ends (called c id_SizedIter src_Iterator_SizedIter_T_N_next [MRef 0] (here i rest d)) (it_next i) (fun '(x, i') => (here i' rest d, FDone (option_val x))).
Proof.
  start. unfold it_next. go. branch X1; go; [reflexivity|]. rewrite read_raw, ?Nat.add_0_l. destruct (mem_read (it_buf i) (it_pos i)); cbn [ends omap obind go_on]; go; reflexivity.
Qed.
Lemma text_iter_next_back : forall i rest d, it_pos i + it_len i <= length (it_buf i) -> (Z.of_nat (length (it_buf i)) < 2 ^ 64)%Z ->
  ends (called c id_SizedIter src_DoubleEndedIterator_SizedIter_T_N_next_back [MRef 0] (here i rest d)) (it_next_back i) (fun '(x, i') => (here i' rest d, FDone (option_val x))).
Proof.
  start. unfold it_next_back. go. branch X1; go; [reflexivity|]. rewrite read_raw, ?Nat.add_0_l. destruct (mem_read (it_buf i) (it_pos i + it_len i - 1)); cbn [ends omap obind go_on]; go; reflexivity.
Qed.
Lemma text_iter_size_hint : forall i rest d,
  ends (called c id_SizedIter src_Iterator_SizedIter_T_N_size_hint [MRef 0] (here i rest d)) (it_size_hint i)
    (fun n => (here i rest d, FDone (MTup [MNum n; MCon id_Some [MNum n]]))).
Proof. start. unfold it_size_hint. go. branch X1; go; reflexivity. Qed.

(* the loop that drops what is skipped *)
Lemma nth_loop : forall out cs o rest hi s ix k n a lo d, lo <= a -> a + n <= hi -> 
  let ρ := [(id_skipped, s); (id_self, MRef 0); (id_index, ix)] in
  ends (each (turn (with_self c id_SizedIter (call_fn 7 c)) (PVar id_item) src_Iterator_SizedIter_T_N_nth_loop0 out) (map (MPtr 1 lo hi) (seq a n))
          ρ (Memory (o :: OBuf (raw cs) :: rest) d) k)
    (mem_slice cs a n) (fun xs => k ρ (Memory (o :: OBuf (raw cs) :: rest) (d ++ map MItem xs))).
Proof.
  induction n as [|n IH]; intros; subst ρ.
  - cbn. now rewrite app_nil_r.
  - cbn [map seq each mem_slice]. unfold turn at 1, src_Iterator_SizedIter_T_N_nth_loop0 at 1. go. rewrite read_raw.
    destruct (mem_read cs a) as [x| |]; cbn [omap obind go_on ends]; [|reflexivity|reflexivity]. go.
    eapply ends_map; [apply IH; lia|]. intros. cbn [map]. now rewrite <- app_assoc.
Qed.
Lemma text_iter_nth : forall i index rest d, it_pos i + it_len i <= length (it_buf i) -> (Z.of_nat (length (it_buf i)) < 2 ^ 64 - 1)%Z ->
  ends (called c id_SizedIter src_Iterator_SizedIter_T_N_nth [MRef 0; MNum index] (here i rest d)) (it_nth (k_checks c) i index)
    (fun '(x, dropped, i') => (here i' rest (d ++ map MItem dropped), FDone (option_val x))).
Proof.
  start. unfold it_nth. go. branch X1; go; [cbn; rewrite app_nil_r; reflexivity|].
  destruct (it_pos i + index =? 0) eqn:X2; known_as X2.
  - assert (it_pos i = 0) as -> by lia. assert (index = 0) as -> by lia. cbn [Nat.add].
    destruct (k_checks c) eqn:X3.
    + unfold sub_usize. cbn [Nat.leb]. now replace (k_checks _) with true.
    + rewrite sub_wraps by assumption. go. reflexivity.
  - go. branch X3; go; [reflexivity|]. unfold pointers. rewrite !Nat.add_0_l.
    eapply ends_step; [apply nth_loop; lia|]. intros xs _. cbv beta. go.
    branch X4; go.
    + rewrite read_raw, Nat.add_0_l. destruct (mem_read (it_buf i) index); cbn [omap obind go_on ends]; [|reflexivity|reflexivity]. go. reflexivity.
    + rewrite read_out by lia. reflexivity.
Qed.

Lemma clone_loop_length : forall (cl : A -> option A) src n j dst buf, clone_loop cl src dst j n = Done buf -> length buf = length dst.
Proof.
  induction n as [|n IH]; intros *; cbn [clone_loop]; [intros [= <-]; reflexivity|].
  destruct (mem_read src j); cbn [obind]; try discriminate. destruct (cl _); [|discriminate]. unfold mem_write.
  destruct (j <? length dst) eqn:X; cbn [obind]; [|discriminate]. intros E. apply IH in E. rewrite E, app_length. apply Nat.ltb_lt in X. cbn [length]. sizes.
Qed.
(* the loop that clones *)
Lemma iter_clone_loop : forall out o src rest stop start k n a dst d l p, length dst = length src -> a + n <= length src ->
  let ρ := [(id_stop, stop); (id_start, start); (id_len, l); (id_pos, p); (id_buf, MSlice (S (S (length rest))) 0 (length src)); (id_self, MRef 0)] in
  let m dst := Memory (OStruct id_SizedIter [(id_buf, MSlice 1 0 (length src)); o; (id_len, l)] :: OBuf (raw src) :: rest ++ [OBuf (raw dst)]) d in
  ends (each (turn (with_self c id_SizedIter (call_fn 7 c)) (PVar id_i) src_Clone_SizedIter_T_N_clone_loop0 out) (map MNum (seq a n)) ρ (m dst) k)
    (clone_loop (k_clone c) src dst a n) (fun dst' => k ρ (m dst')).
Proof.
  induction n as [|n IH]; intros; subst ρ m; [reflexivity|].
  cbn [map seq each clone_loop]. unfold turn at 1, src_Clone_SizedIter_T_N_clone_loop0 at 1. go. rewrite read_raw, Nat.add_0_l.
  destruct (mem_read src a) as [x| |]; cbn [omap obind go_on ends]; [|reflexivity|reflexivity]. go.
  destruct (k_clone c x) as [y|]; [|reflexivity]. go. rewrite write_raw, Nat.add_0_l.
  unfold mem_write. rewrite (proj2 (Nat.ltb_lt a (length dst))) by lia. cbn [omap obind go_on]. go.
  apply IH; [|lia]. rewrite app_length. cbn [length]. sizes.
Qed.
Lemma text_iter_clone : forall i rest d, it_pos i + it_len i <= length (it_buf i) -> (Z.of_nat (length (it_buf i)) < 2 ^ 64)%Z -> k_len c = length (it_buf i) ->
  ends (called c id_SizedIter src_Clone_SizedIter_T_N_clone [MRef 0] (here i rest d)) (it_clone (k_clone c) i)
    (fun i' => (here i (rest ++ [OBuf (raw (it_buf i')); iter_obj (2 + length rest) i']) d, FDone (MRef (3 + length rest)))).
Proof.
  start. unfold it_clone. go. unfold numbers. replace (it_pos i + it_len i - it_pos i) with (it_len i) by lia. rewrite H1, <- raw_uninit.
  eapply ends_map; [apply iter_clone_loop; [apply repeat_length|lia]|]. intros buf E. cbv beta. go.
  apply clone_loop_length in E. cbn [it_buf it_pos it_len]. rewrite E. unfold uninit. rewrite repeat_length. cbn [Nat.add]. rewrite Nat.add_1_r. reflexivity.
Qed.
End Iter.
