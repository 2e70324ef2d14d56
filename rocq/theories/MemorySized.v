(* The functions of SizedSlice, run from their text: proofs. *)
From Coq Require Import Lia.
From Verif Require Import Base Streams Types Mem SizedSlice SizedIter.
From Verif Require Import SourceNames SourceSyntax SourceMeaning SourceMemory SourceSizedSlice SourceSizedIter SpecMemory MemoryRules MemoryCells.

(* the items of a container, if they are there *)
Ltac at_items := rewrite slice_raw, ?Nat.add_0_l;
  lazymatch goal with |- context [mem_slice ?a ?b ?n] => let E := fresh "E" in destruct (mem_slice a b n) eqn:E; cbn [ends omap obind go_on]; [|reflexivity|reflexivity] end.

Section Sized.
Variables (A St : Type) (c : mctx A St).
Implicit Types (s : sslice A) (rest : list (mobj A St)) (d : list (mval A)).
Ltac start := intros; unfold called, sized_obj, within, ss_capacity, ss_length, ss_as_slice in *.
Notation here s rest d := (Memory (sized_obj 1 s :: OBuf (raw (ss_buf s)) :: rest) d).
Notation fits s := (ss_len s <= length (ss_buf s)).

Lemma text_sized_capacity : forall s rest d, k_len c = length (ss_buf s) ->
  called c id_SizedSlice src_impl_SizedSlice_T_N_capacity [MRef 0] (here s rest d) = (here s rest d, FDone (MNum (ss_capacity s))).
Proof. start. go. now rewrite H. Qed.
Lemma text_sized_len : forall s rest d,
  called c id_SizedSlice src_impl_SizedSlice_T_N_len [MRef 0] (here s rest d) = (here s rest d, FDone (MNum (ss_length s))).
Proof. start. go. reflexivity. Qed.
Lemma text_sized_is_empty : forall s rest d,
  called c id_SizedSlice src_impl_SizedSlice_T_N_is_empty [MRef 0] (here s rest d) = (here s rest d, FDone (MBool (ss_is_empty s))).
Proof. start. go. reflexivity. Qed.
Lemma text_sized_is_full : forall s rest d, k_len c = length (ss_buf s) ->
  called c id_SizedSlice src_impl_SizedSlice_T_N_is_full [MRef 0] (here s rest d) = (here s rest d, FDone (MBool (ss_is_full s))).
Proof. start. go. now rewrite H. Qed.
Lemma text_sized_set_len : forall s len rest d, k_len c = length (ss_buf s) ->
  called c id_SizedSlice src_impl_SizedSlice_T_N_set_len [MRef 0; MNum len] (here s rest d) =
  if k_checks c && negb (len <=? ss_capacity s) then (here s rest d, FFail PAssert) else (here (SSlice (ss_buf s) len) rest d, FDone (MTup [])).
Proof. start. go. branch X1; go; [|reflexivity]. rewrite H. branch X2; go; reflexivity. Qed.
Lemma text_sized_as_ptr : forall f s rest d, f = src_impl_SizedSlice_T_N_3_as_ptr \/ f = src_impl_SizedSlice_T_N_3_as_mut_ptr ->
  called c id_SizedSlice f [MRef 0] (here s rest d) = (here s rest d, FDone (MPtr 1 0 (ss_capacity s) 0)).
Proof. start. destruct H as [-> | ->]; go; reflexivity. Qed.
Lemma text_sized_as_slice : forall f s rest d, fits s ->
  f = src_impl_SizedSlice_T_N_3_as_slice \/ f = src_impl_SizedSlice_T_N_3_as_mut_slice \/ f = src_AsMut_slice_SizedSlice_T_N_as_mut \/ f = src_AsRef_slice_SizedSlice_T_N_as_ref \/
  f = src_Borrow_slice_SizedSlice_T_N_borrow \/ f = src_BorrowMut_slice_SizedSlice_T_N_borrow_mut \/ f = src_Deref_SizedSlice_T_N_deref \/ f = src_DerefMut_SizedSlice_T_N_deref_mut ->
  ends (called c id_SizedSlice f [MRef 0] (here s rest d)) (ss_as_slice s) (fun _ => (here s rest d, FDone (MSlice 1 0 (ss_len s)))).
Proof. start. destruct H0 as [-> | [-> | [-> | [-> | [-> | [-> | [-> | ->]]]]]]]; go; at_items; go; reflexivity. Qed.
(* past the capacity there is nothing to point to *)
Lemma text_sized_as_slice_out : forall s rest d, ~ fits s -> 
  snd (called c id_SizedSlice src_impl_SizedSlice_T_N_3_as_slice [MRef 0] (here s rest d)) = FUndef UOutOfBounds.
Proof. start. eapply eq_trans; [apply (f_equal snd)|]; [go; reflexivity|reflexivity]. Qed.
Lemma text_sized_iter : forall f s rest d, fits s -> f = src_IntoIterator_ref_into_iter \/ f = src_IntoIterator_ref_mut_into_iter ->
  ends (called c id_SizedSlice f [MRef 0] (here s rest d)) (ss_as_slice s) (fun _ => (here s rest d, FDone (MIter (map (MPtr 1 0 (ss_len s)) (seq 0 (ss_len s)))))).
Proof. start. destruct H0 as [-> | ->]; go; at_items; go; reflexivity. Qed.
Lemma text_sized_into_raw_parts : forall s rest d,
  called c id_SizedSlice src_impl_SizedSlice_T_N_3_into_raw_parts [MRef 0] (here s rest d) = (here s rest d, FDone (MTup [MSlice 1 0 (ss_capacity s); MNum (ss_len s)])).
Proof. start. go. reflexivity. Qed.
Lemma text_sized_from_raw_parts : forall cs len rest d, k_len c = length cs ->
  called c id_SizedSlice src_impl_SizedSlice_T_N_3_from_raw_parts [MSlice 0 0 (length cs); MNum len] (Memory (OBuf (raw cs) :: rest) d) =
  if k_checks c && negb (len <=? length cs) then (Memory (OBuf (raw cs) :: rest) d, FFail PAssert)
  else (Memory (OBuf (raw cs) :: rest ++ [sized_obj 0 (SSlice cs len)]) d, FDone (MRef (1 + length rest))).
Proof. start. go. branch X1; go; [|reflexivity]. rewrite H. branch X2; go; reflexivity. Qed.
Lemma text_sized_into_iter : forall s rest d, fits s -> k_len c = length (ss_buf s) ->
  called c id_SizedSlice src_IntoIterator_SizedSlice_T_N_into_iter [MRef 0] (here s rest d) =
  (here s (rest ++ [iter_obj 1 (ss_into_iter s)]) d, FDone (MRef (2 + length rest))).
Proof. start. unfold iter_obj. go. branch X1; go; reflexivity. Qed.
Lemma text_sized_fmt : forall s f rest d, fits s ->
  ends (called c id_SizedSlice src_Debug_SizedSlice_T_N_fmt [MRef 0; f] (here s rest d)) (ss_as_slice s)
    (fun _ => (here s rest d, FDone (MCon id_Debug [MSlice 1 0 (ss_len s)]))).
Proof. start. go. at_items. go. rewrite slice_raw, ?Nat.add_0_l, E. cbn [omap obind]. go. reflexivity. Qed.

Lemma text_sized_default : forall rest d,
  called c id_SizedSlice src_Default_SizedSlice_T_N_default [] (Memory rest d) =
  (Memory (rest ++ [OBuf (raw (ss_buf (ss_default A (k_len c)))); sized_obj (length rest) (ss_default A (k_len c))]) d, FDone (MRef (length rest + 1))).
Proof. start. go. cbn [ss_default ss_buf ss_len]. rewrite raw_uninit. branch X1; go; unfold uninit; now rewrite repeat_length. Qed.

(* ---- comparisons *)

Lemma text_sized_eq : forall s s' rest d, fits s -> fits s' ->
  let m := here s (sized_obj 3 s' :: OBuf (raw (ss_buf s')) :: rest) d in
  ends (called c id_SizedSlice src_PartialEq_SizedSlice_U_M_SizedSlice_T_N_eq [MRef 0; MRef 2] m) (ss_eq (k_eq c) s s') (fun b => (m, FDone (MBool b))).
Proof.
  start. subst m. unfold ss_eq, ss_as_slice. go. at_items. go. at_items. go.
  rewrite !slice_raw, ?Nat.add_0_l, ?E, ?E0. cbn [omap obind]. go. rewrite !slice_raw, ?Nat.add_0_l, ?E, ?E0. cbn [omap obind]. go. reflexivity.
Qed.
Lemma text_sized_eq_slice : forall f s pre ys post rest d, fits s ->
  f = src_PartialEq_array_SizedSlice_T_N_eq \/ f = src_PartialEq_ref_SizedSlice_T_N_eq \/ f = src_PartialEq_Vec_U_SizedSlice_T_N_eq ->
  let m := here s (within pre ys post :: rest) d in
  ends (called c id_SizedSlice f [MRef 0; MSlice 2 (length pre) (length ys)] m) (ss_eq_slice (k_eq c) s ys) (fun b => (m, FDone (MBool b))).
Proof.
  start. subst m. unfold ss_eq_slice, ss_as_slice. destruct H0 as [-> | [-> | ->]]; go; at_items; go;
    rewrite slice_raw, ?Nat.add_0_l, E; cbn [omap obind]; go; now rewrite firstn_all.
Qed.
Lemma text_sized_cmp : forall s s' rest d, fits s -> fits s' ->
  let m := here s (sized_obj 3 s' :: OBuf (raw (ss_buf s')) :: rest) d in
  ends (called c id_SizedSlice src_Ord_SizedSlice_T_N_cmp [MRef 0; MRef 2] m) (ss_cmp (k_cmp c) s s') (fun o => (m, FDone (MOrd o))).
Proof.
  start. subst m. unfold ss_cmp, ss_as_slice. go. at_items. go. at_items. go.
  rewrite !slice_raw, ?Nat.add_0_l, ?E, ?E0. cbn [omap obind]. go. rewrite !slice_raw, ?Nat.add_0_l, ?E, ?E0. cbn [omap obind]. go. reflexivity.
Qed.
Lemma text_sized_partial_cmp : forall s s' rest d, fits s -> fits s' ->
  let m := here s (sized_obj 3 s' :: OBuf (raw (ss_buf s')) :: rest) d in
  ends (called c id_SizedSlice src_PartialOrd_SizedSlice_T_M_SizedSlice_T_N_partial_cmp [MRef 0; MRef 2] m) (ss_partial_cmp (k_partial c) s s') (fun o => (m, FDone (order_val o))).
Proof.
  start. subst m. unfold ss_partial_cmp, ss_as_slice. go. at_items. go. at_items. go.
  rewrite !slice_raw, ?Nat.add_0_l, ?E, ?E0. cbn [omap obind]. go. rewrite !slice_raw, ?Nat.add_0_l, ?E, ?E0. cbn [omap obind]. go. reflexivity.
Qed.
Lemma text_sized_partial_cmp_slice : forall f s pre ys post rest d, fits s ->
  f = src_PartialOrd_array_SizedSlice_T_N_partial_cmp \/ f = src_PartialOrd_ref_SizedSlice_T_N_partial_cmp \/ f = src_PartialOrd_Vec_T_SizedSlice_T_N_partial_cmp ->
  let m := here s (within pre ys post :: rest) d in
  ends (called c id_SizedSlice f [MRef 0; MSlice 2 (length pre) (length ys)] m) (ss_partial_cmp_slice (k_partial c) s ys) (fun o => (m, FDone (order_val o))).
Proof.
  start. subst m. unfold ss_partial_cmp_slice, ss_as_slice. destruct H0 as [-> | [-> | ->]]; go; at_items; go;
    rewrite slice_raw, ?Nat.add_0_l, E; cbn [omap obind]; go; now rewrite firstn_all.
Qed.

(* ---- items *)

Lemma slice_length : forall (cs : list (option A)) n a xs, mem_slice cs a n = Done xs -> length xs = n.
Proof.
  induction n as [|n IH]; intros *; cbn [mem_slice]; [intros [= <-]; reflexivity|].
  destruct (mem_read cs a); cbn [obind]; [|discriminate|discriminate]. specialize (IH (S a)). destruct (mem_slice cs (S a) n); cbn; [|discriminate|discriminate].
  intros [= <-]. cbn. f_equal. now apply IH.
Qed.
Lemma text_sized_index : forall f s k rest d, fits s -> f = src_Index_I_SizedSlice_T_N_index \/ f = src_IndexMut_I_SizedSlice_T_N_index_mut ->
  ends (called c id_SizedSlice f [MRef 0; MNum k] (here s rest d)) (ss_index s k) (fun _ => (here s rest d, FDone (MPtr 1 0 (ss_len s) k))).
Proof.
  start. unfold ss_index, ss_as_slice. destruct H0 as [-> | ->]; go; at_items; go; pose proof (slice_length _ _ _ _ E) as L.
  all: branch X1; go; destruct (nth_error a k) eqn:X2; [reflexivity|apply nth_error_None in X2; lia|apply (proj2 (nth_error_None _ _)) in X1 || idtac|reflexivity].
  all: assert (nth_error a k <> None) as X3 by congruence; apply nth_error_Some in X3; lia.
Qed.
Lemma text_sized_index_range : forall f s a b rest d, fits s -> f = src_Index_I_SizedSlice_T_N_index \/ f = src_IndexMut_I_SizedSlice_T_N_index_mut ->
  ends (called c id_SizedSlice f [MRef 0; MSpan a b] (here s rest d)) (ss_index_range s a b) (fun _ => (here s rest d, FDone (MSlice 1 a (b - a)))).
Proof.
  start. unfold ss_index_range, ss_as_slice. destruct H0 as [-> | ->]; go; at_items; go; rewrite (slice_length _ _ _ _ E).
  all: destruct ((a <=? b) && (b <=? ss_len s)); go; reflexivity.
Qed.

Lemma text_sized_copy_from_slice : forall s pre data post rest d, k_len c = length (ss_buf s) ->
  ends (called c id_SizedSlice src_impl_SizedSlice_T_N_copy_from_slice [MRef 0; MSlice 2 (length pre) (length data)] (here s (within pre data post :: rest) d))
    (ss_copy_from_slice s data) (fun s' => (here s' (within pre data post :: rest) d, FDone (MTup []))).
Proof.
  start. unfold ss_copy_from_slice, mem_copy. go. branch X1; go; [|reflexivity].
  cbn [omap obind ends]. rewrite taken_mid0, firstn_all by lia. cbn [firstn app Nat.add]. branch X2; go.
  all: cbn [ss_buf ss_len]; rewrite raw_app, raw_filled, skipn_raw, app_length, map_length, skipn_length; replace (length data + (length (ss_buf s) - length data)) with (length (ss_buf s)) by lia; reflexivity.
Qed.

(* ---- loops *)


(* `new` *)
Lemma new_loop : forall f out l N lo hi len ix k o (buf : list (option A)) ys j pre post done rest d, length done = j -> length done + length buf = N -> lo <= length pre -> length pre + length ys <= hi ->
  let ρ := [(id_len, len); (id_buf, ix); (id_data, o)] in
  let m pre ys buf := Memory (OBuf (pre ++ filled ys ++ post) :: rest ++ [OBuf (raw buf)]) d in
  l = S (length rest) ->
  ends (each (turn (with_self c id_SizedSlice f) (PTup [PVar id_item; PVar id_value]) src_impl_SizedSlice_T_N_2_new_loop0 out)
          (map (fun '(x, y) => MTup [x; y]) (combine (map (MPtr l 0 N) (seq j (length buf))) (map (MPtr 0 lo hi) (seq (length pre) (length ys))))) ρ (m pre ys (done ++ buf)) k)
    (clone_into (k_clone c) buf ys) (fun buf' => k ρ (m pre ys (done ++ buf'))).
Proof.
  induction buf as [|b buf IH]; intros; subst ρ m; [destruct ys; reflexivity|]. destruct ys as [|y ys]; [reflexivity|].
  cbn [length seq map combine each clone_into]. unfold turn at 1, src_impl_SizedSlice_T_N_2_new_loop0 at 1. cbn [length] in *. subst l. go.
  replace (length pre) with (length pre + 0) at 1 by lia. rewrite mem_read_mid. cbn [filled map app mem_read nth_error]. go.
  destruct (k_clone c y) as [z|]; [|reflexivity]. go. rewrite write_raw, write_mid by assumption. cbn [omap obind]. go.
  eapply ends_map.
  - pose proof (IH ys (S j) (pre ++ [Some (MItem y)]) post (done ++ [Some z]) rest d) as P. rewrite !app_length, <- !app_assoc in P. cbn [app length filled map] in P. rewrite !Nat.add_1_r in P.
    apply P; try reflexivity; lia.
  - intros. cbv beta. rewrite <- !app_assoc. reflexivity.
Qed.
Lemma clone_into_length : forall (cl : A -> option A) buf ys buf', clone_into cl buf ys = Done buf' -> length buf' = length buf.
Proof.
  induction buf as [|b buf IH]; intros [|y ys] buf'; cbn [clone_into]; try (intros [= <-]; reflexivity).
  destruct (cl y); [|discriminate]. specialize (IH ys). destruct (clone_into cl buf ys); cbn; [|discriminate|discriminate]. intros [= <-]. cbn. f_equal. now apply IH.
Qed.
Lemma text_sized_new : forall f pre data post rest d, f = src_impl_SizedSlice_T_N_2_new \/ f = src_TryFrom_ref_SizedSlice_T_N_try_from ->
  ends (called c id_SizedSlice f [MSlice 0 (length pre) (length data)] (Memory (within pre data post :: rest) d)) (ss_new (k_clone c) (k_len c) data)
    (fun r => match r with
              | inl e => (Memory (within pre data post :: rest ++ [OBuf (raw (uninit A (k_len c))); length_obj e]) d, FDone (MCon id_Err [MRef (2 + length rest)]))
              | inr s => (Memory (within pre data post :: rest ++ [OBuf (raw (ss_buf s)); sized_obj (1 + length rest) s]) d, FDone (MCon id_Ok [MRef (2 + length rest)]))
              end).
Proof.
  intros. assert (forall f' out len ix k o,
    let ρ := [(id_len, len); (id_buf, ix); (id_data, o)] in
    ends (each (turn (with_self c id_SizedSlice f') (PTup [PVar id_item; PVar id_value]) src_impl_SizedSlice_T_N_2_new_loop0 out)
            (map (fun '(x, y) => MTup [x; y]) (combine (pointers (S (length rest)) 0 (k_len c)) (pointers 0 (length pre) (length data))))
            ρ (Memory (OBuf (pre ++ filled data ++ post) :: rest ++ [OBuf (repeat None (k_len c))]) d) k)
      (clone_into (k_clone c) (uninit A (k_len c)) data) (fun buf' => k ρ (Memory (OBuf (pre ++ filled data ++ post) :: rest ++ [OBuf (raw buf')]) d))) as L.
  { intros. pose proof (new_loop f' out (S (length rest)) (k_len c) (length pre) (length pre + length data) len ix k o (uninit A (k_len c)) data 0 pre post [] rest d) as P.
    assert (length (uninit A (k_len c)) = k_len c) as LU by apply repeat_length. rewrite LU in P. cbn [app] in P. rewrite raw_uninit in P. apply P; try reflexivity; lia. }
  start. unfold ss_new. destruct H as [-> | ->]; go; rewrite raw_uninit; branch X1; go.
  1, 3: cbn [ends Nat.add]; unfold length_obj; cbn [le_capacity le_len]; rewrite Nat.add_1_r; reflexivity.
  - eapply ends_map; [apply L|]. intros buf E. cbv beta. go. apply clone_into_length in E. unfold uninit in E. rewrite repeat_length in E.
    cbn [ss_buf ss_len Nat.add]. rewrite E, Nat.add_1_r. reflexivity.
  - eapply ends_map_in; [apply L|]. intros buf E. cbv beta. go. apply clone_into_length in E. unfold uninit in E. rewrite repeat_length in E.
    cbn [ss_buf ss_len Nat.add]. rewrite E, Nat.add_1_r. reflexivity.
Qed.

(* `clone` *)
Lemma sized_clone_loop : forall out s xs rest ix k n a dst d, length dst = length (ss_buf s) -> a + n <= ss_len s -> fits s -> ss_as_slice s = Done xs ->
  let ρ := [(id_buf, MSlice (S (S (length rest))) 0 (length (ss_buf s))); (id_self, MRef 0)] in
  let m dst := here s (rest ++ [OBuf (raw dst)]) d in ix = length (ss_buf s) ->
  ends (each (turn (with_self c id_SizedSlice (call_fn 7 c)) (PVar id_i) src_Clone_SizedSlice_T_N_clone_loop0 out) (map MNum (seq a n)) ρ (m dst) k)
    (clone_loop (k_clone c) (ss_buf s) dst a n) (fun dst' => k ρ (m dst')).
Proof.
  induction n as [|n IH]; start; subst ρ m; [reflexivity|].
  cbn [map seq each clone_loop]. unfold turn at 1, src_Clone_SizedSlice_T_N_clone_loop0 at 1. go. rewrite slice_raw, H2. cbn [omap obind]. go.
  rewrite read_raw, Nat.add_0_l. destruct (mem_read (ss_buf s) a) as [x| |]; cbn [omap obind go_on ends]; [|reflexivity|reflexivity]. go.
  destruct (k_clone c x) as [y|]; [|reflexivity]. go. rewrite write_raw, Nat.add_0_l.
  unfold mem_write. rewrite (proj2 (Nat.ltb_lt a (length dst))) by lia. cbn [omap obind go_on]. go.
  apply IH; try assumption; try lia. rewrite app_length. cbn [length]. sizes.
Qed.
Lemma cloned_length : forall (cl : A -> option A) src n j dst buf, clone_loop cl src dst j n = Done buf -> length buf = length dst.
Proof.
  induction n as [|n IH]; intros *; cbn [clone_loop]; [intros [= <-]; reflexivity|].
  destruct (mem_read src j); cbn [obind]; try discriminate. destruct (cl _); [|discriminate]. unfold mem_write.
  destruct (j <? length dst) eqn:X; cbn [obind]; [|discriminate]. intros E. apply IH in E. rewrite E, app_length. apply Nat.ltb_lt in X. cbn [length]. sizes.
Qed.
Lemma text_sized_clone : forall s xs rest d, fits s -> k_len c = length (ss_buf s) -> ss_as_slice s = Done xs ->
  ends (called c id_SizedSlice src_Clone_SizedSlice_T_N_clone [MRef 0] (here s rest d)) (ss_clone (k_clone c) s)
    (fun s' => (here s (rest ++ [OBuf (raw (ss_buf s')); sized_obj (2 + length rest) s']) d, FDone (MRef (3 + length rest)))).
Proof.
  start. unfold ss_clone. go. unfold numbers. rewrite Nat.sub_0_r, H0, <- raw_uninit.
  eapply ends_map; [eapply sized_clone_loop; [apply repeat_length|lia|assumption|eassumption|reflexivity]|]. intros buf E. cbv beta. unfold sized_obj. go.
  apply cloned_length in E. cbn [ss_buf ss_len]. rewrite E. unfold uninit, ss_capacity. rewrite repeat_length. cbn [Nat.add]. rewrite Nat.add_1_r. reflexivity.
Qed.

(* `hash` *)
Lemma hash_loop : forall f out o cs hi rest k n a lo d hs xs, lo <= a -> a + n <= hi -> mem_slice cs a n = Done xs ->
  let ρ := [(id_self, MRef 0); (id_state, MRef 2)] in
  each (turn (with_self c id_SizedSlice f) (PVar id_v) src_Hash_SizedSlice_T_N_hash_loop0 out) (map (MPtr 1 lo hi) (seq a n))
    ρ (Memory (o :: OBuf (raw cs) :: OHasher hs :: rest) d) k = k ρ (Memory (o :: OBuf (raw cs) :: OHasher (hs ++ flat_map (k_hash c) xs) :: rest) d).
Proof.
  induction n as [|n IH]; intros * L H E ρ; subst ρ; cbn [mem_slice] in E.
  - injection E as <-. cbn. now rewrite app_nil_r.
  - destruct (mem_read cs a) as [x| |] eqn:X; cbn [obind] in E; [|discriminate|discriminate].
    destruct (mem_slice cs (S a) n) as [ys| |] eqn:Y; cbn [omap obind] in E; [|discriminate|discriminate]. injection E as <-.
    cbn [map seq each]. unfold turn at 1, src_Hash_SizedSlice_T_N_hash_loop0 at 1. go. rewrite read_raw, X. cbn [omap obind go_on]. go.
    rewrite IH with (xs := ys) by (lia || assumption). cbn [flat_map]. now rewrite app_assoc.
Qed.
Lemma text_sized_hash : forall s hs rest d, fits s ->
  ends (called c id_SizedSlice src_Hash_SizedSlice_T_N_hash [MRef 0; MRef 2] (here s (OHasher hs :: rest) d)) (ss_hash (k_hash c) s)
    (fun hs' => (here s (OHasher (hs ++ hs') :: rest) d, FDone (MTup []))).
Proof.
  start. unfold ss_hash, ss_as_slice. go.
  change (ref_into_iter id_SizedSlice memory_impls) with (Some src_IntoIterator_ref_into_iter). go. at_items. go.
  unfold pointers. rewrite hash_loop with (xs := a) by (lia || assumption). reflexivity.
Qed.

(* a box *)
Lemma slice_of_firstn : forall (cs : list (option A)) n a, mem_slice (firstn (a + n) cs) a n = mem_slice cs a n.
Proof.
  induction n as [|n IH]; intros; [reflexivity|]. cbn [mem_slice]. rewrite <- Nat.add_succ_comm, IH. f_equal. unfold mem_read.
  rewrite Nat.add_succ_comm. replace (nth_error (firstn (a + S n) cs) a) with (nth_error cs a); [reflexivity|].
  revert a. clear. induction cs as [|x cs IH]; intros; [destruct a; reflexivity|]. destruct a; cbn; [reflexivity|apply IH].
Qed.
Lemma slice_cells : forall (cs : list (option A)) n a xs, mem_slice cs a n = Done xs -> firstn n (skipn a cs) = map Some xs.
Proof.
  induction n as [|n IH]; intros * E; cbn [mem_slice] in E; [injection E as <-; reflexivity|].
  destruct (mem_read cs a) as [x| |] eqn:X; cbn [obind] in E; [|discriminate|discriminate].
  destruct (mem_slice cs (S a) n) as [ys| |] eqn:Y; cbn [omap obind] in E; [|discriminate|discriminate]. injection E as <-.
  apply IH in Y. unfold mem_read in X. destruct (nth_error cs a) as [[z|]|] eqn:Z; try discriminate. injection X as ->.
  apply nth_error_split in Z. destruct Z as (l1 & l2 & -> & <-). replace (S (length l1)) with (length l1 + 1) in Y by lia. rewrite skipn_mid in Y.
  rewrite skipn_app, skipn_all, Nat.sub_diag. cbn in *. now rewrite Y.
Qed.
Lemma text_sized_boxed : forall x f s rest d, fits s ->
  f = src_impl_SizedSlice_T_N_3_into_boxed_slice \/ f = src_impl_SizedSlice_T_N_3_into_vec \/ f = src_From_SizedSlice_T_N_Box_slice_from \/ f = src_From_SizedSlice_T_N_Vec_T_from ->
  ends (called c x f [MRef 0] (here s rest d)) (ss_into_boxed_slice (k_item_size c) (k_granted c) s)
    (fun xs => (here s (rest ++ [OBuf (filled xs)]) d, FDone (MSlice (2 + length rest) 0 (length xs)))).
Proof.
  start. unfold ss_into_boxed_slice.
  assert (L : firstn 0 (repeat None (ss_len s)) ++ firstn (ss_len s) (skipn 0 (raw (ss_buf s))) ++ skipn (0 + ss_len s) (repeat None (ss_len s)) = raw (firstn (ss_len s) (ss_buf s))).
  { cbn [firstn app skipn Nat.add]. rewrite skipn_all2 by (rewrite repeat_length; lia). now rewrite app_nil_r, firstn_raw. }
  pose proof (slice_of_firstn (ss_buf s) (ss_len s) 0) as L2. cbn [Nat.add] in L2.
  destruct H0 as [-> | [-> | [-> | ->]]]; go; unfold no_size; destruct (k_item_size c * N.of_nat (ss_len s) =? 0)%N; try reflexivity; destruct (k_granted c); go; cbn [negb]; go; try reflexivity.
  all: rewrite L, slice_raw, L2; destruct (mem_slice (ss_buf s) 0 (ss_len s)) as [xs| |] eqn:E; cbn [omap obind]; go; try reflexivity.
  all: cbn [ends]; rewrite (slice_length _ _ _ _ E); apply slice_cells in E; cbn [skipn] in E; rewrite E, raw_filled; reflexivity.
Qed.
Lemma text_sized_from_array : forall pre xs post rest d, k_len c = length xs ->
  called c id_SizedSlice src_From_array_SizedSlice_T_N_from [MSlice 0 (length pre) (length xs)] (Memory (within pre xs post :: rest) d) =
  (Memory (within pre xs post :: rest ++ [OBuf (raw (ss_buf (ss_from_array xs))); sized_obj (1 + length rest) (ss_from_array xs)]) d, FDone (MRef (2 + length rest))).
Proof.
  start. go. rewrite H, taken_mid0, firstn_all by lia. cbn [ss_from_array ss_buf ss_len Nat.add]. rewrite raw_filled, map_length, Nat.add_1_r. reflexivity.
Qed.

(* `from_iter` *)
Lemma from_iter_loop : forall f (next : iterator St A) N l i1 i2 k n (done : list (option A)) st rest d, length done + n = N -> (Z.of_nat N < 2 ^ 64)%Z -> l = S (length rest) ->
  (forall st, k_next c st = let (x, st') := next st in (option_map MItem x, st')) ->
  let ρ j := [(id_len, MNum j); (id_buf, MSlice l 0 N); i1; i2] in let ρ0 := ρ 0 in id_iter = fst i1 -> snd i1 = MRef 0 ->
  each (turn (with_self c id_SizedSlice f) (PVar id_item) src_FromIterator_T_SizedSlice_T_N_from_iter_loop0 (fun ρ m => k (restore ρ0 ρ) m)) (map (MPtr l 0 N) (seq (length done) n))
    (ρ (length done)) (Memory (OUser st :: rest ++ [OBuf (raw done ++ repeat None n)]) d) k =
  let '(buf, len, st') := fill next n st in k (ρ (length done + len)) (Memory (OUser st' :: rest ++ [OBuf (raw (done ++ buf))]) d).
Proof.
  induction n as [|n IH]; intros; subst ρ ρ0; [cbn; now rewrite !app_nil_r, Nat.add_0_r|]. destruct i1 as [x1 v1]. cbn [fst snd] in *. subst x1 v1 l.
  cbn [seq map each fill]. unfold turn at 1, src_FromIterator_T_SizedSlice_T_N_from_iter_loop0 at 1. go.
  rewrite H2. destruct (next st) as [[x|] st1]; cbn [option_map].
  - go. cbn [repeat]. rewrite write_mid by apply raw_length. cbn [go_on]. go. rewrite Nat.add_1_r.
    pose proof (IH (done ++ [Some x]) st1 rest d) as P. rewrite app_length, raw_app, <- app_assoc, !Nat.add_1_r in P. cbn [length raw map option_map app] in P.
    rewrite P by (try reflexivity; try assumption; lia). destruct (fill next n st1) as [[buf len] st2]. rewrite <- app_assoc. cbn [app]. now replace (S (length done) + len) with (length done + S len) by lia.
  - go. rewrite raw_app, raw_uninit, Nat.add_0_r. reflexivity.
Qed.
Lemma fill_length : forall (next : iterator St A) n st, length (fst (fst (fill next n st))) = n.
Proof.
  induction n as [|n IH]; intros; [reflexivity|]. cbn [fill]. destruct (next st) as [[x|] st1]; [|apply repeat_length].
  specialize (IH st1). destruct (fill next n st1) as [[buf len] st2]. cbn in *. now rewrite IH.
Qed.
Lemma text_sized_from_iter : forall (next : iterator St A) st rest d, (Z.of_nat (k_len c) < 2 ^ 64)%Z ->
  (forall st, k_next c st = let (x, st') := next st in (option_map MItem x, st')) ->
  called c id_SizedSlice src_FromIterator_T_SizedSlice_T_N_from_iter [MRef 0] (Memory (OUser st :: rest) d) =
  let (s, st') := ss_from_iter next (k_len c) st in
  (Memory (OUser st' :: rest ++ [OBuf (raw (ss_buf s)); sized_obj (1 + length rest) s]) d, FDone (MRef (2 + length rest))).
Proof.
  start. unfold ss_from_iter. go. unfold pointers.
  match goal with |- each _ _ _ _ ?K = _ => pose proof (from_iter_loop (call_fn 7 c) next (k_len c) (S (length rest)) (id_iter, MRef 0) (id_iter, MRef 0) K (k_len c) [] st rest d) as P end.
  cbn [length Nat.add] in P. etransitivity; [apply P; try reflexivity; assumption|]. clear P.
  pose proof (fill_length next (k_len c) st) as L. destruct (fill next (k_len c) st) as [[buf len] st2]. cbn [fst app] in *. go.
  cbn [ss_buf ss_len Nat.add]. rewrite L, Nat.add_1_r. reflexivity.
Qed.

(* `each_ref` and `each_mut` *)
Lemma refs_write : forall b n (cs : list (option nat)) a i, a < length cs ->
  mem_write (refs b n cs) a (MPtr b 0 n i) = Done (refs b n (firstn a cs ++ Some i :: skipn (S a) cs) : list (option (mval A))).
Proof.
  intros. unfold mem_write, refs. rewrite map_length, (proj2 (Nat.ltb_lt _ _)) by assumption. now rewrite map_app, firstn_map, map_cons, skipn_map.
Qed.
Lemma refs_length : forall b n cs, length (refs b n cs : list (option (mval A))) = length cs. Proof. intros. apply map_length. Qed.
Lemma each_loop : forall s test body brk rest k n fuel a buf d, a + n = ss_len s -> fits s -> n < fuel -> length buf = length (ss_buf s) -> (Z.of_nat (length (ss_buf s)) < 2 ^ 64)%Z ->
  test = src_impl_SizedSlice_T_N_each_ref_loop0 /\ body = src_impl_SizedSlice_T_N_each_ref_loop1 \/ test = src_impl_SizedSlice_T_N_each_mut_loop0 /\ body = src_impl_SizedSlice_T_N_each_mut_loop1 ->
  let c' := with_self c id_SizedSlice (call_fn 7 c) in
  let ρ a := [(id_i, MNum a); (id_len, MNum (ss_len s)); (id_buf, MSlice (S (S (length rest))) 0 (length (ss_buf s))); (id_self, MRef 0)] in
  let m buf := here s (rest ++ [OBuf (refs 1 (length (ss_buf s)) buf)]) d in
  ends (again (fun ρ m k' => evaluate c' test ρ m brk k')
          (fun ρ m k' => evaluate c' body ρ m (fun ρ' m => k (restore ρ ρ') m) (fun _ ρ' m => k' (restore ρ ρ') m)) fuel (ρ a) (m buf) k)
    (addr_loop buf a n) (fun buf' => k (ρ (ss_len s)) (m buf')).
Proof.
  induction n as [|n IH]; intros; subst c' ρ m; (destruct fuel as [|fuel]; [lia|]); unfold sized_obj in *.
  - cbn [again addr_loop]. rewrite Nat.add_0_r in H. subst a. destruct H4 as [[-> ->] | [-> ->]].
    + unfold src_impl_SizedSlice_T_N_each_ref_loop0 at 1. go. reflexivity.
    + unfold src_impl_SizedSlice_T_N_each_mut_loop0 at 1. go. reflexivity.
  - cbn [again addr_loop]. pose proof H4 as H5. destruct H4 as [[-> ->] | [-> ->]].
    + unfold src_impl_SizedSlice_T_N_each_ref_loop0 at 1. go. unfold src_impl_SizedSlice_T_N_each_ref_loop1 at 1. go.
      cbn [Nat.add]. rewrite refs_write by lia. unfold mem_write. rewrite (proj2 (Nat.ltb_lt _ _)) by lia. cbn [go_on obind]. go. rewrite Nat.add_1_r.
      apply IH; try assumption; try lia. rewrite app_length. cbn [length]. sizes.
    + unfold src_impl_SizedSlice_T_N_each_mut_loop0 at 1. go. unfold src_impl_SizedSlice_T_N_each_mut_loop1 at 1. go.
      cbn [Nat.add]. rewrite refs_write by lia. unfold mem_write. rewrite (proj2 (Nat.ltb_lt _ _)) by lia. cbn [go_on obind]. go. rewrite Nat.add_1_r.
      apply IH; try assumption; try lia. rewrite app_length. cbn [length]. sizes.
Qed.
Lemma refs_uninit : forall b n m, refs b n (uninit nat m) = repeat (Some (MNull : mval A)) m.
Proof. unfold refs, uninit. induction m as [|m IH]; cbn; [reflexivity|now rewrite IH]. Qed.
Lemma addr_length : forall n a buf buf', addr_loop buf a n = Done buf' -> length buf' = length buf.
Proof.
  induction n as [|n IH]; intros *; cbn [addr_loop]; [intros [= <-]; reflexivity|]. unfold mem_write.
  destruct (a <? length buf) eqn:X; cbn [obind]; [|discriminate]. intros E. apply IH in E. rewrite E, app_length. apply Nat.ltb_lt in X. cbn [length]. sizes.
Qed.
Lemma text_sized_each : forall f s rest d, fits s -> k_len c = length (ss_buf s) -> (Z.of_nat (length (ss_buf s)) < 2 ^ 64)%Z -> ss_len s < k_fuel c ->
  f = src_impl_SizedSlice_T_N_each_ref \/ f = src_impl_SizedSlice_T_N_each_mut ->
  ends (called c id_SizedSlice f [MRef 0] (here s rest d)) (ss_each_ref s)
    (fun r =>
      let cells := OBuf (refs 1 (length (ss_buf s)) (ss_buf r)) in
      (here s (rest ++ [cells; cells; OStruct id_SizedSlice [(id_buf, MSlice (3 + length rest) 0 (length (ss_buf r))); (id_len, MNum (ss_len r))]]) d, FDone (MRef (4 + length rest)))).
Proof.
  start. unfold ss_each_ref. destruct H3 as [-> | ->]; go; rewrite H0, <- refs_uninit with (b := 1) (n := length (ss_buf s)).
  all: match goal with |- ends (again (fun _ _ _ => evaluate _ ?test _ _ _ _) (fun _ _ _ => evaluate _ ?body _ _ _ _) _ _ _ ?K) _ _ =>
      pose proof (each_loop s test body (fun _ m => lost m) rest K (ss_len s) (k_fuel c) 0 (uninit nat (length (ss_buf s))) d) as P end;
    (eapply ends_map; [apply P; try assumption; try reflexivity; [apply repeat_length|tauto]|]); clear P; intros buf E; apply addr_length in E; unfold uninit in E; rewrite repeat_length in E;
    cbv beta; unfold sized_obj; unfold ss_capacity in E.
  all: go; rewrite refs_length, E; go; cbn [skipn]; rewrite firstn_all2 by (rewrite refs_length; lia); cbn [ss_buf ss_len Nat.add]; rewrite E.
  all: branch X1; go; replace (S (S (length rest + 1))) with (S (S (S (length rest)))) by lia; replace (S (S (length rest + 2))) with (S (S (S (S (length rest))))) by lia; reflexivity.
Qed.
End Sized.
