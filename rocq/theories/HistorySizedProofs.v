(* C122_sized: histories of calls of the text of SizedSlice. *)
From Coq Require Import List Lia.
From Verif Require Import Base Types Mem SizedSlice SizedIter SpecContainers SourceNames SourceSyntax SourceMeaning SourceMemory SourceSizedSlice SpecMemory SpecHistory SpecHistorySized
  SizedSliceProofs MemoryRules MemoryCells MemorySized HistoryProofs.
Import ListNotations.

Section Sized.
Variables (A St : Type) (c : mctx A St) (cl : A -> A).
Hypothesis Cl : forall x, k_clone c x = Some (cl x).
Implicit Types (s : sslice A) (rest : list (mobj A St)) (d : list (mval A)).
Notation here s rest d := (Memory (sized_obj 1 s :: OBuf (raw (ss_buf s)) :: rest) d).
Transparent called.

(* a panic of an index leaves everything as it was *)
Lemma text_sized_index_fails s k xs rest d : shape (k_len c) xs s -> length xs <= k ->
  called c id_SizedSlice src_IndexMut_I_SizedSlice_T_N_index_mut [MRef 0; MNum k] (here s rest d) = (here s rest d, FFail PIndex).
Proof.
  intros Sh L. destruct (shape_len Sh) as (E1 & E2 & E3). pose proof (shape_slice Sh) as Sl. unfold ss_length, ss_capacity, ss_as_slice in *. 
  unfold called, sized_obj. go. rewrite slice_raw, ?Nat.add_0_l, Sl. cbn [omap obind go_on]. go. branch X1; go; reflexivity.
Qed.
Opaque called.

Lemma clones_all xs : Clones (k_clone c) xs (map cl xs).
Proof. unfold Clones. induction xs; cbn [map]; constructor; auto. Qed.

Lemma nth_after X (pre post : list X) k n : n = length pre + k -> nth_error (pre ++ post) n = nth_error post k.
Proof. intros ->. rewrite nth_error_app2 by lia. f_equal. lia. Qed.
Lemma made_at (q : list (mobj A St)) d n l s b : nth_error q n = Some (sized_obj l s) -> nth_error q l = Some b -> made (Memory q d) (MRef n) = Some (sized_obj 1 s, b).
Proof. intros H1 H2. unfold made, objs. rewrite H1. unfold sized_obj at 1. rewrite H2. reflexivity. Qed.

Lemma text_sized_step_run s xs k : shape (k_len c) xs s ->
  match list_step (k_len c) cl xs k with
  | Some (ys, x) => exists s', shape (k_len c) ys s' /\ text_sized_step c (sized_obj 1 s) (OBuf (raw (ss_buf s))) k = Some (sized_obj 1 s', OBuf (raw (ss_buf s')), x)
  | None => snd (text_sized_call c (sized_obj 1 s) (OBuf (raw (ss_buf s))) k) = FUndef UOutOfBounds
  end.
Proof.
  intro Sh. destruct (shape_len Sh) as (E1 & E2 & E3). pose proof (shape_slice Sh) as Sl. unfold ss_length, ss_capacity in *.
  destruct k as [pre data post rest d|pre data post rest d|k x rest d|rest d]; cbn [list_step].
  - pose proof (text_sized_new A St c _ pre data post rest d (or_introl eq_refl)) as T. unfold text_sized_step, text_sized_call.
    destruct (Nat.leb_spec (length data) (k_len c)) as [L|L].
    + destruct (@new_shape _ (k_clone c) _ _ _ L (clones_all data)) as (s' & N & Sh'). exists s'. split; [exact Sh'|].
      rewrite N in T. cbn [ends] in T. rewrite T. cbn [fst snd]. change (name_eqb id_Ok id_Ok) with true. cbv iota. change (within pre data post :: rest ++ ?q) with ((within pre data post :: rest) ++ q).
      rewrite (made_at _ _ _ (1 + length rest) s' (OBuf (raw (ss_buf s')))); [reflexivity|rewrite (nth_after _ _ _ 1) by (cbn [length]; lia); reflexivity|rewrite (nth_after _ _ _ 0) by (cbn [length]; lia); reflexivity].
    + exists s. split; [exact Sh|]. unfold ss_new in T. replace (k_len c <? length data) with true in T by (symmetry; apply Nat.ltb_lt; exact L).
      cbn [ends] in T. rewrite T. cbn [fst snd]. change (name_eqb id_Err id_Ok) with false. change (name_eqb id_Err id_Err) with true. cbv iota. unfold length_error_at. change (within pre data post :: rest ++ ?q) with ((within pre data post :: rest) ++ q). unfold objs.
      rewrite (nth_after _ _ _ 1) by (cbn [length]; lia). reflexivity.
  - pose proof (text_sized_copy_from_slice A St c s pre data post rest d (eq_sym E2)) as T. unfold text_sized_step, text_sized_call.
    destruct (Nat.leb_spec (length data) (k_len c)) as [L|L].
    + destruct (@copy_shape _ _ _ _ data Sh L) as (s' & N & Sh'). exists s'. split; [exact Sh'|]. rewrite N in T. cbn [ends] in T. rewrite T. reflexivity.
    + unfold ss_copy_from_slice, mem_copy in T. rewrite E2 in T. replace (length data <=? k_len c) with false in T by (symmetry; apply Nat.leb_gt; exact L). exact T.
  - unfold text_sized_step, text_sized_call. destruct (Nat.ltb_spec k (length xs)) as [L|L].
    + destruct (@set_shape _ _ _ _ _ x Sh L) as (s' & N & Sh'). exists s'. split; [exact Sh'|].
      pose proof (text_sized_index A St c _ s k rest d ltac:(lia) (or_intror eq_refl)) as T.
      unfold ss_index in T. rewrite Sl in T. cbn [obind] in T. destruct (nth_error xs k) eqn:Nt; [|apply nth_error_None in Nt; lia].
      cbn [ends] in T. rewrite T. cbn [fst snd first_two objs].
      unfold ss_index_set in N. rewrite E1 in N. replace (k <? length xs) with true in N by (symmetry; apply Nat.ltb_lt; exact L).
      unfold mem_write in N. destruct (k <? length (ss_buf s)) eqn:Lb; [|discriminate]. cbn [omap obind] in N.
      remember (firstn k (ss_buf s) ++ Some x :: skipn (Datatypes.S k) (ss_buf s)) as q eqn:Q. injection N as <-. unfold sized_obj. cbn [ss_buf ss_len].
      subst q. unfold raw. rewrite map_app. cbn [map option_map]. rewrite firstn_map, skipn_map. apply Nat.ltb_lt in Lb.
      replace (length (firstn k (ss_buf s) ++ Some x :: skipn (Datatypes.S k) (ss_buf s))) with (length (ss_buf s)); [rewrite E1; reflexivity|].
      rewrite app_length, firstn_length. cbn [length]. rewrite skipn_length. lia.
    + exists s. split; [exact Sh|]. rewrite (text_sized_index_fails _ _ _ _ _ Sh L). reflexivity.
  - destruct (@clone_shape _ (k_clone c) _ _ _ _ Sh (clones_all xs)) as (s' & N & Sh'). exists s'. split; [exact Sh'|].
    pose proof (text_sized_clone A St c s xs rest d ltac:(lia) (eq_sym E2) Sl) as T. unfold text_sized_step, text_sized_call.
    rewrite N in T. cbn [ends] in T. rewrite T. cbn [fst snd]. change (sized_obj 1 s :: ?x :: rest ++ ?q) with ((sized_obj 1 s :: x :: rest) ++ q).
    rewrite (made_at _ _ _ (2 + length rest) s' (OBuf (raw (ss_buf s')))); [reflexivity|rewrite (nth_after _ _ _ 1) by (cbn [length]; lia); reflexivity|rewrite (nth_after _ _ _ 0) by (cbn [length]; lia); reflexivity].
Qed.

Lemma text_sized_calls_run calls : forall s xs ys rs, shape (k_len c) xs s -> list_history (k_len c) cl xs calls = Some (ys, rs) ->
  exists s', shape (k_len c) ys s' /\ text_sized_calls c (sized_obj 1 s) (OBuf (raw (ss_buf s))) calls = Some (sized_obj 1 s', OBuf (raw (ss_buf s')), rs).
Proof.
  induction calls as [|k calls IH]; intros s xs ys rs Sh H; cbn [list_history text_sized_calls] in *.
  - injection H as <- <-. exists s. auto.
  - pose proof (text_sized_step_run s xs k Sh) as T. destruct (list_step _ _ _ _) as [[zs x]|]; [|discriminate].
    destruct T as (s1 & Sh1 & ->). destruct (list_history (k_len c) cl zs calls) as [[ys' rs']|] eqn:R; [|discriminate]. injection H as <- <-.
    destruct (IH s1 zs ys' rs' Sh1 R) as (s2 & Sh2 & ->). exists s2. auto.
Qed.

Lemma text_sized_run rest d calls ys rs : list_history (k_len c) cl [] calls = Some (ys, rs) ->
  exists s, shape (k_len c) ys s /\ text_sized c rest d calls = Some (sized_obj 1 s, OBuf (raw (ss_buf s)), rs).
Proof.
  intro H. assert (Sh : shape (k_len c) [] (ss_default A (k_len c))).
  { exists (uninit A (k_len c)). split; [reflexivity|]. unfold uninit. now rewrite repeat_length. }
  destruct (text_sized_calls_run calls _ _ _ _ Sh H) as (s & Sh' & T). exists s. split; [exact Sh'|].
  unfold text_sized. rewrite (text_sized_default A St c rest d). cbn [fst snd]. rewrite (made_at _ _ _ (length rest) (ss_default A (k_len c)) (OBuf (raw (ss_buf (ss_default A (k_len c)))))); [exact T|rewrite (nth_after _ _ _ 1) by lia; reflexivity|rewrite (nth_after _ _ _ 0) by lia; reflexivity].
Qed.

Lemma C122_sized_lemma rest d calls ys rs : list_history (k_len c) cl [] calls = Some (ys, rs) ->
  exists a b, text_sized c rest d calls = Some (a, b, rs) /\ length ys <= k_len c /\
  (forall rest d, let m := Memory (a :: b :: rest) d in
     called c id_SizedSlice src_impl_SizedSlice_T_N_capacity [MRef 0] m = (m, FDone (MNum (k_len c))) /\
     called c id_SizedSlice src_impl_SizedSlice_T_N_len [MRef 0] m = (m, FDone (MNum (length ys))) /\
     called c id_SizedSlice src_impl_SizedSlice_T_N_3_as_slice [MRef 0] m = (m, FDone (MSlice 1 0 (length ys))) /\
     items_at m 1 0 (length ys) = Some ys) /\
  forall k, list_step (k_len c) cl ys k = None -> snd (text_sized_call c a b k) = FUndef UOutOfBounds.
Proof.
  intro H. destruct (text_sized_run rest d calls ys rs H) as (s & Sh & T). exists (sized_obj 1 s), (OBuf (raw (ss_buf s))). split; [exact T|].
  destruct (shape_len Sh) as (E1 & E2 & E3). pose proof (shape_slice Sh) as Sl. split; [exact E3|]. split.
  - intros rest' d' m. refine (conj _ (conj _ (conj _ _))).
    + rewrite <- E2. exact (text_sized_capacity A St c s rest' d' (eq_sym E2)).
    + rewrite <- E1. exact (text_sized_len A St c s rest' d').
    + rewrite <- E1. unfold ss_length, ss_capacity in *. pose proof (text_sized_as_slice A St c _ s rest' d' ltac:(lia) (or_introl eq_refl)) as U. rewrite Sl in U. exact U.
    + unfold items_at, m. cbn [objs nth_error]. rewrite skipn_O. destruct Sh as (sp & -> & _). cbn [ss_buf]. unfold raw. rewrite map_app, List.map_map. cbn [option_map].
      rewrite firstn_app, List.map_length, Nat.sub_diag, firstn_O, app_nil_r. rewrite <- (List.map_length (fun x => Some (@MItem A x)) ys) at 1. rewrite firstn_all. apply (items_filled A).
  - intros k N. pose proof (text_sized_step_run s ys k Sh) as U. rewrite N in U. exact U.
Qed.
End Sized.
