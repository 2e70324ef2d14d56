(* C122: histories of calls of the text. *)
From Coq Require Import List Lia.
From Verif Require Import Base Streams Types Encode Decode Slot SizedSlice SizedIter Mem Spec SpecCalls SpecDecode SpecValues SpecStreams SpecContainers SourceNames SourceSyntax SourceMeaning SourceMemory SourceOutput SourceInput SourceSizedIter
  SourceSizedSlice SourceSlot SpecMemory SpecHistory StreamProofs EncodeFacts EncodeProofs SlotProofs MemoryStreams MemorySlot MemoryIter MemorySized.
Import ListNotations.
Opaque called.

(* ---- cells *)

Lemma items_filled A (xs : list A) : items (filled xs) = Some xs.
Proof. induction xs as [|x xs IH]; [reflexivity|]. cbn. unfold filled in IH. now rewrite IH. Qed.
Lemma filled_length A (xs : list A) : length (filled xs) = length xs.
Proof. apply List.map_length. Qed.
Lemma items_within A (pre post : list (option (mval A))) bs pos n : pos + n <= length bs ->
  items (firstn n (skipn (length pre + pos) (pre ++ filled bs ++ post))) = Some (firstn n (skipn pos bs)).
Proof.
  intro L. rewrite skipn_app, skipn_all2 by lia. replace (length pre + pos - length pre) with pos by lia. cbn [app].
  rewrite skipn_app, firstn_app, skipn_length, filled_length. replace (n - (length bs - pos)) with 0 by lia. rewrite firstn_O, app_nil_r.
  unfold filled. rewrite skipn_map, firstn_map. apply items_filled.
Qed.

(* ---- Output *)

Lemma text_writes_run S (c : mctx byte S) pre post calls : forall o o' rs, o_pos o <= length (o_buf o) -> (Z.of_nat (length (o_buf o)) < 2 ^ 64)%Z ->
  run_writes o (map w_data calls) = (o', rs) ->
  text_writes c (output_obj 1 (length pre) o) (within pre (o_buf o) post) calls = Some (output_obj 1 (length pre) o', within pre (o_buf o') post, rs).
Proof.
  induction calls as [|k calls IH]; intros o o' rs P L R.
  - injection R as <- <-. reflexivity.
  - cbn [map run_writes] in R. destruct (output_write o (w_data k)) as [o1 r] eqn:W. destruct (run_writes o1 (map w_data calls)) as [o2 rs'] eqn:R'.
    injection R as <- <-.
    pose proof (text_output_write S c pre o post (w_pre k) (w_data k) (w_post k) (el_rest (w_else k)) (el_dropped (w_else k)) P L) as T.
    assert (I : o_pos o1 <= length (o_buf o1) /\ length (o_buf o1) = length (o_buf o) /\ forall p, r <> Panic p).
    { unfold output_write in W. destruct (_ <? _) eqn:C; injection W as <- <-.
      - repeat split; [assumption|discriminate].
      - apply Nat.ltb_ge in C. cbn [o_buf o_pos]. rewrite !app_length, firstn_length, skipn_length. repeat split; [lia|lia|discriminate]. }
    destruct I as (P' & L' & N). rewrite <- L' in L. specialize (IH o1 o2 rs' P' L R').
    cbn [text_writes]. rewrite T, W. destruct r as [u|e|p]; [| |destruct (N p eq_refl)].
    + cbn [fst objs]. unfold result at 1. cbn [snd]. cbn. rewrite IH. destruct u. reflexivity.
    + cbn [fst objs]. unfold result at 1. cbn [snd fst objs name_eqb].
      replace (nth_error _ (3 + length (el_rest (w_else k)))) with (Some (error_obj (A := byte) (S := S) id_OutputError e)).
      2:{ cbn [nth_error Nat.add]. rewrite nth_error_app2, Nat.sub_diag by reflexivity. reflexivity. }
      cbn. rewrite IH. destruct e. reflexivity.
Qed.

Lemma run_writes_verdicts ds : forall o o' rs, o_pos o <= length (o_buf o) -> run_writes o ds = (o', rs) ->
  rs = verdicts (length (o_buf o)) (o_pos o) ds.
Proof.
  induction ds as [|d ds IH]; intros o o' rs P R; cbn [run_writes] in R.
  - injection R as <- <-. reflexivity.
  - destruct (output_write o d) as [o1 r] eqn:W. destruct (run_writes o1 ds) as [o2 rs'] eqn:R'. injection R as <- <-.
    unfold output_write in W. cbn [verdicts]. destruct (length (o_buf o) - o_pos o <? length d) eqn:C; injection W as <- <-.
    + apply Nat.ltb_lt in C. destruct (o_pos o + length d <=? length (o_buf o)) eqn:D; [apply Nat.leb_le in D; lia|].
      f_equal. eapply IH; eassumption.
    + apply Nat.ltb_ge in C. destruct (o_pos o + length d <=? length (o_buf o)) eqn:D; [|apply Nat.leb_gt in D; lia].
      f_equal. assert (L : length (firstn (o_pos o) (o_buf o) ++ d ++ skipn (o_pos o + length d) (o_buf o)) = length (o_buf o))
        by (rewrite !app_length, firstn_length, skipn_length; lia).
      apply IH in R'; cbn [o_buf o_pos] in *; rewrite L in *; [exact R'|lia].
Qed.

Lemma C122_output_lemma S (c : mctx byte S) pre bs post e calls : (Z.of_nat (length bs) < 2 ^ 64)%Z ->
  let ds := map w_data calls in
  let n := length (kept (length bs) ds) in
  exists a, let b := within pre (kept (length bs) ds ++ skipn n bs) post in
    text_output c pre bs post e calls = Some (a, b, verdicts (length bs) 0 ds) /\ n <= length bs /\
    forall rest d, let m := Memory (a :: b :: rest) d in
      called c id_Output src_impl_Output_position [MRef 0] m = (m, FDone (MNum n)) /\
      called c id_Output src_impl_Output_capacity [MRef 0] m = (m, FDone (MNum (length bs))) /\
      called c id_Output src_impl_Output_remaining [MRef 0] m = (m, FDone (MNum (length bs - n))) /\
      called c id_Output src_impl_Output_as_slice [MRef 0] m = (m, FDone (MSlice 1 (length pre) n)) /\
      items_at m 1 (length pre) n = Some (kept (length bs) ds).
Proof.
  intros L ds n. subst n. destruct (run_writes (output_new bs) ds) as [o rs] eqn:R.
  assert (V : rs = verdicts (length bs) 0 ds) by (apply (run_writes_verdicts ds (output_new bs) o rs); [cbn; lia|assumption]).
  destruct (output_history _ _ R) as (_ & A & P & C & LE & Re & K). unfold kept. fold ds. rewrite <- V.
  set (n := length (concat (accepted ds rs))) in *.
  unfold output_position, output_capacity in *.
  exists (output_obj 1 (length pre) o). cbv zeta.
  assert (B : o_buf o = concat (accepted ds rs) ++ skipn n bs).
  { rewrite <- (firstn_skipn (o_pos o) (o_buf o)). f_equal; [exact A|]. now rewrite K, P. }
  split; [|split; [lia|]].
  - unfold text_output. rewrite (text_output_new S c pre bs post (el_rest e) (el_dropped e)). unfold returned. cbn [fst snd objs].
    replace (nth_error _ (1 + length (el_rest e))) with (Some (output_obj (S := S) 0 (length pre) (output_new bs))).
    2:{ cbn [nth_error Nat.add]. rewrite nth_error_app2, Nat.sub_diag by reflexivity. reflexivity. }
    change (moved (fun l => 1 + l) (output_obj 0 (length pre) (output_new bs))) with (output_obj (S := S) 1 (length pre) (output_new bs)).
    change (within pre bs post) with (within (S := S) pre (o_buf (output_new bs)) post).
    rewrite (text_writes_run S c pre post calls (output_new bs) o rs); [|cbn; lia|assumption|assumption]. now rewrite B.
  - intros rest d. rewrite <- B. rewrite <- C in *. rewrite <- P. refine (conj _ (conj _ (conj _ (conj _ _)))).
    + exact (text_output_position S c 1 (length pre) o _ d).
    + exact (text_output_capacity S c 1 (length pre) o _ d).
    + rewrite (text_output_remaining S c 1 (length pre) o _ d) by lia. unfold output_remaining, output_capacity, output_position. reflexivity.
    + rewrite (text_output_as_slice S c pre o post rest d) by lia. rewrite A. fold n. now rewrite P.
    + unfold items_at, within. cbn [objs nth_error]. rewrite <- (Nat.add_0_r (length pre)). rewrite items_within by lia. rewrite skipn_O. f_equal. exact A.
Qed.

(* ---- Input *)

Lemma text_reads_served S (c : mctx byte S) pre bs post calls : forall pos, pos <= length bs -> (Z.of_nat (length bs) < 2 ^ 64)%Z ->
  text_reads c (input_obj 1 (length pre) (Input bs pos)) (within pre bs post) calls =
  Some (input_obj 1 (length pre) (Input bs (snd (served bs pos calls))), within pre bs post, fst (served bs pos calls)) /\ snd (served bs pos calls) <= length bs.
Proof.
  induction calls as [|k calls IH]; intros pos P L; [split; [reflexivity|assumption]|].
  cbn [served text_reads].
  destruct k as [n e|pre' dst post' e]; cbn [text_read].
  - pose proof (text_input_read S c pre (Input bs pos) post n (el_rest e) (el_dropped e) P L) as T. cbn [i_buf i_pos] in T.
    unfold input_read in T. cbn [i_buf i_pos] in T. rewrite T. clear T.
    destruct (length bs - pos <? n) eqn:C.
    + apply Nat.ltb_lt in C. replace (pos + n <=? length bs) with false by (symmetry; apply Nat.leb_gt; lia).
      cbn [fst objs]. unfold result. cbn [snd fst objs name_eqb].
      replace (nth_error _ (2 + length (el_rest e))) with (Some (error_obj (A := byte) (S := S) id_InputError (StreamError (length bs) pos n))).
      2:{ cbn [nth_error Nat.add]. rewrite nth_error_app2, Nat.sub_diag by reflexivity. reflexivity. }
      cbn -[text_reads served]. destruct (IH pos P L) as [E Q]. rewrite E. destruct (served bs pos calls) as [xs p]. split; [reflexivity|assumption].
    + apply Nat.ltb_ge in C. replace (pos + n <=? length bs) with true by (symmetry; apply Nat.leb_le; lia).
      cbn [fst objs]. unfold result. cbn [snd fst objs name_eqb].
      destruct (IH (pos + n) ltac:(lia) L) as [E Q].
      replace (items_at _ 1 _ _) with (Some (firstn n (skipn pos bs))).
      2:{ unfold items_at. cbn [objs nth_error within i_buf]. rewrite firstn_length, skipn_length. replace (Nat.min n (length bs - pos)) with n by lia.
          rewrite app_length, filled_length, firstn_length. replace (Nat.min pos (length bs)) with pos by lia. symmetry. apply items_within. lia. }
      cbn -[text_reads served firstn skipn]. rewrite E. destruct (served bs (pos + n) calls) as [xs p]. split; [reflexivity|assumption].
  - pose proof (text_input_read_into S c pre (Input bs pos) post pre' dst post' (el_rest e) (el_dropped e) P L) as T. cbn [i_buf i_pos] in T.
    unfold input_read_into in T. cbn [i_buf i_pos] in T. rewrite T. clear T.
    destruct (length bs - pos <? length dst) eqn:C.
    + apply Nat.ltb_lt in C. replace (pos + length dst <=? length bs) with false by (symmetry; apply Nat.leb_gt; lia).
      cbn [fst objs]. unfold result. cbn [snd fst objs name_eqb].
      replace (items_at _ 2 _ _) with (Some dst).
      2:{ unfold items_at. cbn [objs nth_error within]. symmetry. replace (length pre') with (length pre' + 0) by lia. rewrite items_within by lia.
          now rewrite skipn_O, firstn_all. }
      replace (nth_error _ (3 + length (el_rest e))) with (Some (error_obj (A := byte) (S := S) id_InputError (StreamError (length bs) pos (length dst)))).
      2:{ cbn [nth_error Nat.add]. rewrite nth_error_app2, Nat.sub_diag by reflexivity. reflexivity. }
      cbn -[text_reads served]. destruct (IH pos P L) as [E Q]. rewrite E. destruct (served bs pos calls) as [xs p]. split; [reflexivity|assumption].
    + apply Nat.ltb_ge in C. replace (pos + length dst <=? length bs) with true by (symmetry; apply Nat.leb_le; lia).
      cbn [fst objs]. unfold result. cbn [snd fst objs name_eqb].
      destruct (IH (pos + length dst) ltac:(lia) L) as [E Q].
      set (piece := firstn (length dst) (skipn pos bs)). assert (W : length piece = length dst) by (unfold piece; rewrite firstn_length, skipn_length; lia).
      replace (items_at _ 2 _ _) with (Some piece).
      2:{ unfold items_at. cbn [objs nth_error within]. symmetry. replace (length pre') with (length pre' + 0) by lia. rewrite <- W. rewrite items_within by lia.
          now rewrite skipn_O, firstn_all. }
      cbn -[text_reads served firstn skipn]. rewrite E. destruct (served bs (pos + length dst) calls) as [xs p]. split; [reflexivity|assumption].
Qed.

Lemma C122_input_lemma S (c : mctx byte S) pre bs post e calls : (Z.of_nat (length bs) < 2 ^ 64)%Z ->
  let b := within pre bs post in
  let n := snd (served bs 0 calls) in
  exists a,
    text_input c pre bs post e calls = Some (a, b, fst (served bs 0 calls)) /\ n <= length bs /\
    forall rest d, let m := Memory (a :: b :: rest) d in
      called c id_Input src_impl_Input_position [MRef 0] m = (m, FDone (MNum n)) /\
      called c id_Input src_impl_Input_capacity [MRef 0] m = (m, FDone (MNum (length bs))) /\
      called c id_Input src_impl_Input_remaining [MRef 0] m = (m, FDone (MNum (length bs - n))).
Proof.
  intros L b n. destruct (text_reads_served S c pre bs post calls 0 (Nat.le_0_l _) L) as [E Q]. fold n in E, Q.
  exists (input_obj 1 (length pre) (Input bs n)). split; [|split; [exact Q|]].
  - unfold text_input. rewrite (text_input_new S c pre bs post (el_rest e) (el_dropped e)). unfold returned. cbn [fst snd objs].
    replace (nth_error _ (1 + length (el_rest e))) with (Some (input_obj (S := S) 0 (length pre) (input_new bs))).
    2:{ cbn [nth_error Nat.add]. rewrite nth_error_app2, Nat.sub_diag by reflexivity. reflexivity. }
    exact E.
  - intros rest d. refine (conj _ (conj _ _)).
    + exact (text_input_position S c 1 (length pre) (Input bs n) _ d).
    + exact (text_input_capacity S c 1 (length pre) (Input bs n) _ d).
    + rewrite (text_input_remaining S c 1 (length pre) (Input bs n) _ d Q). reflexivity.
Qed.

(* ---- SizedIter *)

Lemma text_steps_deque A S (c : mctx A S) calls : forall l xs r, (Z.of_nat (length (l ++ map Some xs ++ r)) < 2 ^ 64)%Z ->
  let buf := l ++ map Some xs ++ r in
  let '(rs, remain) := deque (map (fun k => fst (fst k)) calls) xs in
  exists l' r', l' ++ map Some remain ++ r' = buf /\
  text_steps c (iter_obj 1 (SIter buf (length l) (length xs))) (OBuf (raw buf)) calls =
  Some (iter_obj 1 (SIter buf (length l') (length remain)), OBuf (raw buf), combine rs (map snd calls)).
Proof.
  induction calls as [|[[k rest] d] calls IH]; intros l xs r L buf.
  - cbn. exists l, r. split; reflexivity.
  - cbn [map fst snd deque text_steps].
    assert (P : it_pos (SIter buf (length l) (length xs)) + it_len (SIter buf (length l) (length xs)) <= length (it_buf (SIter buf (length l) (length xs)))).
    { cbn. unfold buf. rewrite !app_length, List.map_length. lia. }
    destruct k.
    + pose proof (text_iter_next A S c (SIter buf (length l) (length xs)) rest d P L) as T. cbn [it_buf] in T. unfold it_next in T. cbn [it_len it_pos it_buf] in T.
      destruct xs as [|x xs].
      * cbn [length Nat.eqb ends it_buf] in T. cbn [length]. rewrite T. cbn [fst snd objs dropped option_val name_eqb].
        specialize (IH l [] r L). cbn zeta in IH. fold buf in IH. destruct (deque _ []) as [rs remain]. destruct IH as (l' & r' & E & IH).
        exists l', r'. split; [exact E|]. change (name_eqb id_None id_None) with true. cbn iota. cbn [length] in IH. rewrite IH. reflexivity.
      * cbn [length Nat.eqb] in T. unfold mem_read in T.
        assert (N : nth_error buf (length l) = Some (Some x)) by (unfold buf; rewrite nth_error_app2, Nat.sub_diag by reflexivity; reflexivity).
        rewrite N in T. cbn [omap obind ends it_buf] in T. cbn [length]. rewrite T. cbn [fst snd objs dropped option_val].
        assert (B : (l ++ [Some x]) ++ map Some xs ++ r = buf) by (unfold buf; rewrite <- app_assoc; reflexivity).
        specialize (IH (l ++ [Some x]) xs r). rewrite B in IH. specialize (IH L). cbn zeta in IH.
        destruct (deque _ xs) as [rs remain]. destruct IH as (l' & r' & E & IH).
        exists l', r'. split; [exact E|]. change (name_eqb id_Some id_Some) with true. cbn iota.
        rewrite app_length in IH. cbn [length] in IH. replace (Datatypes.S (length xs) - 1) with (length xs) by lia. rewrite IH. reflexivity.
    + pose proof (text_iter_next_back A S c (SIter buf (length l) (length xs)) rest d P L) as T. cbn [it_buf] in T. unfold it_next_back in T. cbn [it_len it_pos it_buf] in T.
      destruct (rev xs) as [|x ys] eqn:R.
      * apply (f_equal (@rev A)) in R. rewrite rev_involutive in R. cbn in R. subst xs.
        cbn [length Nat.eqb ends it_buf] in T. cbn [length]. rewrite T. cbn [fst snd objs dropped option_val name_eqb].
        specialize (IH l [] r L). cbn zeta in IH. fold buf in IH. destruct (deque _ []) as [rs remain]. destruct IH as (l' & r' & E & IH).
        exists l', r'. split; [exact E|]. change (name_eqb id_None id_None) with true. cbn iota. cbn [length] in IH. rewrite IH. reflexivity.
      * apply (f_equal (@rev A)) in R. rewrite rev_involutive in R. cbn [rev] in R. set (zs := rev ys) in *. clearbody zs.
        assert (M : length xs = length zs + 1) by (rewrite R, app_length; reflexivity).
        replace (length xs =? 0) with false in T by (symmetry; apply Nat.eqb_neq; lia). unfold mem_read in T.
        assert (B : l ++ map Some zs ++ Some x :: r = buf) by (unfold buf; rewrite R, map_app, <- app_assoc; reflexivity).
        assert (N : nth_error buf (length l + length xs - 1) = Some (Some x)).
        { rewrite <- B, app_assoc. replace (length l + length xs - 1) with (length (l ++ map Some zs)) by (rewrite app_length, List.map_length; lia).
          rewrite nth_error_app2, Nat.sub_diag by reflexivity. reflexivity. }
        rewrite N in T. cbn [omap obind ends it_buf] in T. cbn [length]. rewrite T. cbn [fst snd objs dropped option_val].
        specialize (IH l zs (Some x :: r)). rewrite B in IH. specialize (IH L). cbn zeta in IH.
        destruct (deque _ zs) as [rs remain]. destruct IH as (l' & r' & E & IH).
        exists l', r'. split; [exact E|]. change (name_eqb id_Some id_Some) with true. cbn iota.
        replace (length xs - 1) with (length zs) by lia. rewrite IH. reflexivity.
Qed.

Lemma C122_iter_lemma A S (c : mctx A S) xs spare rest d calls : k_len c = length (map Some xs ++ spare) -> (Z.of_nat (k_len c) < 2 ^ 64)%Z ->
  exists a b, text_iterated c xs spare rest d calls = Some (a, b, combine (fst (deque (map (fun k => fst (fst k)) calls) xs)) (map snd calls)) /\
    forall rest d, let m := Memory (a :: b :: rest) d in
      exists off n, called c id_SizedIter src_impl_SizedIter_T_N_as_slice [MRef 0] m = (m, FDone (MSlice 1 off n)) /\
        items_at m 1 off n = Some (snd (deque (map (fun k => fst (fst k)) calls) xs)).
Proof.
  intros K L. rewrite K in L.
  pose proof (text_steps_deque A S c calls [] xs spare L) as T. cbn [app length] in T.
  destruct (deque _ xs) as [rs remain]. destruct T as (l' & r' & E & T). cbn [fst snd].
  set (buf := map Some xs ++ spare) in *.
  exists (iter_obj 1 (SIter buf (length l') (length remain))), (OBuf (raw buf)). split.
  - unfold text_iterated. fold buf.
    pose proof (text_sized_into_iter A S c (SSlice buf (length xs)) rest d) as I. cbn [ss_buf ss_len] in I.
    specialize (I ltac:(unfold buf; rewrite app_length, List.map_length; lia) K).
    unfold sized_obj in I. cbn [ss_buf ss_len] in I. rewrite I. unfold returned. cbn [fst snd objs].
    replace (nth_error _ (2 + length rest)) with (Some (iter_obj (S := S) 1 (ss_into_iter (SSlice buf (length xs))))).
    2:{ cbn [nth_error Nat.add]. rewrite nth_error_app2, Nat.sub_diag by reflexivity. reflexivity. }
    exact T.
  - intros rest' d'. exists (length l'), (length remain).
    assert (LE : length l' + length remain <= length buf) by (rewrite <- E, !app_length, List.map_length; lia).
    pose proof (text_iter_as_slice A S c src_impl_SizedIter_T_N_as_slice (SIter buf (length l') (length remain)) rest' d' LE (or_introl eq_refl)) as T'.
    cbn [it_buf it_pos it_len] in T'. unfold it_as_slice in T'. cbn [it_buf it_pos it_len] in T'.
    assert (M : mem_slice buf (length l') (length remain) = Done remain).
    { rewrite <- E. clear. revert l' r'. induction remain as [|x remain IH]; intros l' r'; [reflexivity|]. cbn [length mem_slice map app].
      unfold mem_read. rewrite nth_error_app2, Nat.sub_diag by reflexivity. cbn [nth_error obind].
      specialize (IH (l' ++ [Some x]) r'). rewrite <- app_assoc in IH. cbn [app] in IH. rewrite app_length in IH. cbn [length] in IH. rewrite Nat.add_1_r in IH.
      rewrite IH. reflexivity. }
    rewrite M in T'. cbn [ends] in T'. split; [exact T'|].
    unfold items_at. cbn [objs nth_error]. rewrite <- E. unfold raw. rewrite !map_app, map_map.
    rewrite skipn_app, skipn_all2 by (rewrite List.map_length; lia). rewrite List.map_length, Nat.sub_diag, skipn_O. cbn [app].
    rewrite firstn_app, List.map_length, Nat.sub_diag, firstn_O, app_nil_r.
    rewrite firstn_all2 by (rewrite List.map_length; lia). cbn [option_map]. apply (items_filled A remain).
Qed.

(* ---- Slot *)

(* what the model does for a call *)
Definition op_of {S} (k : slot_call S) : slot_op :=
  match k with SlotWrite v _ => SWrite v | SlotCopy _ data _ _ => SCopy data | SlotSetLen n _ => SSetLen n | SlotSet k x _ => SSet k x end.

Lemma text_slot_calls_run S (c : mctx byte S) t calls : encodes c t -> forall s,
  let '(s', rs) := slot_run (k_checks c) t s (map op_of calls) in
  text_slot_calls c (slot_obj 1 s) (OBuf (filled (s_buf s))) calls = Some (slot_obj 1 s', OBuf (filled (s_buf s')), rs).
Proof.
  intro En. induction calls as [|k calls IH]; intro s; [reflexivity|]. cbn [map slot_run text_slot_calls].
  destruct (slot_step (k_checks c) t s (op_of k)) as [s1 r] eqn:E. specialize (IH s1).
  destruct (slot_run (k_checks c) t s1 (map op_of calls)) as [s2 rs].
  destruct k as [v e|pre data post e|n e|k x e]; cbn [op_of slot_step text_slot_call] in *.
  - rewrite (text_slot_write S c t s v _ _ En). cbv zeta. rewrite E. destruct r as [[]|e'|p]; unfold ended; cbn [fst snd objs]; rewrite ?name_eqb_refl; rewrite IH; reflexivity.
  - rewrite (text_slot_copy_from_slice S c s pre data post _ _). rewrite E. destruct r as [[]|e'|p]; unfold ended; cbn [fst snd objs]; try (rewrite IH; reflexivity).
    unfold slot_copy_from_slice in E. destruct (_ <=? _); discriminate.
  - rewrite (text_slot_set_len S c s n _ _). rewrite E. destruct r as [[]|e'|p]; unfold ended; cbn [fst snd objs]; try (rewrite IH; reflexivity).
    unfold slot_set_len in E. destruct (_ <=? _); discriminate.
  - rewrite (text_slot_index_mut S c s k x _ _). rewrite E. unfold slot_index_set in E. remember (firstn k (s_buf s) ++ x :: skipn (Datatypes.S k) (s_buf s)) as q eqn:Q. destruct (k <? length (s_buf s)) eqn:L; injection E as <- <-.
    + unfold ended, stored. cbn [fst snd objs s_buf] in *. unfold slot_obj in *. cbn [s_buf s_len] in *.
      replace (filled q) with (firstn k (filled (s_buf s)) ++ Some (MItem x) :: skipn (Datatypes.S k) (filled (s_buf s))) in IH.
      2:{ subst q. unfold filled. rewrite map_app. cbn [map]. now rewrite firstn_map, skipn_map. }
      replace (length q) with (length (s_buf s)) in IH.
      2:{ subst q. apply Nat.ltb_lt in L. rewrite app_length, firstn_length. cbn [length]. rewrite skipn_length. lia. }
      rewrite IH. reflexivity.
    + unfold ended, stored. cbn [fst snd objs]. rewrite IH. reflexivity.
Qed.

Lemma slot_run_app checks t ops ops' s : slot_run checks t s (ops ++ ops') =
  let (s1, rs) := slot_run checks t s ops in let (s2, rs') := slot_run checks t s1 ops' in (s2, rs ++ rs').
Proof.
  revert s. induction ops as [|op ops IH]; intro s; cbn [app slot_run].
  - destruct (slot_run checks t s ops') as [s2 rs']. reflexivity.
  - destruct (slot_step checks t s op) as [s1 r]. rewrite IH. destruct (slot_run checks t s1 ops) as [s2 rs]. destruct (slot_run checks t s2 ops'). reflexivity.
Qed.

Lemma C122_slot_lemma S (c : mctx byte S) t cap e calls : k_lit c 0 = x00 -> encodes c t -> decodes c t ->
  exists a b rs, text_slot c cap e calls = Some (a, b, rs) /\ length rs = length calls /\
  (forall rest d, let m := Memory (a :: b :: rest) d in exists n, n <= cap /\
     called c id_Slot src_impl_Slot_T_capacity [MRef 0] m = (m, FDone (MNum cap)) /\
     called c id_Slot src_impl_Slot_T_len [MRef 0] m = (m, FDone (MNum n))) /\
  forall v bs e', Appends (encode (k_checks c) t v) bs (Ok tt) ->
    exists a' b' x, text_slot c cap e (calls ++ [SlotWrite v e']) = Some (a', b', rs ++ [x]) /\ (x = Ok tt <-> length bs <= cap) /\
    (x = Ok tt -> forall rest d, let m := Memory (a' :: b' :: rest) d in
       called c id_Slot src_impl_Slot_T_len [MRef 0] m = (m, FDone (MNum (length bs))) /\
       called c id_Slot src_impl_Slot_T_as_slice [MRef 0] m = (m, FDone (MSlice 1 0 (length bs))) /\
       items_at m 1 0 (length bs) = Some bs /\
       (wt t v -> RoundTrips t v -> lossless v = true ->
        exists m' v', called c id_Slot src_impl_Slot_T_3_read [MRef 0] m = (m', FDone (MCon id_Ok [MVal v'])) /\ erase v' = erase v)).
Proof.
  intros Z En De.
  assert (T : forall calls, let '(s', rs) := slot_run (k_checks c) t (slot_with_capacity cap) (map op_of calls) in
    text_slot c cap e calls = Some (slot_obj 1 s', OBuf (filled (s_buf s')), rs)).
  { intro cs. pose proof (text_slot_calls_run S c t cs En (slot_with_capacity cap)) as H. destruct (slot_run _ _ _ _) as [s' rs].
    unfold text_slot. rewrite (text_slot_with_capacity S c cap (el_rest e) (el_dropped e) Z). unfold returned. cbn [fst snd objs].
    rewrite nth_error_app2, Nat.sub_diag by reflexivity. cbn [nth_error].
    rewrite nth_error_app2 by lia. replace (length (el_rest e) + 1 - length (el_rest e)) with 1 by lia. cbn [nth_error].
    replace (moved _ _) with (slot_obj (S := S) 1 (slot_with_capacity cap)); [exact H|].
    unfold moved, slot_obj. cbn [map fst snd moved_val]. rewrite Nat.sub_diag. reflexivity. }
  pose proof (T calls) as T1. destruct (slot_run (k_checks c) t (slot_with_capacity cap) (map op_of calls)) as [s rs] eqn:R.
  destruct (C43_lemma _ _ _ _ R) as (Lr & Ln & Cp & _). rewrite List.map_length in Lr.
  exists (slot_obj 1 s), (OBuf (filled (s_buf s))), rs. split; [exact T1|]. split; [exact Lr|]. split.
  - intros rest d m. exists (slot_length s). split; [lia|]. split.
    + unfold m. rewrite <- Cp. exact (text_slot_capacity S c s rest d).
    + exact (text_slot_len S c s rest d).
  - intros v bs e' Ap. pose proof (T (calls ++ [SlotWrite v e'])) as T2. rewrite map_app, slot_run_app, R in T2. cbn [map op_of slot_run slot_step] in T2.
    destruct (slot_write (k_checks c) t s v) as [s2 r] eqn:W.
    exists (slot_obj 1 s2), (OBuf (filled (s_buf s2))), r. split; [exact T2|].
    assert (I : r = Ok tt <-> length bs <= cap).
    { rewrite <- Cp, <- (@C44_succeeds_lemma (k_checks c) t s v bs Ap). split.
      - intros ->. exists s2. split; [exact W|]. destruct (C44_write_lemma W) as [Ap' _]. exact (proj1 (@appends_unique _ _ _ _ _ (encode_has_trace (k_checks c) t v) Ap' Ap)).
      - intros (s'' & W' & _). rewrite W in W'. now injection W'. }
    split; [exact I|]. intros Rk rest d m. subst r.
    destruct (proj2 (@C44_succeeds_lemma (k_checks c) t s v bs Ap)) as (s'' & W' & As); [rewrite Cp; apply I; reflexivity|]. rewrite W in W'. injection W' as <-.
    assert (L2 : s_len s2 <= length (s_buf s2)).
    { pose proof (T (calls ++ [SlotWrite v e'])) as _. destruct (slot_run (k_checks c) t (slot_with_capacity cap) (map op_of (calls ++ [SlotWrite v e']))) as [s3 r3] eqn:R3.
      destruct (C43_lemma _ _ _ _ R3) as (_ & L3 & _). rewrite map_app, slot_run_app, R in R3. cbn [map op_of slot_run slot_step] in R3. rewrite W in R3.
      injection R3 as <- _. exact L3. }
    assert (Lb : s_len s2 = length bs) by (rewrite <- As; unfold slot_as_slice; rewrite firstn_length; lia).
    refine (conj _ (conj _ (conj _ _))).
    + rewrite <- Lb. exact (text_slot_len S c s2 rest d).
    + rewrite <- As at 1. exact (text_slot_as_slice S c _ s2 rest d L2 (or_introl eq_refl)).
    + unfold items_at, m. cbn [objs nth_error]. rewrite skipn_O, <- As. unfold filled. rewrite firstn_map. unfold slot_as_slice. rewrite firstn_length, Nat.min_l by lia.
      apply (items_filled byte).
    + intros Wt Rt Ls. destruct (@C44_read_equal_lemma _ _ _ _ _ Wt Rt Ls W) as (v' & Rd & Er).
      unfold m. eexists. exists v'. split; [|exact Er]. pose proof (text_slot_read S c t s2 rest d De) as Tr. cbv zeta in Tr. rewrite Rd in Tr. exact Tr.
Qed.
