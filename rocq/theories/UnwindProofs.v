(* Proofs of C107. *)
From Coq Require Import Lia Permutation.
From Verif Require Import Base Streams Types Decode Mem SizedSlice SizedIter Owned SpecContainers SizedSliceProofs SizedIterProofs Unwind SpecUnwind.

(* ---- without panics these are the loops of the model *)
Lemma clone_into_same {A} (cl : A -> option A) data : forall k buf, snd (clone_into_log (fun _ => cl) k buf data) = clone_into cl buf data.
Proof.
  induction data as [|x data IH]; intros k [|c buf]; cbn [clone_into_log clone_into]; try reflexivity. destruct (cl x) as [y|]; [|reflexivity].
  specialize (IH (S k) buf). destruct (clone_into_log _ (S k) buf data) as (m & r). cbn [snd] in *. rewrite IH. reflexivity.
Qed.

Lemma clone_loop_same {A} (cl : A -> option A) src n : forall c dst i, snd (clone_loop_log (fun _ => cl) c src dst i n) = clone_loop cl src dst i n.
Proof.
  induction n as [|n IH]; intros c dst i; cbn [clone_loop_log clone_loop]; [reflexivity|]. destruct (mem_read src i) as [x| |]; cbn [obind]; try reflexivity.
  destruct (cl x) as [y|]; [|reflexivity]. destruct (mem_write dst i y) as [dst'| |]; cbn [obind]; try reflexivity.
  specialize (IH (S c) dst' (S i)). destruct (clone_loop_log _ (S c) src dst' (S i) n). exact IH.
Qed.

Lemma fill_same {A} (next : nat -> answer A) n : forall k, (forall k, next k <> Unwinds) ->
  snd (fill_log next k n) = Done (fst (fill (fun k => (match next k with Gives x => Some x | _ => None end, S k)) n k)).
Proof.
  induction n as [|n IH]; intros k Hk; cbn [fill_log fill]; [reflexivity|]. pose proof (Hk k) as Hne. destruct (next k) as [x| |]; [| reflexivity | congruence].
  specialize (IH (S k) Hk). destruct (fill_log next (S k) n) as (m & r). cbn [snd] in *. rewrite IH.
  destruct (fill _ n (S k)) as [[buf len] st]. reflexivity.
Qed.

Lemma dec_cells_same {A} (f : D A) buf : forall k inp, snd (dec_cells_log f buf k inp) = dec_cells f buf k inp.
Proof.
  induction buf as [|c buf IH]; intros k inp; cbn [dec_cells_log dec_cells]; [reflexivity|]. unfold dbind, dmap_err, dmap.
  destruct (f inp) as [inp' [x|e|p]]; try reflexivity. specialize (IH (S k) inp'). destruct (dec_cells_log f buf (S k) inp') as (m & inp2 & r).
  cbn [snd] in *. unfold dbind. rewrite <- IH. destruct r; reflexivity.
Qed.

Lemma ss_decode_same {A} (f : D A) n inp : snd (ss_decode_log f n inp) = ss_decode f n inp.
Proof.
  unfold ss_decode_log, ss_decode, dbind. destruct (dec_usize inp) as [inp' [len|e|p]]; try reflexivity. destruct (n <? Z.to_nat len); [reflexivity|].
  pose proof (dec_cells_same f (uninit A n) 0 inp') as H. destruct (dec_cells_log f (uninit A n) 0 inp') as (m & inp2 & r). cbn [snd] in *.
  unfold dmap, dbind. rewrite <- H. destruct r; reflexivity.
Qed.

Lemma drop_loop_all {A} (items : list A) : forall k, drop_loop (fun _ _ => false) k items = (items, true).
Proof. induction items as [|x items IH]; intros k; cbn [drop_loop]; [reflexivity|]. rewrite IH. reflexivity. Qed.

Lemma it_nth_same {A} checks (i : siter A) k :
  it_nth_log checks (fun _ _ => false) i k = match it_nth checks i k with Done (r, d, i') => Done (d, Some r, i') | Panics _ => Done ([], None, i) | Undefined u => Undefined u end.
Proof.
  unfold it_nth_log, it_nth. destruct (it_len i <? k); [reflexivity|]. destruct (it_pos i + k =? 0); [destruct checks; reflexivity|].
  destruct (it_pos i + k - 1 <? it_pos i); [reflexivity|]. destruct (length (it_buf i) <? it_pos i + k - 1); [reflexivity|].
  assert (Hs : forall start n, match mem_slice (it_buf i) start n with Panics _ => False | _ => True end).
  { intros start n. revert start. induction n as [|n IH]; intros start; cbn [mem_slice]; [exact I|]. unfold mem_read at 1.
    destruct (nth_error (it_buf i) start) as [[x|]|]; cbn [obind]; try exact I. specialize (IH (S start)). destruct (mem_slice (it_buf i) (S start) n); cbn; auto. }
  specialize (Hs (it_pos i) (it_pos i + k - 1 - it_pos i)).
  destruct (mem_slice (it_buf i) (it_pos i) (it_pos i + k - 1 - it_pos i)) as [d| |]; cbn [obind]; [| contradiction | reflexivity].
  rewrite drop_loop_all. unfold mem_read. destruct (nth_error (it_buf i) k) as [[x|]|]; reflexivity.
Qed.

(* ---- what the loops make is what they put into the buffer *)
Lemma clone_into_log_spec {A} (cl : nat -> A -> option A) data : forall k n m r, length data <= n -> clone_into_log cl k (uninit A n) data = (m, r) ->
  match r with
  | Done buf => shape n m (SSlice buf (length data))
  | Panics p => p = PUser
  | Undefined _ => False
  end.
Proof.
  induction data as [|x data IH]; intros k n m r Hn H.
  - destruct n; cbn in H; injection H as <- <-; [exists []; auto | exists (uninit A (S n)); split; [reflexivity | cbn; rewrite repeat_length; lia]].
  - destruct n as [|n]; [cbn in Hn; lia|]. cbn [uninit repeat clone_into_log] in H. destruct (cl k x) as [y|]; [|injection H as <- <-; reflexivity].
    destruct (clone_into_log cl (S k) (repeat None n) data) as (m' & r') eqn:E. injection H as <- <-. cbn [length] in Hn.
    specialize (IH (S k) n m' r' ltac:(lia) E). destruct r' as [buf| |]; cbn [omap obind]; [|exact IH|exact IH].
    destruct IH as (rest & Hb & Hl). injection Hb as -> Hd. exists rest. cbn [length map app]. rewrite Hd. split; [reflexivity | lia].
Qed.

Lemma fill_log_spec {A} (next : nat -> answer A) n : forall k m r, fill_log next k n = (m, r) ->
  match r with
  | Done (buf, len) => shape n m (SSlice buf len)
  | Panics p => p = PUser
  | Undefined _ => False
  end.
Proof.
  induction n as [|n IH]; intros k m r H; cbn [fill_log] in H.
  - injection H as <- <-. exists []. auto.
  - destruct (next k) as [x| |]; [| injection H as <- <-; exists (uninit A (S n)); split; [reflexivity | cbn; rewrite repeat_length; lia] | injection H as <- <-; reflexivity].
    destruct (fill_log next (S k) n) as (m' & r') eqn:E. injection H as <- <-. specialize (IH (S k) m' r' E).
    destruct r' as [[buf len]| |]; cbn [omap obind]; [|exact IH|exact IH]. destruct IH as (rest & Hb & Hl). injection Hb as -> ->.
    exists rest. cbn [length map app]. split; [reflexivity | lia].
Qed.

Lemma dec_cells_log_spec {A} (f : D A) n : forall k inp m inp' r, dec_cells_log f (uninit A n) k inp = (m, (inp', r)) ->
  match r with Ok cells => cells = map Some m /\ length m = n | _ => True end.
Proof.
  induction n as [|n IH]; intros k inp m inp' r H; cbn [uninit repeat dec_cells_log] in H.
  - injection H as <- <- <-. auto.
  - destruct (f inp) as [inp1 [x|e|p]]; [|injection H as <- <- <-; exact I|injection H as <- <- <-; exact I].
    destruct (dec_cells_log f (repeat None n) (S k) inp1) as (m' & inp2 & r') eqn:E. injection H as <- <- <-. specialize (IH _ _ _ _ _ E).
    destruct r'; try exact I. destruct IH as (-> & Hl). cbn. auto.
Qed.

Lemma ss_decode_log_spec {A} (f : D A) n inp m inp' r : ss_decode_log f n inp = (m, (inp', r)) ->
  match r with Ok s => exists items extra, shape n items s /\ m = items ++ extra | _ => True end.
Proof.
  unfold ss_decode_log. intros H. destruct (dec_usize inp) as [inp1 [len|e|p]]; try (injection H as <- <- <-; exact I).
  destruct (n <? Z.to_nat len) eqn:El; [injection H as <- <- <-; exact I|]. apply Nat.ltb_ge in El.
  destruct (dec_cells_log f (uninit A n) 0 inp1) as (m' & inp2 & r') eqn:E. injection H as <- <- <-. pose proof (dec_cells_log_spec _ _ _ _ _ _ _ E) as Hs.
  destruct r'; try exact I. destruct Hs as (-> & Hl). exists (firstn (Z.to_nat len) m'), (skipn (Z.to_nat len) m'). split; [|symmetry; apply firstn_skipn].
  exists (map Some (skipn (Z.to_nat len) m')). rewrite <- map_app, firstn_skipn, firstn_length_le, map_length, skipn_length by lia. split; [reflexivity | lia].
Qed.

Lemma clone_loop_log_spec {A} (cl : nat -> A -> option A) items : forall c pre rest pre' rest' k m r,
  k = length pre -> k = length pre' -> length rest' >= length items ->
  clone_loop_log cl c (pre ++ map Some items ++ rest) (pre' ++ rest') k (length items) = (m, r) ->
  match r with
  | Done buf => length m = length items /\ buf = pre' ++ map Some m ++ skipn (length items) rest'
  | Panics p => p = PUser
  | Undefined _ => False
  end.
Proof.
  induction items as [|x items IH]; intros c pre rest pre' rest' k m r Hk Hk' Hr H; cbn [length clone_loop_log] in H.
  - injection H as <- <-. auto.
  - cbn [map app] in H. rewrite mem_read_mid in H by exact Hk. destruct (cl c x) as [y|]; [|injection H as <- <-; reflexivity].
    destruct rest' as [|o rest']; [cbn in Hr; lia|]. rewrite mem_write_mid in H by exact Hk'.
    replace (pre ++ Some x :: map Some items ++ rest) with ((pre ++ [Some x]) ++ map Some items ++ rest) in H by (rewrite <- app_assoc; reflexivity).
    replace (pre' ++ Some y :: rest') with ((pre' ++ [Some y]) ++ rest') in H by (rewrite <- app_assoc; reflexivity).
    destruct (clone_loop_log cl (S c) _ _ (S k) (length items)) as (m' & r') eqn:E. injection H as <- <-.
    apply IH in E; [| rewrite app_length; cbn; lia | rewrite app_length; cbn; lia | cbn in Hr; lia].
    destruct r' as [buf| |]; [|exact E|exact E]. destruct E as (Hl & ->). cbn [length map app skipn]. split; [lia|]. rewrite <- app_assoc. reflexivity.
Qed.

(* ---- one call *)
Lemma made_map {A} (l : list A) : made (map Made l) = l.
Proof. unfold made. induction l as [|x l IH]; cbn; [reflexivity | f_equal; exact IH]. Qed.
Lemma gone_map {A} (l : list A) : gone (map Made l) = [].
Proof. unfold gone. induction l as [|x l IH]; cbn; [reflexivity | exact IH]. Qed.
Lemma made_app {A} (l l' : list (uevent A)) : made (l ++ l') = made l ++ made l'.
Proof. apply flat_map_app. Qed.
Lemma gone_app {A} (l l' : list (uevent A)) : gone (l ++ l') = gone l ++ gone l'.
Proof. apply flat_map_app. Qed.

Definition hshaped {A} (h : holder A) (items : list A) : Prop := exists n, hshape n items h.

Lemma hshaped_holds {A} (h : holder A) items : hshaped h items -> Holds h items.
Proof.
  intros (n & H). destruct h; cbn [hshape Holds] in *; auto; [exact (shape_slice H) | exact (ishape_slice _ _ _ H)].
Qed.

Lemma set_at_same {A} (l : list A) : forall k x, nth_error l k = Some x -> set_at l k x = l.
Proof. induction l as [|y l IH]; intros [|k] x H; cbn in *; try discriminate; [congruence | rewrite IH by exact H; reflexivity]. Qed.

Lemma forall2_nth {A B} (P : A -> B -> Prop) l l' : Forall2 P l l' -> forall k x, nth_error l k = Some x -> exists a b y, l' = a ++ y :: b /\ length a = k /\ P x y.
Proof.
  induction 1 as [|x y l l' Hxy _ IH]; intros [|k] z Hz; cbn in Hz; try discriminate.
  - injection Hz as <-. exists [], l', y. auto.
  - destruct (IH k z Hz) as (a & b & w & -> & Hl & Hp). exists (y :: a), b, w. split; [reflexivity|]. split; [cbn; lia | exact Hp].
Qed.

Lemma forall2_set {A B} (P : A -> B -> Prop) l l' : Forall2 P l l' -> forall a b y x' y', l' = a ++ y :: b -> P x' y' ->
  Forall2 P (set_at l (length a) x') (a ++ y' :: b).
Proof.
  induction 1 as [|x y l l' Hxy Hl IH]; intros a b z x' y' E Hp; [destruct a; discriminate|].
  destruct a as [|w a]; cbn in E; injection E as -> ->; cbn [length set_at app]; constructor; auto. eapply IH; [reflexivity | exact Hp].
Qed.

Lemma perm_middle {A} (g a i b l : list A) : Permutation (g ++ (a ++ i ++ b) ++ l) (a ++ (g ++ i ++ l) ++ b).
Proof.
  rewrite <- !app_assoc. transitivity (a ++ g ++ i ++ b ++ l); [apply Permutation_app_swap_app|].
  do 3 apply Permutation_app_head. apply Permutation_app_comm.
Qed.

(* the invariant: variables and what they hold *)
Lemma ucall_step_keeps {A} ch size (c : ucall A) vars itemss st : uses_nth c = false -> Forall2 hshaped vars itemss -> ucall_step ch size c vars = Done st ->
  exists itemss' lost, Forall2 hshaped (us_vars st) itemss' /\
    Permutation (gone (us_events st) ++ concat itemss' ++ lost) (made (us_events st) ++ concat itemss) /\
    (us_panicked st = true -> us_vars st = vars) /\
    (us_panicked st = false -> loses c = false -> lost = []).
Proof.
  intros Hn Hv H.
  assert (Hnew : forall made (r : out (option (holder A))), makes vars made r = Done st ->
    (forall h, r = Done (Some h) -> exists items extra, hshaped h items /\ Permutation (items ++ extra) made /\ (loses c = false -> extra = [])) ->
    (r = Done None -> loses c = true) ->
    exists itemss' lost, Forall2 hshaped (us_vars st) itemss' /\
      Permutation (gone (us_events st) ++ concat itemss' ++ lost) (SpecUnwind.made (us_events st) ++ concat itemss) /\ (us_panicked st = true -> us_vars st = vars) /\
      (us_panicked st = false -> loses c = false -> lost = [])).
  { intros m r Hm Hr Hr2. unfold makes in Hm. destruct r as [[h|]| |]; try discriminate; injection Hm as <-; cbn [us_events us_vars us_panicked]; rewrite made_map, gone_map; cbn [app].
    - destruct (Hr h eq_refl) as (items & extra & Hh & Hp & Hx). exists (itemss ++ [items]), extra. split; [apply Forall2_app; [exact Hv | constructor; [exact Hh | constructor]]|].
      split; [|split; [discriminate | intros _ Hq; exact (Hx Hq)]]. rewrite concat_app. cbn [concat]. rewrite app_nil_r, <- app_assoc, Hp. apply Permutation_app_comm.
    - exists itemss, m. split; [exact Hv|]. split; [apply Permutation_app_comm|]. split; [discriminate | intros _ Hq; specialize (Hr2 eq_refl); congruence].
    - exists itemss, m. split; [exact Hv|]. split; [apply Permutation_app_comm|]. split; [reflexivity | discriminate]. }
  assert (Hnone : st = UStep [] vars false -> exists itemss' lost, Forall2 hshaped (us_vars st) itemss' /\
      Permutation (gone (us_events st) ++ concat itemss' ++ lost) (SpecUnwind.made (us_events st) ++ concat itemss) /\ (us_panicked st = true -> us_vars st = vars) /\
      (us_panicked st = false -> loses c = false -> lost = [])).
  { intros ->. exists itemss, []. cbn. rewrite app_nil_r. auto. }
  assert (Hown : forall j op, gentle op -> (loses c = false -> op <> ODrop) ->
    match nth_error vars j with
    | Some h => omap (fun '(es, h') => UStep (map (fun e => match e with Dropped x => Ended x | Given x => Moved x end) es) (set_at vars j h') false)
                     (own_step ch size op h)
    | None => Done (UStep [] vars false)
    end = Done st -> exists itemss' lost, Forall2 hshaped (us_vars st) itemss' /\
      Permutation (gone (us_events st) ++ concat itemss' ++ lost) (SpecUnwind.made (us_events st) ++ concat itemss) /\ (us_panicked st = true -> us_vars st = vars) /\
      (us_panicked st = false -> loses c = false -> lost = [])).
  { intros j op Hg Hd Ho. destruct (nth_error vars j) as [h|] eqn:Ej; [|apply Hnone; injection Ho as <-; reflexivity].
    destruct (forall2_nth _ _ _ Hv _ _ Ej) as (a & b & items & -> & <- & n & Hh). destruct (own_step ch size op h) as [[es h']| |] eqn:E; try discriminate.
    cbn [omap obind] in Ho. injection Ho as <-. cbn [us_events us_vars us_panicked].
    destruct (@own_step_perm _ _ _ _ _ _ _ _ _ Hg Hh E) as (items' & lost & Hh' & Hp & Hlo).
    exists (a ++ items' :: b), lost. split; [eapply forall2_set; [exact Hv | reflexivity | exists n; exact Hh']|]. split; [|split; [discriminate | intros _ Hq; apply Hlo; left; exact (Hd Hq)]].
    assert (Hm : SpecUnwind.made (map (fun e : event A => match e with Dropped x => Ended x | Given x => Moved x end) es) = [] /\
      gone (map (fun e : event A => match e with Dropped x => Ended x | Given x => Moved x end) es) = map ev_item es).
    { unfold SpecUnwind.made, gone. clear. induction es as [|[x|x] es (IH1 & IH2)]; cbn; [auto| |]; rewrite ?IH1, ?IH2; auto. }
    destruct Hm as (-> & ->). cbn [app]. rewrite !concat_app. cbn [concat]. rewrite <- Hp.
    apply perm_middle. }
  destruct c; cbn [uses_nth] in Hn; try discriminate; cbn [ucall_step] in H.
  - destruct (n <? length data) eqn:El; [apply Hnone; injection H as <-; reflexivity|]. apply Nat.ltb_ge in El.
    destruct (clone_into_log cl 0 (uninit A n) data) as (m & r) eqn:E. apply (Hnew _ _ H); [|clear; destruct r; cbn; try discriminate; try (destruct a; discriminate)]. intros h Hh. pose proof (clone_into_log_spec _ _ _ _ _ _ El E) as Hs.
    destruct r as [buf| |]; try discriminate. cbn in Hh. injection Hh as <-. exists m, []. rewrite app_nil_r. split; [exists n; exact Hs | split; reflexivity].
  - destruct (fill_log next 0 n) as (m & r) eqn:E. apply (Hnew _ _ H); [|clear; destruct r; cbn; try discriminate; try (destruct a; discriminate)]. intros h Hh. pose proof (fill_log_spec _ _ _ _ _ E) as Hs.
    destruct r as [[buf len]| |]; try discriminate. cbn in Hh. injection Hh as <-. exists m, []. rewrite app_nil_r. split; [exists n; exact Hs | split; reflexivity].
  - destruct (ss_decode_log f n inp) as (m & inp' & r) eqn:E. apply (Hnew _ _ H); [|intros _; reflexivity]. intros h Hh. pose proof (ss_decode_log_spec _ _ _ _ _ _ E) as Hs.
    cbn [snd] in Hh. destruct r as [s| |]; try discriminate. injection Hh as <-. destruct Hs as (items & extra & Hs & ->). exists items, extra. split; [exists n; exact Hs | split; [reflexivity | discriminate]].
  - destruct (nth_error vars j) as [h|] eqn:Ej; [|apply Hnone; injection H as <-; reflexivity].
    destruct (forall2_nth _ _ _ Hv _ _ Ej) as (a & b & items & _ & _ & n & Hh). destruct h as [l|s|i|l|]; try (apply Hnone; injection H as <-; reflexivity).
    + destruct Hh as (rest & -> & Hl). cbn [ss_buf ss_len ss_capacity] in H. unfold ss_capacity in H. cbn [ss_buf] in H.
      destruct (clone_loop_log cl 0 _ _ 0 (length items)) as (m & r) eqn:E. apply (Hnew _ _ H); [|clear; destruct r; cbn; try discriminate; try (destruct a; discriminate)]. intros h Hh.
      apply (clone_loop_log_spec cl items 0 [] rest [] _ 0) in E; [| reflexivity | reflexivity | unfold uninit; rewrite repeat_length, app_length, map_length; lia].
      destruct r as [buf| |]; try discriminate. cbn in Hh. injection Hh as <-. destruct E as (Hlm & ->). exists m, []. rewrite app_nil_r. split; [|split; reflexivity].
      exists n. eexists. cbn [app]. rewrite Hlm. split; [reflexivity|]. unfold uninit. rewrite skipn_length, repeat_length, app_length, map_length. lia.
    + destruct Hh as (pre & post & -> & Hl). cbn [it_buf it_len it_pos] in H.
      destruct (clone_loop_log cl 0 _ _ (length pre) (length items)) as (m & r) eqn:E. apply (Hnew _ _ H); [|clear; destruct r; cbn; try discriminate; try (destruct a; discriminate)]. intros h Hh.
      assert (Hu : uninit A (length (pre ++ map Some items ++ post)) = uninit A (length pre) ++ uninit A (length items + length post))
        by (unfold uninit; rewrite <- repeat_app, !app_length, map_length; reflexivity). rewrite Hu in E.
      apply (clone_loop_log_spec cl items 0 pre post) in E; [| reflexivity | unfold uninit; rewrite repeat_length; reflexivity | unfold uninit; rewrite repeat_length; lia].
      destruct r as [buf| |]; try discriminate. cbn in Hh. injection Hh as <-. destruct E as (Hlm & ->). exists m, []. rewrite app_nil_r. split; [|split; reflexivity].
      exists n. exists (uninit A (length pre)). eexists. split.
      * assert (Hz : length (uninit A (length pre)) = length pre) by apply repeat_length. rewrite Hlm, Hz. reflexivity.
      * unfold uninit. rewrite Hlm, skipn_length, !repeat_length. lia.
  - refine (Hown _ OIntoIter I _ H). discriminate.
  - refine (Hown _ OIntoVec I _ H). discriminate.
  - refine (Hown _ (ONext e) I _ H). discriminate.
  - refine (Hown _ ODrop I _ H). discriminate.
Qed.

(* ---- runs *)
Lemma ucall_run_keeps {A} ch size (cs : list (ucall A)) : forall vars itemss es vars', Forall (fun c => uses_nth c = false) cs -> Forall2 hshaped vars itemss ->
  ucall_run ch size cs vars = Done (es, vars') ->
  exists itemss' lost, Forall2 hshaped vars' itemss' /\ Permutation (gone es ++ concat itemss' ++ lost) (made es ++ concat itemss).
Proof.
  induction cs as [|c cs IH]; intros vars itemss es vars' Hn Hv H.
  - cbn in H. injection H as <- <-. exists itemss, []. cbn. rewrite app_nil_r. auto.
  - inversion Hn as [|? ? Hn1 Hn2]; subst. cbn [ucall_run] in H. destruct (ucall_step ch size c vars) as [st| |] eqn:E1; try discriminate. cbn [obind] in H.
    destruct (ucall_run ch size cs (us_vars st)) as [[es2 vars2]| |] eqn:E2; try discriminate. cbn [omap obind] in H. injection H as <- <-.
    destruct (ucall_step_keeps _ _ _ _ _ _ Hn1 Hv E1) as (itemss1 & lost1 & Hv1 & Hp1 & _ & _).
    destruct (IH _ _ _ _ Hn2 Hv1 E2) as (itemss2 & lost2 & Hv2 & Hp2). exists itemss2, (lost2 ++ lost1). split; [exact Hv2|].
    rewrite gone_app, made_app, <- app_assoc. rewrite (app_assoc (concat itemss2)), (app_assoc (gone es2)), Hp2.
    rewrite <- app_assoc. rewrite (Permutation_app_swap_app (gone (us_events st))), Hp1.
    rewrite app_assoc, (Permutation_app_comm (made es2)). rewrite <- app_assoc. reflexivity.
Qed.

Lemma C107_once_lemma : forall A checks size (cs : list (ucall A)) es vars, Forall (fun c => uses_nth c = false) cs -> ucall_run checks size cs [] = Done (es, vars) ->
  exists itemss lost, Forall2 Holds vars itemss /\ Permutation (gone es ++ concat itemss ++ lost) (made es).
Proof.
  intros A ch size cs es vars Hn H. destruct (ucall_run_keeps _ _ _ _ _ _ _ Hn (Forall2_nil _) H) as (itemss & lost & Hv & Hp). exists itemss, lost.
  rewrite app_nil_r in Hp. split; [|exact Hp]. clear -Hv. induction Hv; constructor; auto using hshaped_holds.
Qed.

Lemma ucall_step_defined {A} ch size (c : ucall A) vars itemss : uses_nth c = false -> uses_into_vec c = false -> Forall2 hshaped vars itemss ->
  exists st, ucall_step ch size c vars = Done st.
Proof.
  intros Hn Hi Hv.
  assert (Hm : forall m (r : out (option (holder A))), match r with Undefined _ => False | _ => True end -> exists st, makes vars m r = Done st).
  { intros m [[h|]| |] Hr; cbn; eauto. contradiction. }
  destruct c; cbn [uses_nth uses_into_vec] in *; try discriminate; cbn [ucall_step].
  - destruct (n <? length data) eqn:El; [eauto|]. apply Nat.ltb_ge in El. destruct (clone_into_log cl 0 (uninit A n) data) as (m & r) eqn:E.
    pose proof (clone_into_log_spec _ _ _ _ _ _ El E). apply Hm. destruct r; cbn; auto.
  - destruct (fill_log next 0 n) as (m & r) eqn:E. pose proof (fill_log_spec _ _ _ _ _ E). apply Hm. destruct r as [[]| |]; cbn; auto.
  - destruct (ss_decode_log f n inp) as (m & inp' & r). apply Hm. cbn [snd]. destruct r; exact I.
  - destruct (nth_error vars j) as [h|] eqn:Ej; [|eauto]. destruct (forall2_nth _ _ _ Hv _ _ Ej) as (a & b & items & _ & _ & n & Hh).
    destruct h as [l|s|i|l|]; eauto.
    + destruct Hh as (rest & -> & Hl). unfold ss_capacity. cbn [ss_buf ss_len]. destruct (clone_loop_log cl 0 _ _ 0 (length items)) as (m & r) eqn:E.
      apply (clone_loop_log_spec cl items 0 [] rest [] _ 0) in E; [| reflexivity | reflexivity | unfold uninit; rewrite repeat_length, app_length, map_length; lia].
      apply Hm. destruct r; cbn; auto.
    + destruct Hh as (pre & post & -> & Hl). cbn [it_buf it_len it_pos]. destruct (clone_loop_log cl 0 _ _ (length pre) (length items)) as (m & r) eqn:E.
      assert (Hu : uninit A (length (pre ++ map Some items ++ post)) = uninit A (length pre) ++ uninit A (length items + length post))
        by (unfold uninit; rewrite <- repeat_app, !app_length, map_length; reflexivity). rewrite Hu in E.
      apply (clone_loop_log_spec cl items 0 pre post) in E; [| reflexivity | unfold uninit; rewrite repeat_length; reflexivity | unfold uninit; rewrite repeat_length; lia].
      apply Hm. destruct r; cbn; auto.
  - destruct (nth_error vars j) as [h|]; [|eauto]. destruct h; cbn; eauto.
  - destruct (nth_error vars j) as [h|] eqn:Ej; [|eauto]. destruct (forall2_nth _ _ _ Hv _ _ Ej) as (a & b & items & _ & _ & n & Hh).
    destruct h as [l|s|i|l|]; cbn [own_step omap obind]; eauto. destruct (@ishape_step _ _ _ _ e Hh) as (i' & E & _). rewrite E. cbn. eauto.
  - destruct (nth_error vars j) as [h|]; [|eauto]. destruct h; cbn; eauto.
Qed.

Lemma C107_defined_lemma : forall A checks size (cs : list (ucall A)), Forall (fun c => uses_nth c = false /\ uses_into_vec c = false) cs ->
  exists es vars, ucall_run checks size cs [] = Done (es, vars).
Proof.
  intros A ch size cs Hn. assert (Hv : Forall2 hshaped (@nil (holder A)) []) by constructor. revert Hv. generalize (@nil (holder A)) (@nil (list A)).
  induction cs as [|c cs IH]; intros vars itemss Hv; [cbn; eauto|]. inversion Hn as [|? ? (Hn1 & Hn2) Hn3]; subst.
  destruct (ucall_step_defined ch size c vars itemss Hn1 Hn2 Hv) as (st & E). destruct (ucall_step_keeps _ _ _ _ _ _ Hn1 Hv E) as (itemss1 & lost & Hv1 & _).
  destruct (IH Hn3 _ _ Hv1) as (es & vars' & E'). cbn [ucall_run]. rewrite E. cbn [obind]. rewrite E'. cbn. eauto.
Qed.

Lemma C107_kept_lemma : forall A checks size (cs : list (ucall A)) es vars c st, Forall (fun c => uses_nth c = false) (cs ++ [c]) ->
  ucall_run checks size cs [] = Done (es, vars) -> ucall_step checks size c vars = Done st -> us_panicked st = false -> loses c = false ->
  exists itemss itemss', Forall2 Holds vars itemss /\ Forall2 Holds (us_vars st) itemss' /\
    Permutation (gone (us_events st) ++ concat itemss') (made (us_events st) ++ concat itemss).
Proof.
  intros A ch size cs es vars c st Hn H Hs Hp Hl. apply Forall_app in Hn. destruct Hn as (Hn & Hc). inversion Hc as [|? ? Hc1 _]; subst.
  destruct (ucall_run_keeps _ _ _ _ _ _ _ Hn (Forall2_nil _) H) as (itemss & lost & Hv & _).
  destruct (ucall_step_keeps _ _ _ _ _ _ Hc1 Hv Hs) as (itemss' & lost' & Hv' & Hperm & _ & G). rewrite (G Hp Hl), app_nil_r in Hperm.
  exists itemss, itemss'.
  assert (Hh : forall (vs : list (holder A)) ls, Forall2 hshaped vs ls -> Forall2 Holds vs ls) by (induction 1; constructor; auto using hshaped_holds). auto.
Qed.

(* a call that panics changes no variable, whatever came before it *)
Lemma C107_unchanged_lemma : forall A checks size (cs : list (ucall A)) es vars c st, Forall (fun c => uses_nth c = false) cs -> ucall_run checks size cs [] = Done (es, vars) ->
  ucall_step checks size c vars = Done st -> us_panicked st = true -> us_vars st = vars.
Proof.
  intros A ch size cs es vars c st Hn H Hs Hp. destruct (ucall_run_keeps _ _ _ _ _ _ _ Hn (Forall2_nil _) H) as (itemss & lost & Hv & _).
  destruct (uses_nth c) eqn:En; [|destruct (ucall_step_keeps _ _ _ _ _ _ En Hv Hs) as (? & ? & _ & _ & G & _); exact (G Hp)].
  destruct c; try discriminate. cbn [ucall_step] in Hs. destruct (nth_error vars j) as [[l|s|i|l|]|] eqn:Ej; try (injection Hs as <-; reflexivity).
  destruct (it_nth_log ch bad i k) as [[[ended r] i']| |] eqn:E; try discriminate. cbn in Hs. injection Hs as <-. cbn [us_panicked us_vars] in *. destruct r; [discriminate|].
  assert (Hi : i' = i); [|subst; apply set_at_same; exact Ej].
  unfold it_nth_log in E. destruct (it_len i <? k); [congruence|]. destruct (it_pos i + k =? 0); [destruct ch; congruence|].
  destruct (it_pos i + k - 1 <? it_pos i); [congruence|]. destruct (length (it_buf i) <? it_pos i + k - 1); [congruence|].
  destruct (mem_slice (it_buf i) _ _) as [d| |]; try discriminate. cbn [obind] in E. destruct (drop_loop bad 0 d) as (ended' & ok).
  destruct ok; [destruct (mem_read (it_buf i) k); discriminate | congruence].
Qed.

Lemma C107_same_lemma : forall A,
  (forall (cl : A -> option A) k buf data, snd (clone_into_log (fun _ => cl) k buf data) = clone_into cl buf data) /\
  (forall (cl : A -> option A) c src dst i n, snd (clone_loop_log (fun _ => cl) c src dst i n) = clone_loop cl src dst i n) /\
  (forall (next : nat -> answer A) n k, (forall k, next k <> Unwinds) ->
     snd (fill_log next k n) = Done (fst (fill (fun k => (match next k with Gives x => Some x | _ => None end, S k)) n k))) /\
  (forall (f : D A) n inp, snd (ss_decode_log f n inp) = ss_decode f n inp) /\
  (forall checks (i : siter A) k, it_nth_log checks (fun _ _ => false) i k =
     match it_nth checks i k with Done (r, d, i') => Done (d, Some r, i') | Panics _ => Done ([], None, i) | Undefined u => Undefined u end).
Proof.
  intros A. split; [|split; [|split; [|split]]].
  - intros. apply clone_into_same.
  - intros. apply clone_loop_same.
  - intros. apply fill_same. assumption.
  - intros. apply ss_decode_same.
  - intros. apply it_nth_same.
Qed.

(* ---- the calls of the user's code, in order *)
Lemma clone_into_order {A} (cl : nat -> A -> option A) data : forall k n m r, length data <= n -> clone_into_log cl k (uninit A n) data = (m, r) ->
  exists ok, Cloned cl k data m ok /\ if ok then exists buf, r = Done buf else r = Panics PUser.
Proof.
  induction data as [|x data IH]; intros k n m r Hn H.
  - exists true. destruct n; cbn in H; injection H as <- <-; split; eauto; constructor.
  - destruct n as [|n]; [cbn in Hn; lia|]. cbn [uninit repeat clone_into_log] in H. cbn [length] in Hn. destruct (cl k x) as [y|] eqn:Ey.
    + destruct (clone_into_log cl (S k) (repeat None n) data) as (m' & r') eqn:E. injection H as <- <-. destruct (IH (S k) n m' r' ltac:(lia) E) as (ok & Hc & Hr).
      exists ok. split; [constructor; assumption|]. destruct ok; [destruct Hr as (buf & ->); cbn; eauto | rewrite Hr; reflexivity].
    + injection H as <- <-. exists false. split; [constructor; exact Ey | reflexivity].
Qed.

Lemma fill_order {A} (next : nat -> answer A) n : forall k m r, fill_log next k n = (m, r) ->
  exists ok, Collected next k n m ok /\ if ok then exists b, r = Done b else r = Panics PUser.
Proof.
  induction n as [|n IH]; intros k m r H; cbn [fill_log] in H.
  - injection H as <- <-. exists true. split; [constructor | eauto].
  - destruct (next k) as [x| |] eqn:Ex.
    + destruct (fill_log next (S k) n) as (m' & r') eqn:E. injection H as <- <-. destruct (IH (S k) m' r' E) as (ok & Hc & Hr).
      exists ok. split; [econstructor; eassumption|]. destruct ok; [destruct Hr as ((buf & len) & ->); cbn; eauto | rewrite Hr; reflexivity].
    + injection H as <- <-. exists true. split; [apply Co_stops; exact Ex | eauto].
    + injection H as <- <-. exists false. split; [apply Co_panics; exact Ex | reflexivity].
Qed.

Lemma clone_loop_order {A} (cl : nat -> A -> option A) items : forall c pre rest pre' rest' k m r,
  k = length pre -> k = length pre' -> length rest' >= length items ->
  clone_loop_log cl c (pre ++ map Some items ++ rest) (pre' ++ rest') k (length items) = (m, r) ->
  exists ok, Cloned cl c items m ok /\ if ok then exists buf, r = Done buf else r = Panics PUser.
Proof.
  induction items as [|x items IH]; intros c pre rest pre' rest' k m r Hk Hk' Hr H; cbn [length clone_loop_log] in H.
  - injection H as <- <-. exists true. split; [constructor | eauto].
  - cbn [map app] in H. rewrite mem_read_mid in H by exact Hk. destruct (cl c x) as [y|] eqn:Ey; [|injection H as <- <-; exists false; split; [constructor; exact Ey | reflexivity]].
    destruct rest' as [|o rest']; [cbn in Hr; lia|]. rewrite mem_write_mid in H by exact Hk'.
    replace (pre ++ Some x :: map Some items ++ rest) with ((pre ++ [Some x]) ++ map Some items ++ rest) in H by (rewrite <- app_assoc; reflexivity).
    replace (pre' ++ Some y :: rest') with ((pre' ++ [Some y]) ++ rest') in H by (rewrite <- app_assoc; reflexivity).
    destruct (clone_loop_log cl (S c) _ _ (S k) (length items)) as (m' & r') eqn:E. injection H as <- <-.
    apply IH in E; [| rewrite app_length; cbn; lia | rewrite app_length; cbn; lia | cbn in Hr; lia].
    destruct E as (ok & Hc & Ho). exists ok. split; [constructor; assumption | exact Ho].
Qed.

Lemma drop_order {A} (bad : nat -> A -> bool) items : forall k, Released bad k items (fst (drop_loop bad k items)) (snd (drop_loop bad k items)).
Proof.
  induction items as [|x items IH]; intros k; cbn [drop_loop]; [constructor|]. destruct (bad k x) eqn:Eb; [apply Re_panics; exact Eb|].
  specialize (IH (S k)). destruct (drop_loop bad (S k) items) as (d & ok). cbn [fst snd] in *. apply Re_next; assumption.
Qed.

Lemma dec_cells_order {A} (f : D A) n : forall k inp, Read f n inp (fst (dec_cells_log f (uninit A n) k inp)).
Proof.
  induction n as [|n IH]; intros k inp; cbn [uninit repeat dec_cells_log]; [constructor|].
  destruct (f inp) as [inp1 [x|e|p]] eqn:Ef; [| eapply Rd_fails; [exact Ef | discriminate] | eapply Rd_fails; [exact Ef | discriminate]].
  specialize (IH (S k) inp1). change (repeat None n) with (uninit A n). destruct (dec_cells_log f (uninit A n) (S k) inp1) as (m & r). cbn [fst] in *. eapply Rd_next; eassumption.
Qed.

Lemma makes_these {A} (vars : list (holder A)) (m : list A) (r : out (holder A)) (ok : bool) : (if ok then exists h, r = Done h /\ Holds h m else r = Panics PUser) ->
  exists st, makes vars m (omap Some r) = Done st /\ us_events st = map Made m /\ us_panicked st = negb ok /\
    (ok = false -> us_vars st = vars) /\ (ok = true -> exists h, us_vars st = vars ++ [h] /\ Holds h m).
Proof.
  destruct ok.
  - intros (h & -> & Hh). eexists. split; [reflexivity|]. cbn. split; [reflexivity|]. split; [reflexivity|]. split; [discriminate | eauto].
  - intros ->. eexists. split; [reflexivity|]. cbn. split; [reflexivity|]. split; [reflexivity|]. split; [reflexivity | discriminate].
Qed.

Lemma C107_order_lemma : forall A checks size (cs : list (ucall A)) es vars, Forall (fun c => uses_nth c = false) cs ->
  ucall_run checks size cs [] = Done (es, vars) ->
  (forall cl n data, length data <= n -> exists copies ok, Cloned cl 0 data copies ok /\ MakesThese checks size (KNew cl n data) vars copies ok) /\
  (forall next n, exists items ok, Collected next 0 n items ok /\ MakesThese checks size (KFromIter next n) vars items ok) /\
  (forall j cl h items, nth_error vars j = Some h -> match h with HSlice _ | HIter _ => True | _ => False end -> Holds h items ->
     exists copies ok, Cloned cl 0 items copies ok /\ MakesThese checks size (KClone j cl) vars copies ok).
Proof.
  intros A ch size cs es vars Hn H. destruct (ucall_run_keeps _ _ _ _ _ _ _ Hn (Forall2_nil _) H) as (itemss & lost & Hv & _).
  split; [|split].
  - intros cl n data Hl. destruct (clone_into_log cl 0 (uninit A n) data) as (m & r) eqn:E. destruct (clone_into_order _ _ _ _ _ _ Hl E) as (ok & Hc & Hr).
    exists m, ok. split; [exact Hc|]. unfold MakesThese. cbn [ucall_step]. apply Nat.ltb_ge in Hl. rewrite Hl, E. apply Nat.ltb_ge in Hl.
    replace (omap (fun buf => Some (HSlice (SSlice buf (length data)))) r) with (omap Some (omap (fun buf => HSlice (SSlice buf (length data))) r)) by (destruct r; reflexivity).
    apply makes_these. pose proof (clone_into_log_spec _ _ _ _ _ _ Hl E) as Hs. destruct ok; [|rewrite Hr; reflexivity].
    destruct Hr as (buf & ->). eexists. split; [reflexivity|]. exact (shape_slice Hs).
  - intros next n. destruct (fill_log next 0 n) as (m & r) eqn:E. destruct (fill_order _ _ _ _ _ E) as (ok & Hc & Hr).
    exists m, ok. split; [exact Hc|]. unfold MakesThese. cbn [ucall_step]. rewrite E.
    replace (omap (fun '(buf, len) => Some (HSlice (SSlice buf len))) r) with (omap Some (omap (fun '(buf, len) => HSlice (SSlice buf len)) r)) by (destruct r as [[]| |]; reflexivity).
    apply makes_these. pose proof (fill_log_spec _ _ _ _ _ E) as Hs. destruct ok; [|rewrite Hr; reflexivity].
    destruct Hr as ((buf & len) & ->). eexists. split; [reflexivity|]. exact (shape_slice Hs).
  - intros j cl h items Ej Hk Hh. destruct (forall2_nth _ _ _ Hv _ _ Ej) as (a & b & items' & _ & _ & n & Hs). unfold MakesThese. cbn [ucall_step]. rewrite Ej.
    destruct h as [l|s|i|l|]; try contradiction; cbn [hshape Holds] in *.
    + assert (items' = items) as -> by (apply shape_slice in Hs; congruence). destruct Hs as (rest & -> & Hl). cbn [ss_buf ss_len]. unfold ss_capacity. cbn [ss_buf].
      destruct (clone_loop_log cl 0 (map Some items ++ rest) (uninit A (length (map Some items ++ rest))) 0 (length items)) as (m & r) eqn:E.
      assert (Hu : length (uninit A (length (map Some items ++ rest))) >= length items) by (unfold uninit; rewrite repeat_length, app_length, map_length; lia).
      destruct (clone_loop_order cl items 0 [] rest [] _ 0 m r eq_refl eq_refl Hu E) as (ok & Hc & Hr).
      pose proof (clone_loop_log_spec cl items 0 [] rest [] _ 0 m r eq_refl eq_refl Hu E) as Hm.
      exists m, ok. split; [exact Hc|].
      replace (omap (fun buf => Some (HSlice (SSlice buf (length items)))) r) with (omap Some (omap (fun buf => HSlice (SSlice buf (length items))) r)) by (destruct r; reflexivity).
      apply makes_these. destruct ok; [|rewrite Hr; reflexivity]. destruct Hr as (buf & ->). eexists. split; [reflexivity|]. destruct Hm as (Hlm & ->).
      unfold Holds. rewrite <- Hlm. exact (@mem_slice_mid A m [] _ 0 eq_refl).
    + assert (items' = items) as -> by (apply ishape_slice in Hs; congruence). destruct Hs as (pre & post & -> & Hl). cbn [it_buf it_pos it_len].
      destruct (clone_loop_log cl 0 (pre ++ map Some items ++ post) (uninit A (length (pre ++ map Some items ++ post))) (length pre) (length items)) as (m & r) eqn:E.
      unfold uninit in E. rewrite app_length, repeat_app in E.
      assert (Hu : length (repeat (@None A) (length (map Some items ++ post))) >= length items) by (rewrite repeat_length, app_length, map_length; lia).
      assert (Hpre : length pre = length (repeat (@None A) (length pre))) by (rewrite repeat_length; reflexivity).
      destruct (clone_loop_order cl items 0 pre post _ _ (length pre) m r eq_refl Hpre Hu E) as (ok & Hc & Hr).
      pose proof (clone_loop_log_spec cl items 0 pre post _ _ (length pre) m r eq_refl Hpre Hu E) as Hm.
      exists m, ok. split; [exact Hc|].
      replace (omap (fun buf => Some (HIter (SIter buf (length pre) (length items)))) r) with (omap Some (omap (fun buf => HIter (SIter buf (length pre) (length items))) r))
        by (destruct r; reflexivity).
      apply makes_these. destruct ok; [|rewrite Hr; reflexivity]. destruct Hr as (buf & ->). eexists. split; [reflexivity|]. destruct Hm as (Hlm & ->).
      unfold Holds, it_as_slice. cbn [it_buf it_pos it_len]. rewrite <- Hlm. apply mem_slice_mid. exact Hpre.
Qed.

Lemma C107_decode_lemma : forall A checks size (vars : list (holder A)) f n inp, exists items st, ucall_step checks size (KDecode f n inp) vars = Done st /\
  us_events st = map Made items /\
  match dec_usize inp with
  | (inp', Ok len) => if (Z.of_nat n <? len)%Z then items = [] else Read f n inp' items
  | _ => items = []
  end.
Proof.
  intros A ch size vars f n inp. cbn [ucall_step]. unfold ss_decode_log.
  assert (Hm : forall m (r : out (option (holder A))), match r with Undefined _ => False | _ => True end -> exists st, makes vars m r = Done st /\ us_events st = map Made m).
  { intros m [[h|]| |] Hr; cbn; eauto. contradiction. }
  destruct (dec_usize inp) as [inp1 [len|e|p]] eqn:Eu.
  - assert (Hle : (n <? Z.to_nat len) = (Z.of_nat n <? len)%Z).
    { destruct (Nat.ltb_spec n (Z.to_nat len)); destruct (Z.ltb_spec (Z.of_nat n) len); lia. }
    rewrite Hle. destruct (Z.of_nat n <? len)%Z; [exists []; cbn; eauto|].
    pose proof (dec_cells_order f n 0 inp1) as Hr. destruct (dec_cells_log f (uninit A n) 0 inp1) as (m & inp2 & r). cbn [fst] in Hr.
    destruct (Hm m (match snd (inp2, match r with Ok cells => Ok (SSlice cells (Z.to_nat len)) | Err e => Err e | Panic p => Panic p end) with
                    | Ok s => Done (Some (HSlice s)) | Err _ => Done None | Panic p => Panics p end)) as (st & Hst & He); [destruct r; exact I|].
    exists m, st. auto.
  - exists []. cbn. eauto.
  - exists []. cbn. eauto.
Qed.

Lemma C107_nth_lemma : forall A checks size (vars : list (holder A)) j i k bad r d i', nth_error vars j = Some (HIter i) -> it_nth checks i k = Done (r, d, i') ->
  exists ended ok, Released bad 0 d ended ok /\
    ucall_step checks size (KNth j k bad) vars = Done (
      if ok then UStep (map Ended ended ++ match r with Some x => [Moved x] | None => [] end) (set_at vars j (HIter i')) false
      else UStep (map Ended ended) vars true).
Proof.
  intros A ch size vars j i k bad r d i' Ej H. cbn [ucall_step]. rewrite Ej. unfold it_nth in H. unfold it_nth_log.
  destruct (it_len i <? k); [injection H as <- <- <-; exists [], true; split; [constructor | reflexivity]|].
  destruct (it_pos i + k =? 0); [destruct ch; discriminate|]. destruct (it_pos i + k - 1 <? it_pos i); [discriminate|].
  destruct (length (it_buf i) <? it_pos i + k - 1); [discriminate|].
  destruct (mem_slice (it_buf i) (it_pos i) (it_pos i + k - 1 - it_pos i)) as [d'| |]; try discriminate. cbn [obind] in *.
  destruct (mem_read (it_buf i) k) as [x| |]; try discriminate. cbn [omap obind] in H. injection H as <- <- <-.
  pose proof (drop_order bad d' 0) as Hr. destruct (drop_loop bad 0 d') as (ended & ok). cbn [fst snd] in Hr. exists ended, ok. split; [exact Hr|].
  destruct ok; cbn; [reflexivity|]. rewrite app_nil_r, set_at_same by exact Ej. reflexivity.
Qed.

Lemma C107_refutation :
  (exists (cs : list (ucall nat)) es vars a b c, ucall_run true 8 cs [] = Done (es, vars) /\ made es = [1; 2; 3] /\ es = a ++ Ended 1 :: b ++ Moved 1 :: c) /\
  (exists (c : ucall nat) st, ucall_step true 8 c [] = Done st /\ us_panicked st = true /\ us_events st = [Made 5; Made 6] /\ us_vars st = []).
Proof.
  split.
  - exists [KFromIter (fun k => nth k [Gives 1; Gives 2; Gives 3] Stops) 3; KIntoIter 0; KNth 0 2 (fun _ _ => true); KNext 0 Front].
    eexists. eexists. exists [Made 1; Made 2; Made 3], [], []. split; [reflexivity|]. split; reflexivity.
  - exists (KNew (fun k x => if k <? 2 then Some x else None) 4 [5; 6; 7; 8]). eexists. split; [reflexivity|]. split; [reflexivity|]. split; reflexivity.
Qed.
