(* C75-C77: for the types that the restricted theorems leave out, the failure is certain. *)
From Coq Require Import Lia Permutation.
From Verif Require Import Base BaseFacts Streams StreamFacts Utf8 Types TypesFacts Traits Decode Spec SpecCalls SpecDecode SpecWork
  DecodeFacts WireFacts RoundTrip DecodeProofs CodeContainerProofs SurviveProofs Heap SpecHeap HeapProofs.
Set Implicit Arguments.

Lemma leaked_leak_value t v : leaked (leak_value t v) = owners t v.
Proof.
  rewrite <- owners_parts. unfold leak_value, owners0, leaked. induction (parts false t v) as [|[b x] l IH]; [reflexivity|].
  cbn [map flat_map snd]. rewrite IH. reflexivity.
Qed.
Lemma leaked_leak_values t vs : leaked (flat_map (leak_value t) vs) = flat_map (owners t) vs.
Proof. induction vs as [|v vs IH]; [reflexivity|]. cbn [flat_map]. rewrite leaked_app, leaked_leak_value, IH. reflexivity. Qed.

Definition Fails {A} (r : res derr A) : Prop := forall a, r <> Ok a.

Lemma perm_four {A} (a b c d : list A) : Permutation (a ++ (b ++ c) ++ d) ((d ++ b) ++ a ++ c).
Proof.
  rewrite (app_assoc a), (Permutation_app_comm _ d), !app_assoc. apply Permutation_app_tail. rewrite <- !app_assoc. apply Permutation_app_head.
  apply Permutation_app_comm.
Qed.

(* the items up to the failing one are leaked *)
Lemma items_leak t vs : forall bss n i pre rest, Forall2 (fun v b => Yields (decode t) b v) vs bss -> length vs < n ->
  Fails (snd (decode t (Input (pre ++ concat bss ++ rest) (length pre + length (concat bss))))) ->
  exists i' r es more, h_items (leak_value t) (hdecode t) n i (Input (pre ++ concat bss ++ rest) (length pre)) = (i', r, es) /\
    Fails r /\ Permutation (leaked es) (flat_map (owners t) vs ++ more).
Proof.
  induction vs as [|v vs IH]; intros bss n i pre rest Hy Hn Hf.
  - inversion Hy; subst bss. destruct n as [|n]; [cbn in Hn; lia|]. cbn [h_items concat app length flat_map] in *.
    rewrite Nat.add_0_r in Hf. rewrite <- hdecode_same in Hf. unfold hbind, hmap_err.
    destruct (hdecode t (Input (pre ++ rest) (length pre))) as [[i1 r1] es1]. cbn [fst snd] in Hf.
    destruct r1 as [a|e|p]; [exfalso; apply (Hf a); reflexivity|..]; do 4 eexists; (split; [reflexivity|]); split; try (intros ? D; discriminate D); apply Permutation_refl.
  - inversion Hy as [|? b ? bss' Hv Hy']; subst. destruct n as [|n]; [cbn in Hn; lia|]. cbn [length] in Hn.
    cbn [concat] in *. rewrite <- app_assoc in *.
    cbn [h_items]. unfold hbind at 1, hmap_err at 1.
    pose proof (Hv pre (concat bss' ++ rest)) as Hd. rewrite <- hdecode_same in Hd.
    destruct (hdecode t (Input (pre ++ b ++ concat bss' ++ rest) (length pre))) as [[i1 r1] es1]. cbn [fst] in Hd. injection Hd as -> ->.
    destruct (IH bss' n (S i) (pre ++ b) rest Hy') as (i' & r & es & more & He & Hr & Hp); [lia| |].
    { rewrite <- app_assoc, (app_length pre b). rewrite app_length, Nat.add_assoc in Hf. exact Hf. }
    rewrite <- app_assoc, app_length in He. unfold hmap at 1. rewrite He.
    destruct r as [a|e|p]; [exfalso; apply (Hr a); reflexivity|..];
      exists i'; do 2 eexists; exists (leaked es1 ++ more); (split; [reflexivity|]); (split; [intros ? D; discriminate D|]);
      rewrite !leaked_app, leaked_leak_value, Hp; cbn [flat_map]; rewrite ?app_nil_r; apply perm_four.
Qed.

Lemma len_at n lb pre post : WireLen n lb -> dec_usize (Input (pre ++ lb ++ post) (length pre)) =
  (Input (pre ++ lb ++ post) (length pre + length lb), Ok (Z.of_nat n)).
Proof. intros H. exact (P_len H pre post). Qed.
Lemma len_first n lb post : WireLen n lb -> dec_usize (input_new (lb ++ post)) = (Input (lb ++ post) (length lb), Ok (Z.of_nat n)).
Proof. exact (@len_at n lb [] post). Qed.

Lemma C76_leaks_lemma t n lb vs bss rest : WireLen n lb -> Forall2 (fun v b => Yields (decode t) b v) vs bss ->
  (length vs < n -> (forall v, snd (decode t (Input (lb ++ concat bss ++ rest) (length (lb ++ concat bss)))) <> Ok v) ->
   exists i' r es more, hdecode (TVec t) (input_new (lb ++ concat bss ++ rest)) = (i', r, es) /\ (forall v, r <> Ok v) /\
     Permutation (leaked es) (flat_map (owners t) vs ++ more)) /\
  (forall m, n <= m -> length vs < m -> (forall v, snd (decode t (Input (lb ++ concat bss ++ rest) (length (lb ++ concat bss)))) <> Ok v) ->
   exists i' r es more, hdecode (TSizedSlice t m) (input_new (lb ++ concat bss ++ rest)) = (i', r, es) /\ (forall v, r <> Ok v) /\
     Permutation (leaked es) (flat_map (owners t) vs ++ more)) /\
  (forall m, length vs < m -> (forall v, snd (decode t (Input (concat bss ++ rest) (length (concat bss)))) <> Ok v) ->
   exists i' r es more, hdecode (TArray t m) (input_new (concat bss ++ rest)) = (i', r, es) /\ (forall v, r <> Ok v) /\
     Permutation (leaked es) (flat_map (owners t) vs ++ more)) /\
  (n <= length vs -> exists i' es more, hdecode (TSizedSlice t (length vs)) (input_new (lb ++ concat bss ++ rest)) = (i', Ok (VSeq (firstn n vs)), es) /\
     Permutation (leaked es) (flat_map (owners t) (skipn n vs) ++ more)).
Proof.
  intros Hlb Hy. rewrite app_length. split; [|split; [|split]].
  - intros Hn Hf. cbn [hdecode]. unfold h_vec, hbind, hplain. rewrite (len_first _ Hlb). rewrite Nat2Z.id. unfold hreserve, hmap.
    destruct (@items_leak t vs bss n 0 lb rest Hy Hn Hf) as (i' & r & es & more & He & Hr & Hp). rewrite He.
    destruct r as [a|e|p]; [exfalso; apply (Hr a); reflexivity|..]; do 3 eexists; exists more; (split; [reflexivity|]);
      (split; [intros ? D; discriminate D|]); rewrite ?app_nil_r; exact Hp.
  - intros m Hnm Hn Hf. cbn [hdecode]. unfold h_sized_slice, hbind, hplain. rewrite (len_first _ Hlb). rewrite Nat2Z.id.
    replace (m <? n) with false by (symmetry; apply Nat.ltb_ge; lia). unfold hmap.
    destruct (@items_leak t vs bss m 0 lb rest Hy Hn Hf) as (i' & r & es & more & He & Hr & Hp). rewrite He.
    destruct r as [a|e|p]; [exfalso; apply (Hr a); reflexivity|..]; do 3 eexists; exists more; (split; [reflexivity|]);
      (split; [intros ? D; discriminate D|]); rewrite ?app_nil_r; exact Hp.
  - intros m Hn Hf. cbn [hdecode]. unfold h_array, hmap.
    destruct (@items_leak t vs bss m 0 [] rest Hy Hn Hf) as (i' & r & es & more & He & Hr & Hp). cbn [app length] in He. unfold input_new. rewrite He.
    destruct r as [a|e|p]; [exfalso; apply (Hr a); reflexivity|..]; do 3 eexists; exists more; (split; [reflexivity|]);
      (split; [intros ? D; discriminate D|]); rewrite ?app_nil_r; exact Hp.
  - intros Hn. cbn [hdecode]. unfold h_sized_slice, hbind, hplain. rewrite (len_first _ Hlb). rewrite Nat2Z.id.
    replace (length vs <? n) with false by (symmetry; apply Nat.ltb_ge; lia). unfold hmap.
    pose proof (S_items (leak_value t) (length vs) (proj1 (hdecode_same_all t)) 0 (Input (lb ++ concat bss ++ rest) (length lb))) as Hs.
    rewrite (@items_yield t vs bss 0 Hy lb rest) in Hs. destruct (h_items _ _ _ _ _) as [[i1 r1] es1]. cbn [fst] in Hs. injection Hs as -> ->.
    do 2 eexists. exists (leaked es1). split; [reflexivity|]. cbn [app]. rewrite !leaked_app, leaked_leak_values. apply Permutation_app_comm.
Qed.

(* an item of at least one octet fails at the end of the input *)
Lemma ends_early t buf : EnumsOk t -> nonempty t = true -> forall v, snd (decode t (Input buf (length buf))) <> Ok v.
Proof.
  intros Hok Hn v E. destruct (decode t (Input buf (length buf))) as [i' r] eqn:Hd. cbn [snd] in E. subst r.
  apply decode_exact in Hd; [|exact Hok | apply Nat.le_refl]. destruct Hd as (bs & post & Hu & _ & Ha).
  unfold unread in Hu. cbn [i_buf i_pos] in Hu. rewrite skipn_all in Hu. symmetry in Hu. apply app_eq_nil in Hu. destruct Hu as [-> _].
  apply accepts_nonempty in Ha. congruence.
Qed.

Lemma C76_certain_lemma t b v : EnumsOk t -> nonempty t = true -> Yields (decode t) b v -> owners t v <> [] ->
  (exists i i' r es, hdecode (TVec t) i = (i', r, es) /\ leaked es <> []) /\
  (forall n, 2 <= n -> exists i i' r es, hdecode (TArray t n) i = (i', r, es) /\ leaked es <> []) /\
  (forall n, 1 <= n -> exists i i' r es, hdecode (TSizedSlice t n) i = (i', r, es) /\ leaked es <> []).
Proof.
  intros Hok Hn Hy Hv.
  assert (Hne : forall l more, Permutation l (flat_map (owners t) [v] ++ more) -> l <> []).
  { intros l more Hp ->. apply Permutation_nil in Hp. cbn [flat_map] in Hp. rewrite app_nil_r in Hp. apply app_eq_nil in Hp. tauto. }
  assert (Hlb : WireLen 2 [x02; x00]) by (split; [cbn; lia | apply le_repr_iff; reflexivity]).
  assert (Hlb0 : WireLen 0 [x00; x00]) by (split; [cbn; lia | apply le_repr_iff; reflexivity]).
  assert (Hys : Forall2 (fun v b => Yields (decode t) b v) [v] [b]) by (constructor; [exact Hy | constructor]).
  destruct (@C76_leaks_lemma t 2 _ _ _ [] Hlb Hys) as (H1 & _ & H3 & _). split; [|split].
  - destruct H1 as (i' & r & es & more & He & _ & Hp); [cbn; lia | rewrite app_nil_r; apply ends_early; assumption |].
    do 4 eexists. split; [exact He | exact (Hne _ _ Hp)].
  - intros n Hn2. destruct (H3 n) as (i' & r & es & more & He & _ & Hp); [cbn; lia | rewrite app_nil_r; apply ends_early; assumption |].
    do 4 eexists. split; [exact He | exact (Hne _ _ Hp)].
  - intros n Hn1. destruct n as [|n]; [lia|].
    assert (Hall : Forall2 (fun v b => Yields (decode t) b v) (repeat v (S n)) (repeat b (S n))).
    { generalize (S n). induction n0; cbn [repeat]; constructor; assumption. }
    destruct (@C76_leaks_lemma t 0 _ _ _ [] Hlb0 Hall) as (_ & _ & _ & H4). destruct H4 as (i' & es & more & He & Hp); [lia|].
    rewrite repeat_length in He. do 4 eexists. split; [exact He|]. cbn [skipn repeat flat_map] in Hp. rewrite <- app_assoc in Hp.
    apply (Hne _ (flat_map (owners t) (repeat v n) ++ more)). cbn [flat_map]. rewrite app_nil_r. exact Hp.
Qed.

(* ---- C75 *)
Lemma decode_nothing t : EnumsOk t -> dec_ety t <> None -> (nonempty t = false <-> exists v, Yields (decode t) [] v).
Proof.
  intros Hok Hd. split.
  - intros Hn. destruct (empty_accepts t Hn Hd) as [x Hx]. exists x. apply (@accepts_iff t Hok). exact Hx.
  - intros [v Hv]. apply (@accepts_iff t Hok) in Hv. exact (accepts_nonempty Hv).
Qed.

Lemma items_nothing t v n i : Yields (decode t) [] v -> Parses (dec_items (decode t) n i) [] (repeat v n).
Proof.
  intros Hy. assert (Hall : Forall2 (fun v b => Yields (decode t) b v) (repeat v n) (repeat [] n)).
  { induction n; cbn [repeat]; constructor; assumption. }
  pose proof (@items_yield t _ _ i Hall) as Hp. rewrite repeat_length in Hp.
  assert (Hc : forall m, concat (repeat (@nil byte) m) = []) by (induction m; [reflexivity | assumption]). rewrite Hc in Hp. exact Hp.
Qed.

Lemma C75_certain_lemma t : EnumsOk t -> dec_ety t <> None -> (nonempty t = false <-> exists v, Yields (decode t) [] v) /\
  (forall v n lb, Yields (decode t) [] v -> WireLen n lb ->
   Yields (decode (TVec t)) lb (VSeq (repeat v n)) /\ Yields (decode (TLinked t)) lb (VSeq (repeat v n)) /\
   (forall m, n <= m -> Yields (decode (TSizedSlice t m)) lb (VSeq (repeat v n)))).
Proof.
  intros Hok Hd. split; [apply decode_nothing; assumption|]. intros v n lb Hy Hlb.
  assert (Hvec : Yields (dec_vec (decode t)) lb (VSeq (repeat v n))).
  { intros pre post. unfold dec_vec, dbind, dmap, dbind. rewrite (len_at _ _ Hlb), Nat2Z.id.
    pose proof (@items_nothing t v n 0 Hy (pre ++ lb) post) as Hp. cbn [app] in Hp. rewrite <- app_assoc, app_length in Hp. cbn [length] in Hp.
    rewrite Nat.add_0_r in Hp. rewrite Hp. reflexivity. }
  split; [exact Hvec|]. split; [exact Hvec|]. intros m Hm pre post. cbn [decode]. unfold dec_sized_slice, dbind, dmap, dbind.
  rewrite (len_at _ _ Hlb), Nat2Z.id. replace (m <? n) with false by (symmetry; apply Nat.ltb_ge; lia).
  pose proof (@items_nothing t v m 0 Hy (pre ++ lb) post) as Hp. cbn [app] in Hp. rewrite <- app_assoc, app_length in Hp. cbn [length] in Hp.
  rewrite Nat.add_0_r in Hp. rewrite Hp.
  assert (Hr : forall a b, a <= b -> firstn a (repeat v b) = repeat v a).
  { induction a as [|a IH]; intros [|b] Hab; cbn; try reflexivity; try lia. f_equal. apply IH. lia. }
  unfold dok. rewrite (Hr n m Hm). reflexivity.
Qed.

(* ---- C77 *)
Lemma C77_certain_lemma n lb rest : WireLen n lb -> 
  (forall t, exists i' r es, hdecode (TVec t) (input_new (lb ++ rest)) = (i', r, es) /\ In (t, n) (reserved es)) /\
  (forall k, exists i' r es, hdecode (THashSet k) (input_new (lb ++ rest)) = (i', r, es) /\ In (k, n) (reserved es)) /\
  (forall k v, exists i' r es, hdecode (THashMap k v) (input_new (lb ++ rest)) = (i', r, es) /\ In (TTuple [k; v], n) (reserved es)).
Proof.
  intros Hlb. repeat split; intros; cbn [hdecode]; unfold h_vec, h_set, h_map, hbind, hplain; rewrite (len_first _ Hlb), Nat2Z.id; unfold hreserve, hmap.
  - destruct (h_items _ _ _ _ _) as [[i1 r1] es1]; destruct r1; do 3 eexists; (split; [reflexivity|]); cbn; left; reflexivity.
  - destruct (h_keys _ _ _ _ _ _) as [[i1 r1] es1]; destruct r1; do 3 eexists; (split; [reflexivity|]); cbn; left; reflexivity.
  - destruct (h_entries _ _ _ _ _ _ _ _) as [[i1 r1] es1]; destruct r1; do 3 eexists; (split; [reflexivity|]); cbn; left; reflexivity.
Qed.
