(* Which lives of a SizedSlice drop or give away each item exactly once. *)
From Coq Require Import Lia Permutation.
From Verif Require Import Base Types Mem SizedSlice SizedIter Owned SpecContainers SpecOwnedExact SizedSliceProofs SizedIterProofs.
Set Implicit Arguments.

Lemma own_iterated {A} ch size n : forall ends (items : list A) (i : siter A), ishape n items i ->
  exists es rest, own_run ch size (map ONext ends ++ [ODrop]) (HIter i) = Done (es, HGone) /\
    Permutation (map ev_item es ++ rest) items /\ length es = Nat.min (length ends) (length items).
Proof.
  induction ends as [|e ends IH]; intros items i Hi.
  - exists [], items. split; [reflexivity|]. split; [reflexivity|]. reflexivity.
  - destruct (@ishape_step _ _ _ _ e Hi) as (i1 & H1 & Hs1). pose proof (deque1_perm e items) as Hp.
    destruct (IH _ _ Hs1) as (es & rest & Hrun & Hperm & Hlen). cbn [map app own_run own_step]. rewrite H1. cbn [omap obind]. rewrite Hrun. cbn [omap obind].
    eexists. exists rest. split; [reflexivity|]. split.
    + rewrite map_app, <- app_assoc, Hperm. etransitivity; [|exact Hp]. destruct (fst (deque1 e items)); reflexivity.
    + rewrite app_length, Hlen. cbn [length]. apply Permutation_length in Hp. rewrite app_length in Hp.
      assert (Hsome : items = [] \/ exists y, fst (deque1 e items) = Some y).
      { destruct items as [|x l]; [left; reflexivity|]. right. destruct e; cbn [deque1]; [eexists; reflexivity|].
        destruct (rev (x :: l)) eqn:E; [|eexists; reflexivity]. apply (f_equal (@length A)) in E. rewrite rev_length in E. discriminate. }
      destruct Hsome as [->|(y & Hy)].
      * destruct e; cbn; lia.
      * rewrite Hy in *. cbn [length] in *. lia.
Qed.

Lemma own_converted {A} ch size n (s : sslice A) items : shape n items s -> (0 < size)%N ->
  own_run ch size [OIntoVec; ODrop] (HSlice s) = match items with [] => Undefined UZeroAlloc | _ => Done (map Dropped items, HGone) end.
Proof.
  intros Hs Hz. cbn [own_run own_step]. unfold ss_into_boxed_slice. destruct (shape_len Hs) as (Hl & _ & _). unfold ss_length in Hl.
  fold (ss_as_slice s). rewrite (shape_slice Hs). destruct items as [|x l].
  - rewrite Hl. replace ((size * N.of_nat (length (@nil A)) =? 0)%N) with true by (symmetry; apply N.eqb_eq; cbn; lia). reflexivity.
  - replace ((size * N.of_nat (ss_len s) =? 0)%N) with false by (symmetry; apply N.eqb_neq; rewrite Hl; cbn [length]; lia).
    cbn. rewrite app_nil_r. reflexivity.
Qed.

Lemma dropped_items {A} (l : list A) : map ev_item (map Dropped l) = l.
Proof. rewrite map_map. apply map_id. Qed.

Lemma own_life {A} ch size n (s : sslice A) items l : shape n items s -> (0 < size)%N ->
  (exists es rest, own_run ch size (calls l) (HSlice s) = Done (es, HGone) /\ Permutation (map ev_item es ++ rest) items /\
     length es = match l with Left => 0 | Converted => length items | Iterated ends => Nat.min (length ends) (length items) end) \/
  (l = Converted /\ items = [] /\ own_run ch size (calls l) (HSlice s) = Undefined UZeroAlloc).
Proof.
  intros Hs Hz. destruct l as [| |ends].
  - left. exists [], items. split; [reflexivity|]. split; reflexivity.
  - cbn [calls]. rewrite (@own_converted _ ch _ _ _ _ Hs Hz). destruct items as [|x l]; [right; auto|]. left.
    exists (map Dropped (x :: l)), []. split; [reflexivity|]. rewrite dropped_items, app_nil_r, List.map_length. split; reflexivity.
  - left. destruct (@own_iterated A ch size n ends items (ss_into_iter s) (ishape_into _ _ _ Hs)) as (es & rest & H & Hp & Hl).
    exists es, rest. cbn [calls]. change (OIntoIter :: map ONext ends ++ [ODrop]) with ([OIntoIter] ++ (map ONext ends ++ [ODrop])).
    cbn [app own_run own_step obind]. rewrite H. cbn [omap obind app]. auto.
Qed.

Lemma perm_whole {A} (l rest items : list A) : Permutation (l ++ rest) items -> (Permutation l items <-> length l = length items).
Proof.
  intros Hp. split; [apply Permutation_length|]. intros Hl. pose proof (Permutation_length Hp) as Hn. rewrite app_length in Hn.
  destruct rest; [|cbn in Hn; lia]. rewrite app_nil_r in Hp. exact Hp.
Qed.

Lemma C55_exact_lemma : forall n A (s : sslice A) items checks size l, Reachable n s -> ss_as_slice s = Done items -> (0 < size)%N ->
  ((exists es, own_run checks size (calls l) (HSlice s) = Done (es, HGone) /\ Permutation (map ev_item es) items) <->
   match l with Left => items = [] | Converted => items <> [] | Iterated ends => length items <= length ends end).
Proof.
  intros n A s items ch size l Hr Hi Hz. destruct (reachable_shape Hr) as (items' & Hs). pose proof (shape_unique Hs Hi) as ->.
  destruct (@own_life A ch size n s items' l Hs Hz) as [(es & rest & H & Hp & Hl) | (-> & -> & H)].
  - rewrite H. transitivity (length es = length items').
    + split.
      * intros (es' & [= <-] & P). apply (perm_whole _ _ Hp) in P. rewrite List.map_length in P. exact P.
      * intros E. exists es. split; [reflexivity|]. apply (perm_whole _ _ Hp). rewrite List.map_length. exact E.
    + rewrite Hl. destruct l as [| |ends]; [|  |lia].
      * destruct items'; cbn; split; congruence.
      * split; [|reflexivity]. intros _ ->. cbn [calls] in H. rewrite (@own_converted _ ch _ _ _ _ Hs Hz) in H. discriminate H.
  - rewrite H. split; [intros (es & E & _); discriminate E | congruence].
Qed.

Lemma C55_array_exact_lemma : forall A (items : list A) checks size l, (0 < size)%N ->
  ((exists es, own_run checks size (OFrom :: calls l) (HArray items) = Done (es, HGone) /\ Permutation (map ev_item es) items) <->
   match l with Left => True | Converted => False | Iterated ends => items = [] \/ ends = [] end).
Proof.
  intros A items ch size l Hz.
  assert (Hr : Reachable (length items) (ss_from_array items)) by (constructor; reflexivity).
  destruct (reachable_shape Hr) as (items' & Hs).
  assert (items' = items) as ->.
  { symmetry. apply (shape_unique Hs). unfold ss_as_slice, ss_from_array. cbn [ss_len ss_buf].
    pose proof (@mem_slice_mid A items [] [] 0 eq_refl) as H. cbn [app] in H. rewrite app_nil_r in H. exact H. }
  cbn [own_run own_step obind].
  destruct (@own_life A ch size _ _ items l Hs Hz) as [(es & rest & H & Hp & Hl) | (-> & -> & H)].
  - rewrite H. cbn [omap obind]. transitivity (es = []).
    + split.
      * intros (es' & [= <-] & P). apply Permutation_length in P. rewrite map_app, dropped_items, app_length, List.map_length in P.
        destruct es; [reflexivity|]. cbn in P. lia.
      * intros ->. eexists. split; [reflexivity|]. rewrite app_nil_r, dropped_items. reflexivity.
    + assert (K : es = [] <-> length es = 0) by (destruct es; cbn; split; congruence). rewrite K, Hl. destruct l as [| |ends]; [tauto| |].
      * split; [|tauto]. destruct items; [|discriminate]. cbn [calls] in H. rewrite (@own_converted _ ch _ _ _ _ Hs Hz) in H. discriminate H.
      * destruct items, ends; cbn; intuition congruence.
  - rewrite H. cbn [omap obind]. split; [intros (es & E & _); discriminate E | contradiction].
Qed.
