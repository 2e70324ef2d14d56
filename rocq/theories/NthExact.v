(* When nth and size_hint are right. *)
From Coq Require Import Lia.
From Verif Require Import Base Types Mem SizedSlice SizedIter SpecContainers SizedSliceProofs SizedIterProofs.
Set Implicit Arguments.

Lemma cells_length A (cs : list (option A)) n : forall a xs, mem_slice cs a n = Done xs -> length xs = n.
Proof.
  induction n as [|n IH]; intros a xs; cbn [mem_slice]; [intros [= <-]; reflexivity|].
  destruct (mem_read cs a); cbn [obind]; try discriminate. destruct (mem_slice cs (Datatypes.S a) n) eqn:E; cbn [omap obind]; try discriminate.
  intros [= <-]. cbn [length]. f_equal. exact (IH _ _ E).
Qed.

Lemma C58_nth_exact_lemma : forall n A (s : sslice A) items es rs i left checks k, Reachable n s -> ss_as_slice s = Done items ->
  it_run es (ss_into_iter s) = Done (rs, i) -> it_as_slice i = Done left ->
  ((exists i', it_nth checks i k = Done (nth_error left k, firstn k left, i') /\ it_as_slice i' = Done (skipn (Datatypes.S k) left)) <-> left = [] /\ k <> 0).
Proof.
  intros n A s items es rs i left checks k Hr Hi Hrun Hl.
  destruct (@C58_exact_lemma n A s items es rs i left checks k Hr Hi Hrun Hl) as (_ & H1 & H2 & H3 & _). split.
  - intros (i' & E & El). destruct (Nat.eq_dec k 0) as [->|Hk].
    { destruct (Nat.eq_dec (length (taken true es rs)) 0) as [Z|Z].
      - rewrite (H2 eq_refl Z) in E. destruct checks; discriminate E.
      - rewrite (H3 eq_refl) in E by lia. discriminate E. }
    split; [|exact Hk]. destruct (le_lt_dec k (length left)) as [L|L].
    + exfalso. pose proof (@cells_length _ _ _ _ _ Hl) as Ln. unfold it_nth in E. rewrite <- Ln in E.
      destruct (Nat.ltb_spec (length left) k); [lia|]. destruct (Nat.eqb_spec (it_pos i + k) 0); [lia|].
      destruct (Nat.ltb_spec (it_pos i + k - 1) (it_pos i)); [discriminate E|]. destruct (length (it_buf i) <? it_pos i + k - 1); [discriminate E|].
      destruct (mem_slice (it_buf i) (it_pos i) (it_pos i + k - 1 - it_pos i)); cbn [obind] in E; try discriminate E.
      destruct (mem_read (it_buf i) k) eqn:M; cbn [omap obind] in E; try discriminate E. injection E as E _ <-.
      assert (k < length left) by (apply nth_error_Some; rewrite <- E; discriminate).
      apply cells_length in El. cbn [it_len] in El. rewrite skipn_length in El. lia.
    + rewrite (H1 L) in E. injection E as _ _ <-. rewrite Hl, skipn_all2 in El by lia. congruence.
  - intros [-> Hk]. exists i. rewrite H1 by (cbn; lia). destruct k; [lia|]. split; [reflexivity|exact Hl].
Qed.

Lemma C58_hint_exact_lemma : forall n A (s : sslice A) items es rs i left, Reachable n s -> ss_as_slice s = Done items ->
  it_run es (ss_into_iter s) = Done (rs, i) -> it_as_slice i = Done left -> (it_size_hint i = Done (length left) <-> taken true es rs = []).
Proof.
  intros n A s items es rs i left Hr Hi Hrun Hl.
  destruct (@C58_exact_lemma n A s items es rs i left true 0 Hr Hi Hrun Hl) as (H & _). rewrite H.
  destruct (taken true es rs) as [|x l]; cbn [length].
  - cbn [Nat.leb]. rewrite Nat.sub_0_r. tauto.
  - split; [|discriminate]. destruct (Nat.leb_spec (Datatypes.S (length l)) (length left)); [|discriminate]. intros [= E]. lia.
Qed.
