(* Consequences of locality: C15, C16, C22. *)
From Coq Require Import Lia ZifyBool ZifyNat ZifyN.
From Verif Require Import Base BaseFacts Streams StreamFacts Utf8 Types TypesFacts Traits Decode StreamProofs DecodeFacts.
Set Implicit Arguments.

(* the bytes still to be read *)
Definition rest (i : input) : list byte := skipn (i_pos i) (i_buf i).

Lemma rest_length i : length (rest i) = length (i_buf i) - i_pos i.
Proof. apply skipn_length. Qed.

Definition short_read (p : panic) : Prop := exists e, p = PInput e.

Lemma dread_ok i n : n <= length (rest i) -> wf_in i -> dread n i = (Input (i_buf i) (i_pos i + n), Ok (firstn n (rest i))).
Proof. intros H Hw. rewrite rest_length in H. unfold wf_in in Hw. unfold dread. rewrite read_ok by lia. reflexivity. Qed.

Lemma dread_short i n : length (rest i) < n -> wf_in i ->
  dread n i = (i, Panic (PInput (StreamError (length (i_buf i)) (i_pos i) n))).
Proof. intros H Hw. rewrite rest_length in H. unfold wf_in in *. unfold dread. rewrite read_short by (try exact Hw; lia). reflexivity. Qed.

Lemma rest_advance i n : rest (Input (i_buf i) (i_pos i + n)) = skipn n (rest i).
Proof. unfold rest. cbn [i_buf i_pos]. rewrite skipn_plus. reflexivity. Qed.

Lemma advance_wf i n : n <= length (rest i) -> wf_in i -> wf_in (Input (i_buf i) (i_pos i + n)).
Proof. rewrite rest_length. unfold wf_in. cbn [i_buf i_pos]. lia. Qed.

Section LocalFacts.
  Context {A : Type}.

  Lemma local_forward (m : D A) : Local m -> forall i i' r, wf_in i -> m i = (i', r) ->
    i_buf i' = i_buf i /\ i_pos i <= i_pos i' /\ wf_in i'.
  Proof.
    intros H. induction H as [m r Hr | m n k Hr Hk IH]; intros i i' q Hw Hm; rewrite Hr in Hm.
    - injection Hm as <- <-. auto.
    - unfold dbind in Hm. destruct (Nat.leb_spec n (length (rest i))) as [Hn|Hn].
      + rewrite dread_ok in Hm by assumption. apply IH in Hm.
        * cbn [i_buf i_pos] in Hm. destruct Hm as (-> & ? & ?). repeat split; [lia | assumption].
        * rewrite firstn_length. lia.
        * apply advance_wf; assumption.
      + rewrite dread_short in Hm by assumption. injection Hm as <- <-. auto.
  Qed.

  (* the same answer wherever the consumed bytes are found, and however much follows *)
  Lemma local_transport (m : D A) : Local m -> forall i i' r, wf_in i -> m i = (i', r) ->
    (forall e, r <> Panic (PInput e)) ->
    forall j, wf_in j -> firstn (i_pos i' - i_pos i) (rest j) = firstn (i_pos i' - i_pos i) (rest i) ->
    m j = (Input (i_buf j) (i_pos j + (i_pos i' - i_pos i)), r).
  Proof.
    intros H. induction H as [m r Hr | m n k Hr Hk IH]; intros i i' q Hw Hm Hp j Hj Heq; rewrite Hr in Hm |- *.
    - injection Hm as <- <-. rewrite Nat.sub_diag, Nat.add_0_r. destruct j; reflexivity.
    - unfold dbind in Hm |- *. destruct (Nat.leb_spec n (length (rest i))) as [Hn|Hn].
      + rewrite dread_ok in Hm by assumption.
        assert (Hl : length (firstn n (rest i)) = n) by (rewrite firstn_length; lia).
        set (i1 := Input (i_buf i) (i_pos i + n)) in *.
        assert (Hw1 : wf_in i1) by (apply advance_wf; assumption).
        destruct (local_forward (Hk _ Hl) Hw1 Hm) as (Hb & Hpos & Hw'). cbn [i_pos i1] in Hpos.
        set (d := i_pos i' - i_pos i) in *.
        assert (Hd : n <= d) by lia.
        assert (Hdi : d <= length (rest i)) by (rewrite rest_length; unfold wf_in in Hw'; rewrite Hb in Hw'; cbn [i1 i_buf] in Hw'; lia).
        assert (Hdj : d <= length (rest j)).
        { apply (f_equal (@length byte)) in Heq. rewrite !firstn_length in Heq. lia. }
        assert (Hfn : firstn n (rest j) = firstn n (rest i)).
        { apply (f_equal (firstn n)) in Heq. rewrite !firstn_firstn in Heq. replace (Nat.min n d) with n in Heq by lia. exact Heq. }
        rewrite dread_ok by (assumption || lia). rewrite Hfn.
        erewrite (IH _ Hl i1 i' q Hw1 Hm Hp).
        * cbn [i_buf i_pos i1]. f_equal. f_equal. lia.
        * apply advance_wf; [lia | assumption].
        * unfold i1 at 1. cbn [i_pos].
          rewrite rest_advance. unfold i1. rewrite rest_advance. cbn [i_pos].
          apply (f_equal (skipn n)) in Heq. rewrite !skipn_firstn_comm in Heq.
          replace (i_pos i' - (i_pos i + n)) with (d - n) by lia. exact Heq.
      + rewrite dread_short in Hm by assumption. injection Hm as <- <-. exfalso. apply (Hp _ eq_refl).
  Qed.

  (* a proper prefix of what was consumed makes the decoder run out of input *)
  Lemma local_truncated (m : D A) : Local m -> forall i i' r, wf_in i -> m i = (i', r) ->
    (forall e, r <> Panic (PInput e)) ->
    forall j, wf_in j -> length (rest j) < i_pos i' - i_pos i -> rest j = firstn (length (rest j)) (rest i) ->
    exists j' e, m j = (j', Panic (PInput e)).
  Proof.
    intros H. induction H as [m r Hr | m n k Hr Hk IH]; intros i i' q Hw Hm Hp j Hj Hlt Heq; rewrite Hr in Hm |- *.
    - injection Hm as <- <-. lia.
    - unfold dbind in Hm |- *. destruct (Nat.leb_spec n (length (rest i))) as [Hn|Hn].
      + rewrite dread_ok in Hm by assumption.
        assert (Hl : length (firstn n (rest i)) = n) by (rewrite firstn_length; lia).
        set (i1 := Input (i_buf i) (i_pos i + n)) in *.
        assert (Hw1 : wf_in i1) by (apply advance_wf; assumption).
        destruct (Nat.leb_spec n (length (rest j))) as [Hnj|Hnj].
        * rewrite dread_ok by assumption.
          assert (Hfn : firstn n (rest j) = firstn n (rest i)).
          { rewrite Heq, firstn_firstn. f_equal. lia. }
          rewrite Hfn. apply (IH _ Hl i1 i' q Hw1 Hm Hp).
          -- apply advance_wf; assumption.
          -- rewrite rest_advance, skipn_length. cbn [i1 i_pos]. lia.
          -- unfold i1. rewrite !rest_advance, skipn_length.
             apply (f_equal (skipn n)) in Heq. rewrite skipn_firstn_comm in Heq. exact Heq.
        * rewrite dread_short by assumption. eexists _, _. reflexivity.
      + rewrite dread_short in Hm by assumption. injection Hm as <- <-. exfalso. apply (Hp _ eq_refl).
  Qed.
End LocalFacts.
