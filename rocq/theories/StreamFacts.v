(* Facts about the two streams. *)
From Coq Require Import Lia ZifyBool ZifyNat ZifyN.
From Verif Require Import Base BaseFacts Streams.
Set Implicit Arguments.

(* reachable states *)
Definition wf_out (o : output) : Prop := o_pos o <= length (o_buf o).
Definition wf_in (i : input) : Prop := i_pos i <= length (i_buf i).

(* [bs] written at the position *)
Definition append (o : output) (bs : list byte) : output :=
  Output (firstn (o_pos o) (o_buf o) ++ bs ++ skipn (o_pos o + length bs) (o_buf o)) (o_pos o + length bs).

Definition fits (o : output) (bs : list byte) : Prop := o_pos o + length bs <= length (o_buf o).

Lemma append_nil o : wf_out o -> append o [] = o.
Proof.
  intros H. unfold append. cbn [length app]. rewrite Nat.add_0_r, firstn_skipn. destruct o; reflexivity.
Qed.

Lemma append_capacity o bs : fits o bs -> length (o_buf (append o bs)) = length (o_buf o).
Proof.
  unfold fits, append. cbn [o_buf]. intros H.
  rewrite !app_length, firstn_length, skipn_length. lia.
Qed.

Lemma append_pos o bs : o_pos (append o bs) = o_pos o + length bs.
Proof. reflexivity. Qed.

Lemma append_wf o bs : fits o bs -> wf_out (append o bs).
Proof. intros H. unfold wf_out. rewrite append_capacity by exact H. exact H. Qed.

Lemma append_prefix o bs : wf_out o -> firstn (o_pos o) (o_buf (append o bs)) = firstn (o_pos o) (o_buf o).
Proof.
  intros H. unfold append. cbn [o_buf].
  rewrite firstn_app, firstn_firstn, Nat.min_id, firstn_length. unfold wf_out in H.
  replace (o_pos o - Nat.min (o_pos o) (length (o_buf o))) with 0 by lia. rewrite firstn_O, app_nil_r. reflexivity.
Qed.

Lemma append_suffix o bs : wf_out o ->
  skipn (o_pos o + length bs) (o_buf (append o bs)) = skipn (o_pos o + length bs) (o_buf o).
Proof.
  intros H. unfold append, wf_out in *. cbn [o_buf].
  rewrite skipn_app, firstn_length. replace (Nat.min (o_pos o) (length (o_buf o))) with (o_pos o) by lia.
  rewrite skipn_all2 by (rewrite firstn_length; lia). cbn [app].
  replace (o_pos o + length bs - o_pos o) with (length bs) by lia.
  apply skipn_length_app.
Qed.

Lemma append_slice o bs : wf_out o -> output_as_slice (append o bs) = output_as_slice o ++ bs.
Proof.
  intros H. unfold output_as_slice, append, wf_out in *. cbn [o_buf o_pos].
  rewrite firstn_app, firstn_length. replace (Nat.min (o_pos o) (length (o_buf o))) with (o_pos o) by lia.
  rewrite firstn_firstn. replace (Nat.min (o_pos o + length bs) (o_pos o)) with (o_pos o) by lia.
  replace (o_pos o + length bs - o_pos o) with (length bs) by lia. rewrite firstn_length_app. reflexivity.
Qed.

Lemma append_app o a b : wf_out o -> append (append o a) b = append o (a ++ b).
Proof.
  intros H. unfold wf_out in H. unfold append at 1.
  pose proof (append_slice a H) as Hs. unfold output_as_slice in Hs. rewrite append_pos in *. rewrite Hs.
  rewrite <- (skipn_plus (length b) (o_pos o + length a)), append_suffix by exact H.
  rewrite skipn_plus. unfold append. rewrite app_length, <- !app_assoc, !Nat.add_assoc. reflexivity.
Qed.

Lemma write_fits o bs : fits o bs -> output_write o bs = (append o bs, Ok tt).
Proof.
  unfold fits, output_write. intros H. destruct (Nat.ltb_spec (length (o_buf o) - o_pos o) (length bs)); [lia | reflexivity].
Qed.

Lemma write_short o bs : wf_out o -> ~ fits o bs ->
  output_write o bs = (o, Err (StreamError (length (o_buf o)) (o_pos o) (length bs))).
Proof.
  unfold fits, wf_out, output_write. intros Hw H.
  destruct (Nat.ltb_spec (length (o_buf o) - o_pos o) (length bs)); [reflexivity | lia].
Qed.

Lemma fits_app o a b : fits o (a ++ b) <-> o_pos o + length a + length b <= length (o_buf o).
Proof. unfold fits. rewrite app_length. lia. Qed.

Lemma fits_append o a b : fits o a -> (fits (append o a) b <-> fits o (a ++ b)).
Proof. intros H. rewrite fits_app. unfold fits. rewrite append_capacity, append_pos by exact H. reflexivity. Qed.

(* input *)
Lemma read_ok i n : i_pos i + n <= length (i_buf i) ->
  input_read i n = (Input (i_buf i) (i_pos i + n), Ok (firstn n (skipn (i_pos i) (i_buf i)))).
Proof. unfold input_read. intros H. destruct (Nat.ltb_spec (length (i_buf i) - i_pos i) n); [lia | reflexivity]. Qed.

Lemma read_short i n : wf_in i -> length (i_buf i) < i_pos i + n ->
  input_read i n = (i, Err (StreamError (length (i_buf i)) (i_pos i) n)).
Proof. unfold input_read, wf_in. intros Hw H. destruct (Nat.ltb_spec (length (i_buf i) - i_pos i) n); [reflexivity | lia]. Qed.

Lemma read_into_read i dst :
  input_read_into i dst =
  match input_read i (length dst) with
  | (i', Ok bs) => (i', bs, Ok tt)
  | (i', Err e) => (i', dst, Err e)
  | (i', Panic p) => (i', dst, Panic p)
  end.
Proof.
  unfold input_read_into, input_read. destruct (length (i_buf i) - i_pos i <? length dst); reflexivity.
Qed.

(* bytes_eqb *)
Lemma bytes_eqb_spec a b : bytes_eqb a b = true <-> a = b.
Proof.
  revert b; induction a as [|x a IH]; intros [|y b]; cbn [bytes_eqb]; try (split; congruence).
  rewrite andb_true_iff, byte_eqb_spec, IH. split; [intros [-> ->]; reflexivity | intros H; injection H; auto].
Qed.
