(* Proofs of C01-C04. *)
From Coq Require Import Lia ZifyBool ZifyNat ZifyN.
From Verif Require Import Base BaseFacts Streams StreamFacts SpecStreams.
Set Implicit Arguments.

Lemma run_writes_spec ds : forall o o' rs, wf_out o -> run_writes o ds = (o', rs) ->
  length rs = length ds /\ o' = append o (concat (accepted ds rs)) /\ fits o (concat (accepted ds rs)).
Proof.
  induction ds as [|d ds IH]; intros o o' rs Hw Hr; cbn [run_writes] in Hr.
  - injection Hr as <- <-. cbn. rewrite append_nil by exact Hw. unfold fits; cbn. unfold wf_out in Hw. repeat split; lia.
  - destruct (output_write o d) as [o1 r] eqn:E1. destruct (run_writes o1 ds) as [o2 rs2] eqn:E2. injection Hr as <- <-.
    destruct (Nat.leb_spec (o_pos o + length d) (length (o_buf o))) as [Hf|Hf].
    + rewrite write_fits in E1 by exact Hf. injection E1 as <- <-.
      destruct (IH _ _ _ (append_wf Hf) E2) as (Hl & He & Hfit).
      unfold accepted in *. cbn [combine filter snd is_ok map fst concat length].
      rewrite append_app in He by exact Hw. apply fits_append in Hfit; [|exact Hf]. auto.
    + rewrite write_short in E1 by (try exact Hw; unfold fits; lia). injection E1 as <- <-.
      destruct (IH _ _ _ Hw E2) as (Hl & He & Hfit).
      unfold accepted in *. cbn [combine filter snd is_ok map fst concat length]. auto.
Qed.

Lemma output_history buf ds o rs : run_writes (output_new buf) ds = (o, rs) ->
  length rs = length ds /\
  output_as_slice o = concat (accepted ds rs) /\
  output_position o = length (concat (accepted ds rs)) /\
  output_capacity o = length buf /\
  (output_position o <= output_capacity o)%nat /\
  output_remaining o = (length buf - length (concat (accepted ds rs)))%nat /\
  skipn (output_position o) (o_buf o) = skipn (output_position o) buf.
Proof.
  intros H. assert (Hw : wf_out (output_new buf)) by (unfold wf_out; cbn; lia).
  destruct (run_writes_spec _ Hw H) as (Hl & -> & Hf).
  unfold output_remaining, output_capacity, output_position.
  rewrite append_capacity by exact Hf. rewrite append_slice by exact Hw.
  pose proof (append_suffix (concat (accepted ds rs)) Hw) as Hs. cbn [output_new o_pos o_buf] in *.
  unfold fits in Hf. cbn in Hf. rewrite append_pos. cbn [output_new o_pos o_buf Nat.add] in *. repeat split; auto.
Qed.

Lemma write_failure o d : (output_position o <= output_capacity o)%nat ->
  (output_write o d = (o, Err (StreamError (output_capacity o) (output_position o) (length d)))
     /\ (output_remaining o < length d)%nat) \/
  (exists o', output_write o d = (o', Ok tt) /\ (length d <= output_remaining o)%nat).
Proof.
  unfold output_position, output_capacity, output_remaining. intros Hw.
  destruct (Nat.leb_spec (o_pos o + length d) (length (o_buf o))) as [Hf|Hf].
  - right. exists (append o d). rewrite write_fits by exact Hf. unfold output_capacity, output_position. split; [reflexivity|lia].
  - left. rewrite write_short by (try exact Hw; unfold fits; lia). unfold output_capacity, output_position. split; [reflexivity|lia].
Qed.

Lemma in_step_spec i c : wf_in i ->
  (i_pos i + in_count c <= length (i_buf i) /\
     in_step i c = (Input (i_buf i) (i_pos i + in_count c), Ok (firstn (in_count c) (skipn (i_pos i) (i_buf i))))) \/
  (length (i_buf i) < i_pos i + in_count c /\
     in_step i c = (i, Err (StreamError (length (i_buf i)) (i_pos i) (in_count c)))).
Proof.
  intros Hw. destruct (Nat.leb_spec (i_pos i + in_count c) (length (i_buf i))) as [Hf|Hf]; [left|right]; (split; [lia|]).
  - destruct c as [n|dst]; cbn [in_step in_count] in *.
    + apply read_ok; exact Hf.
    + rewrite read_into_read, read_ok by exact Hf. reflexivity.
  - destruct c as [n|dst]; cbn [in_step in_count] in *.
    + apply read_short; [exact Hw|lia].
    + rewrite read_into_read, read_short by (try exact Hw; lia). reflexivity.
Qed.

Lemma firstn_plus {A} (a b : nat) (l : list A) : firstn (a + b) l = firstn a l ++ firstn b (skipn a l).
Proof.
  revert l; induction a as [|a IH]; intros l; [reflexivity|].
  destruct l as [|x l]; cbn [firstn skipn Nat.add app]; [rewrite firstn_nil; reflexivity | rewrite IH; reflexivity].
Qed.

Lemma run_reads_spec cs : forall i i' rs, wf_in i -> run_reads i cs = (i', rs) ->
  length rs = length cs /\ wf_in i' /\ i_buf i' = i_buf i /\ i_pos i <= i_pos i' /\
  firstn (i_pos i') (i_buf i) = firstn (i_pos i) (i_buf i) ++ concat (pieces rs).
Proof.
  induction cs as [|c cs IH]; intros i i' rs Hw Hr; cbn [run_reads] in Hr.
  - injection Hr as <- <-. cbn. rewrite app_nil_r. repeat split; auto.
  - destruct (in_step i c) as [i1 r] eqn:E1. destruct (run_reads i1 cs) as [i2 rs2] eqn:E2. injection Hr as <- <-.
    destruct (in_step_spec c Hw) as [[Hf Hs]|[Hf Hs]]; rewrite Hs in E1; injection E1 as <- <-.
    + assert (Hw1 : wf_in (Input (i_buf i) (i_pos i + in_count c))) by exact Hf.
      destruct (IH _ _ _ Hw1 E2) as (Hl & Hw2 & Hb & Hp & Hc). cbn [i_buf i_pos] in *.
      unfold pieces in *. cbn [flat_map concat length app]. rewrite Hc, firstn_plus, app_assoc. repeat split; auto; lia.
    + destruct (IH _ _ _ Hw E2) as (Hl & Hw2 & Hb & Hp & Hc).
      unfold pieces in *. cbn [flat_map concat length app]. repeat split; auto.
Qed.

Lemma input_history buf cs i rs : run_reads (input_new buf) cs = (i, rs) ->
  length rs = length cs /\
  i_buf i = buf /\
  (input_position i <= input_capacity i)%nat /\
  concat (pieces rs) = firstn (input_position i) buf /\
  input_position i = length (concat (pieces rs)) /\
  forall c, (exists i', in_step i c = (i', Ok (firstn (in_count c) (skipn (input_position i) buf))) /\
                        i_buf i' = buf /\ input_position i' = (input_position i + in_count c)%nat /\
                        (in_count c <= input_remaining i)%nat) \/
            (in_step i c = (i, Err (StreamError (length buf) (input_position i) (in_count c))) /\
             (input_remaining i < in_count c)%nat).
Proof.
  intros H. assert (Hw : wf_in (input_new buf)) by (unfold wf_in; cbn; lia).
  destruct (run_reads_spec _ Hw H) as (Hl & Hw2 & Hb & Hp & Hc). cbn [input_new i_buf i_pos firstn app] in *.
  unfold input_position, input_capacity, input_remaining, input_capacity, input_position, wf_in in *. rewrite Hb in *.
  split; [exact Hl|]. split; [reflexivity|]. split; [exact Hw2|]. split; [auto|].
  split; [rewrite <- Hc, firstn_length; lia|].
  intros c. assert (Hwi : wf_in i) by (unfold wf_in; rewrite Hb; exact Hw2).
  destruct (in_step_spec c Hwi) as [[Hf Hs]|[Hf Hs]]; rewrite Hb in *.
  - left. eexists. split; [exact Hs|]. cbn [i_buf i_pos]. repeat split; lia.
  - right. split; [exact Hs | lia].
Qed.

(* a failed `read_into` leaves the caller's buffer alone, a successful one fills all of it *)
Lemma read_into_dst i dst i' dst' r : input_read_into i dst = (i', dst', r) ->
  match r with Ok _ => length dst' = length dst | _ => dst' = dst end.
Proof.
  rewrite read_into_read. unfold input_read.
  destruct (Nat.ltb_spec (length (i_buf i) - i_pos i) (length dst)) as [Hl|Hl]; intros H; injection H as <- <- <-; [reflexivity|].
  rewrite firstn_length, skipn_length. lia.
Qed.

Lemma output_eq_spec a b : output_eqb a b = true <-> output_as_slice a = output_as_slice b.
Proof. apply bytes_eqb_spec. Qed.
Lemma output_eq_slice_spec a s : output_eqb_slice a s = true <-> output_as_slice a = s.
Proof. apply bytes_eqb_spec. Qed.

Lemma output_eq_history bufa dsa a rsa bufb dsb b rsb :
  run_writes (output_new bufa) dsa = (a, rsa) -> run_writes (output_new bufb) dsb = (b, rsb) ->
  (output_eqb a b = true <-> concat (accepted dsa rsa) = concat (accepted dsb rsb)).
Proof.
  intros Ha Hb. apply output_history in Ha, Hb. destruct Ha as (_ & <- & _), Hb as (_ & <- & _). apply output_eq_spec.
Qed.
Lemma output_eq_slice_history buf ds o rs s : run_writes (output_new buf) ds = (o, rs) ->
  (output_eqb_slice o s = true <-> concat (accepted ds rs) = s).
Proof. intros Ho. apply output_history in Ho. destruct Ho as (_ & <- & _). apply output_eq_slice_spec. Qed.
