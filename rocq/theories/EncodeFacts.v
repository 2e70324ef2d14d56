(* What every encoder does to an output: replay a fixed list of writes. *)
From Coq Require Import Lia ZifyBool ZifyNat ZifyN.
From Verif Require Import Base BaseFacts Streams StreamFacts Utf8 Types TypesFacts Traits Encode Spec.
Set Implicit Arguments.

(* perform the writes [cs] (panicking on the first that does not fit), then finish with [r] *)
Fixpoint replay (cs : list (list byte)) (r : res eerr unit) : E := fun o =>
  match cs with
  | [] => (o, r)
  | c :: cs' =>
    match output_write o c with
    | (o', Ok _) => replay cs' r o'
    | (o', Err e) => (o', Panic (POutput e))
    | (o', Panic p) => (o', Panic p)
    end
  end.

Definition Traces (m : E) (cs : list (list byte)) (r : res eerr unit) : Prop := forall o, m o = replay cs r o.
Definition Succeeds (m : E) (bs : list byte) : Prop := exists cs, Traces m cs (Ok tt) /\ concat cs = bs.

Definition rmap_err (f : eerr -> eerr) (r : res eerr unit) : res eerr unit :=
  match r with Err e => Err (f e) | r => r end.

Lemma T_eok : Traces eok [] (Ok tt).
Proof. intros o. reflexivity. Qed.
Lemma T_eerror e : Traces (eerror e) [] (Err e).
Proof. intros o. reflexivity. Qed.
Lemma T_epanic p : Traces (epanic p) [] (Panic p).
Proof. intros o. reflexivity. Qed.
Lemma T_ewrite d : Traces (ewrite d) [d] (Ok tt).
Proof. intros o. unfold ewrite. cbn [replay]. destruct (output_write o d) as [o' [[]|e|p]]; reflexivity. Qed.

Lemma T_seq_ok a b cs ds r : Traces a cs (Ok tt) -> Traces b ds r -> Traces (eseq a b) (cs ++ ds) r.
Proof.
  intros Ha Hb o. unfold eseq. rewrite (Ha o). clear Ha. revert o.
  induction cs as [|c cs IH]; intros o; cbn [replay app].
  - apply Hb.
  - destruct (output_write o c) as [o' [[]|e|p]]; [apply IH | reflexivity | reflexivity].
Qed.

Lemma T_seq_stop a b cs r : Traces a cs r -> r <> Ok tt -> Traces (eseq a b) cs r.
Proof.
  intros Ha Hr o. unfold eseq. rewrite (Ha o). clear Ha. revert o.
  induction cs as [|c cs IH]; intros o; cbn [replay].
  - destruct r as [[]|e|p]; [congruence | reflexivity | reflexivity].
  - destruct (output_write o c) as [o' [[]|e|p]]; [apply IH | reflexivity | reflexivity].
Qed.

Lemma T_map_err f a cs r : Traces a cs r -> Traces (emap_err f a) cs (rmap_err f r).
Proof.
  intros Ha o. unfold emap_err. rewrite (Ha o). clear Ha. revert o.
  induction cs as [|c cs IH]; intros o; cbn [replay].
  - destruct r as [[]|e|p]; reflexivity.
  - destruct (output_write o c) as [o' [[]|e|p]]; [apply IH | reflexivity | reflexivity].
Qed.

(* ---- replaying *)

Lemma replay_fits cs r : forall o, wf_out o -> fits o (concat cs) -> replay cs r o = (append o (concat cs), r).
Proof.
  induction cs as [|c cs IH]; intros o Hw Hf; cbn [replay concat].
  - rewrite append_nil by exact Hw. reflexivity.
  - cbn [concat] in Hf. assert (Hc : fits o c) by (apply fits_app in Hf; unfold fits; lia).
    rewrite write_fits by exact Hc. rewrite IH.
    + rewrite append_app by exact Hw. reflexivity.
    + apply append_wf; exact Hc.
    + apply fits_append; assumption.
Qed.

Lemma replay_short cs r : forall o, wf_out o -> ~ fits o (concat cs) ->
  exists done c rest, cs = done ++ c :: rest /\ fits o (concat done) /\ ~ fits o (concat done ++ c) /\
    replay cs r o = (append o (concat done),
                     Panic (POutput (StreamError (length (o_buf o)) (o_pos o + length (concat done)) (length c)))).
Proof.
  induction cs as [|c cs IH]; intros o Hw Hf.
  - exfalso. apply Hf. unfold fits, wf_out in *. cbn. lia.
  - cbn [replay]. destruct (Nat.leb_spec (o_pos o + length c) (length (o_buf o))) as [Hc|Hc].
    + rewrite write_fits by exact Hc.
      destruct (IH (append o c)) as (done & c' & rest & -> & Hf1 & Hf2 & Hr).
      * apply append_wf; exact Hc.
      * intros Hx. apply Hf. cbn [concat]. apply fits_append; assumption.
      * exists (c :: done), c', rest. cbn [concat app].
        split; [reflexivity|]. split; [apply fits_append; assumption|].
        split; [intros Hx; apply Hf2; apply fits_append; [exact Hc | rewrite <- app_assoc in Hx; exact Hx]|].
        rewrite Hr, append_app, append_capacity, append_pos by assumption.
        rewrite app_length, Nat.add_assoc. reflexivity.
    + exists [], c, cs. cbn [concat app length].
      split; [reflexivity|]. split; [unfold fits, wf_out in *; cbn; lia|].
      split; [unfold fits; lia|].
      rewrite write_short by (try exact Hw; unfold fits; lia). rewrite append_nil, Nat.add_0_r by exact Hw. reflexivity.
Qed.

(* a big output, on which everything fits *)
Definition big_out (n : nat) : output := Output (repeat x00 n) 0.
Lemma big_wf n : wf_out (big_out n).
Proof. unfold wf_out; cbn. lia. Qed.
Lemma big_fits n bs : length bs <= n -> fits (big_out n) bs.
Proof. intros H. unfold fits; cbn. rewrite repeat_length. exact H. Qed.

Lemma append_inj o a b : wf_out o -> append o a = append o b -> a = b.
Proof.
  intros Hw H. apply (app_inv_head (output_as_slice o)). rewrite <- !append_slice by exact Hw. rewrite H. reflexivity.
Qed.

Lemma traces_unique m cs r ds q : Traces m cs r -> Traces m ds q ->
  concat cs = concat ds /\ r = q.
Proof.
  intros H1 H2. set (o := big_out (length (concat cs) + length (concat ds))).
  pose proof (H1 o) as E1. pose proof (H2 o) as E2.
  rewrite replay_fits in E1 by (try apply big_wf; apply big_fits; lia).
  rewrite replay_fits in E2 by (try apply big_wf; apply big_fits; lia).
  rewrite E1 in E2. injection E2 as Hb Hp Hr. split; [|exact Hr].
  apply (append_inj (o := o)); [apply big_wf|]. unfold append. f_equal; [exact Hb | exact Hp].
Qed.

Lemma succeeds_unique m a b : Succeeds m a -> Succeeds m b -> a = b.
Proof. intros (cs & Hc & <-) (ds & Hd & <-). apply (traces_unique Hc Hd). Qed.

(* ---- every encoder has a trace *)

Definition HasTrace (m : E) : Prop := exists cs r, Traces m cs r.

Lemma HT_intro m cs r : Traces m cs r -> HasTrace m.
Proof. intros H. exists cs, r. exact H. Qed.
Lemma HT_seq a b : HasTrace a -> HasTrace b -> HasTrace (eseq a b).
Proof.
  intros (cs & r & Ha) (ds & q & Hb). destruct r as [[]|e|p].
  - exists (cs ++ ds), q. apply T_seq_ok; assumption.
  - exists cs, (Err e). apply T_seq_stop; [exact Ha | congruence].
  - exists cs, (Panic p). apply T_seq_stop; [exact Ha | congruence].
Qed.
Lemma HT_map_err f a : HasTrace a -> HasTrace (emap_err f a).
Proof. intros (cs & r & Ha). eexists _, _. apply T_map_err; exact Ha. Qed.
Lemma HT_ok : HasTrace eok.
Proof. apply (HT_intro T_eok). Qed.
Lemma HT_err e : HasTrace (eerror e).
Proof. apply (HT_intro (T_eerror e)). Qed.
Lemma HT_panic p : HasTrace (epanic p).
Proof. apply (HT_intro (T_epanic p)). Qed.
Lemma HT_write d : HasTrace (ewrite d).
Proof. apply (HT_intro (T_ewrite d)). Qed.
Lemma HT_num w z : HasTrace (enc_num w z).
Proof. apply HT_write. Qed.
Lemma HT_int i z : HasTrace (enc_int i z).
Proof.
  destruct i; cbn [enc_int]; try apply HT_num.
  - unfold enc_usize. destruct (_ && _); [apply HT_num | apply HT_err].
  - unfold enc_isize. destruct (_ && _); [apply HT_num | apply HT_err].
Qed.
Lemma HT_items {A} (f : A -> E) wrap l : Forall (fun x => HasTrace (f x)) l -> forall i, HasTrace (enc_items f wrap i l).
Proof.
  induction 1 as [|x l Hx Hl IH]; intros i; cbn [enc_items]; [apply HT_ok|].
  apply HT_seq; [apply HT_map_err; exact Hx | apply IH].
Qed.
Lemma HT_slice {A} (f : A -> E) wrap l : (forall x, HasTrace (f x)) -> HasTrace (enc_slice f wrap l).
Proof.
  intros H. apply HT_seq; [apply HT_map_err; apply (HT_int Usize)|].
  apply HT_items. apply Forall_forall. intros x _. apply H.
Qed.
Lemma HT_fields fs conv : Forall (fun f => forall v, HasTrace (f v)) fs -> forall vs, HasTrace (enc_fields fs conv vs).
Proof.
  induction 1 as [|f fs Hf Hfs IH]; intros [|v vs]; cbn [enc_fields]; try apply HT_panic; [apply HT_ok|].
  apply HT_seq; [apply HT_map_err; apply Hf | apply IH].
Qed.
Lemma HT_entries fk fv kvs : (forall x, HasTrace (fk x)) -> (forall x, HasTrace (fv x)) -> HasTrace (enc_entries fk fv kvs).
Proof.
  intros Hk Hv. induction kvs as [|[k v] l IH]; cbn [enc_entries]; [apply HT_ok|].
  apply HT_seq; [apply Hk | apply HT_seq; [apply Hv | exact IH]].
Qed.
Lemma HT_keys fk ks : (forall x, HasTrace (fk x)) -> HasTrace (enc_keys fk ks).
Proof.
  intros Hk. induction ks as [|k l IH]; cbn [enc_keys]; [apply HT_ok|]. apply HT_seq; [apply Hk | exact IH].
Qed.

Ltac ht :=
  lazymatch goal with
  | |- HasTrace (epanic _) => apply HT_panic
  | |- HasTrace (eerror _) => apply HT_err
  | |- HasTrace eok => apply HT_ok
  | |- HasTrace (enc_num _ _) => apply HT_num
  | |- HasTrace (enc_u8 _) => apply HT_num
  | |- HasTrace (enc_bool _) => apply HT_num
  | |- HasTrace (enc_ip4 _) => apply HT_num
  | |- HasTrace (enc_ip6 _) => apply HT_num
  | |- HasTrace (enc_int _ _) => apply HT_int
  | |- HasTrace (emap_err _ _) => apply HT_map_err; ht
  | |- HasTrace (eseq _ _) => apply HT_seq; ht
  | |- HasTrace (enc_sock4 _ _) => unfold enc_sock4; ht
  | |- HasTrace (enc_sock6 _ _ _ _) => unfold enc_sock6; ht
  | |- HasTrace (enc_duration _ _) => unfold enc_duration; ht
  | |- HasTrace (enc_bytes _) => apply HT_slice; intros ?; apply HT_num
  | |- HasTrace (enc_slice _ _ _) => apply HT_slice; intros ?; ht
  | |- HasTrace (enc_items _ _ _ _) => apply HT_items, Forall_forall; intros ? _; ht
  | |- HasTrace (enc_entries _ _ _) => apply HT_entries; intros ?; ht
  | |- HasTrace (enc_keys _ _) => apply HT_keys; intros ?; ht
  | |- HasTrace (encode _ ?t _) => match goal with IH : forall v, HasTrace (encode _ t v) |- _ => apply IH end
  | |- _ => idtac
  end.

Lemma encode_has_trace ch t : forall v, HasTrace (encode ch t v).
Proof.
  induction t using ty_ind_strong; intros v; destruct v; cbn [encode]; ht.
  - apply HT_fields, forall_map. exact H.
  - unfold enc_refcell. destruct mut_borrowed; ht.
  - unfold enc_time. destruct (0 <=? secs)%Z; ht. destruct (_ =? _)%Z; [destruct ch; ht | ht].
  - apply HT_fields, forall_map. exact H.
  - unfold enc_enum. destruct (discriminants _) as [ds|]; ht.
    destruct (nth_error ds i) as [d|]; ht.
    destruct (nth_error (map _ vs) i) as [fs|] eqn:Hn; ht.
    rewrite nth_error_map in Hn. destruct (nth_error vs i) as [x|] eqn:Hx; [|discriminate]. injection Hn as <-.
    apply nth_error_In in Hx. rewrite Forall_forall in H.
    apply HT_fields, forall_map. apply (H x Hx).
Qed.

(* ---- C07: what encoding may change *)
Lemma encode_touches ch t v o o' r : wf_out o -> encode ch t v o = (o', r) ->
  exists bs, fits o bs /\ o' = append o bs.
Proof.
  intros Hw He. destruct (encode_has_trace ch t v) as (cs & q & Ht). rewrite (Ht o) in He.
  destruct (Nat.leb_spec (o_pos o + length (concat cs)) (length (o_buf o))) as [Hf|Hf].
  - rewrite replay_fits in He by assumption. injection He as <- <-. exists (concat cs). split; [exact Hf | reflexivity].
  - destruct (@replay_short cs q o Hw) as (done & c & rest & -> & H1 & H2 & H3); [unfold fits; lia|].
    rewrite H3 in He. injection He as <- <-. exists (concat done). split; [exact H1 | reflexivity].
Qed.
