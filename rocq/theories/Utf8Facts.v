(* The validation of text against the definition of UTF-8. *)
From Coq Require Import Lia ZifyBool ZifyNat ZifyN.
From Verif Require Import Base BaseFacts Utf8 Types.
Set Implicit Arguments.
Local Open Scope Z_scope.
Local Ltac Zify.zify_post_hook ::= Z.div_mod_to_equations.

Lemma len_encode_utf8 c : length (encode_utf8 c) = len_utf8 c.
Proof.
  unfold encode_utf8, len_utf8. destruct (c <? 128); [reflexivity|]. destruct (c <? 2048); [reflexivity|].
  destruct (c <? 65536); reflexivity.
Qed.

Lemma encode_utf8_nonempty c : (0 < length (encode_utf8 c))%nat.
Proof. rewrite len_encode_utf8. unfold len_utf8. repeat match goal with |- context[if ?b then _ else _] => destruct b end; lia. Qed.

Lemma run_char c off r : is_scalar c = true -> utf8_run off (encode_utf8 c ++ r) = utf8_run (len_utf8 c + off) r.
Proof.
  intros Hc. unfold is_scalar in Hc. unfold encode_utf8, len_utf8.
  destruct (Z.ltb_spec c 128) as [H1|H1].
  - cbn [app utf8_run]. rewrite b2z_z2b. replace (c mod 256 <? 128) with true by lia. reflexivity.
  - destruct (Z.ltb_spec c 2048) as [H2|H2].
    + cbn [app utf8_run]. unfold is_cont, between. rewrite !b2z_z2b.
      replace ((192 + c / 64) mod 256) with (192 + c / 64) by lia.
      replace ((128 + c mod 64) mod 256) with (128 + c mod 64) by lia.
      replace (192 + c / 64 <? 128) with false by lia.
      replace ((194 <=? 192 + c / 64) && (192 + c / 64 <=? 223)) with true by lia.
      replace ((128 <=? 128 + c mod 64) && (128 + c mod 64 <=? 191)) with true by lia. reflexivity.
    + destruct (Z.ltb_spec c 65536) as [H3|H3].
      * cbn [app utf8_run]. unfold is_cont, second3_ok, between. rewrite !b2z_z2b.
        set (f := c / 4096). set (s := c / 64 mod 64). set (t := c mod 64).
        assert (Hcf : c = f * 4096 + s * 64 + t) by (subst f s t; lia).
        assert (Hs : 0 <= s < 64) by (subst s; lia). assert (Ht : 0 <= t < 64) by (subst t; lia).
        assert (Hf : 0 <= f < 16) by (subst f; lia). clearbody f s t.
        replace ((224 + f) mod 256) with (224 + f) by lia.
        replace ((128 + s) mod 256) with (128 + s) by lia.
        replace ((128 + t) mod 256) with (128 + t) by lia.
        replace (224 + f <? 128) with false by lia.
        replace ((194 <=? 224 + f) && (224 + f <=? 223)) with false by lia.
        replace ((224 <=? 224 + f) && (224 + f <=? 239)) with true by lia.
        match goal with |- (if ?b then _ else _) = _ => replace b with true by lia end. reflexivity.
      * cbn [app utf8_run]. unfold is_cont, second4_ok, between. rewrite !b2z_z2b.
        set (f := c / 262144). set (s := c / 4096 mod 64). set (t := c / 64 mod 64). set (u := c mod 64).
        assert (Hcf : c = f * 262144 + s * 4096 + t * 64 + u) by (subst f s t u; lia).
        assert (Hs : 0 <= s < 64) by (subst s; lia). assert (Ht : 0 <= t < 64) by (subst t; lia).
        assert (Hu : 0 <= u < 64) by (subst u; lia).
        assert (Hf : 0 <= f < 5) by (subst f; lia). clearbody f s t u.
        replace ((240 + f) mod 256) with (240 + f) by lia.
        replace ((128 + s) mod 256) with (128 + s) by lia.
        replace ((128 + t) mod 256) with (128 + t) by lia.
        replace ((128 + u) mod 256) with (128 + u) by lia.
        replace (240 + f <? 128) with false by lia.
        replace ((194 <=? 240 + f) && (240 + f <=? 223)) with false by lia.
        replace ((224 <=? 240 + f) && (240 + f <=? 239)) with false by lia.
        replace ((240 <=? 240 + f) && (240 + f <=? 244)) with true by lia.
        match goal with |- (if ?b then _ else _) = _ => replace b with true by lia end. reflexivity.
Qed.

Lemma byte_is b z : b2z b = z -> z2b z = b.
Proof. intros <-. apply z2b_b2z. Qed.

(* empty, or a well-formed sequence first, or refused right here *)
Lemma utf8_case bs :
  bs = [] \/ (exists c r, is_scalar c = true /\ bs = encode_utf8 c ++ r) \/ (bs <> [] /\ forall off, utf8_run off bs = Some off).
Proof.
  destruct bs as [|f r]; [left; reflexivity | right].
  assert (Hne : f :: r <> []) by discriminate. pose proof (b2z_range f) as Hf.
  cbn [utf8_run].
  destruct (Z.ltb_spec (b2z f) 128) as [H1|H1].
  { left. exists (b2z f), r. split; [unfold is_scalar; lia|]. unfold encode_utf8.
    replace (b2z f <? 128) with true by lia. rewrite z2b_b2z. reflexivity. }
  unfold is_cont, second3_ok, second4_ok, between.
  destruct ((194 <=? b2z f) && (b2z f <=? 223)) eqn:H2.
  { destruct r as [|s r]; [right; auto|]. pose proof (b2z_range s) as Hs.
    destruct ((128 <=? b2z s) && (b2z s <=? 191)) eqn:E; [|right; auto].
    left. exists ((b2z f - 192) * 64 + (b2z s - 128)), r. split; [unfold is_scalar; lia|].
    unfold encode_utf8. set (c := (b2z f - 192) * 64 + (b2z s - 128)).
    replace (c <? 128) with false by lia. replace (c <? 2048) with true by lia.
    rewrite (@byte_is f (192 + c / 64)), (@byte_is s (128 + c mod 64)) by lia. reflexivity. }
  destruct ((224 <=? b2z f) && (b2z f <=? 239)) eqn:H3.
  { destruct r as [|s [|t r]]; [right; auto | right; auto|]. pose proof (b2z_range s) as Hs. pose proof (b2z_range t) as Ht.
    match goal with |- context[if ?b then _ else _] => destruct b eqn:E end; [|right; auto].
    left. exists ((b2z f - 224) * 4096 + (b2z s - 128) * 64 + (b2z t - 128)), r. split; [unfold is_scalar; lia|].
    unfold encode_utf8. set (c := (b2z f - 224) * 4096 + (b2z s - 128) * 64 + (b2z t - 128)).
    replace (c <? 128) with false by lia. replace (c <? 2048) with false by lia. replace (c <? 65536) with true by lia.
    rewrite (@byte_is f (224 + c / 4096)), (@byte_is s (128 + c / 64 mod 64)), (@byte_is t (128 + c mod 64)) by lia. reflexivity. }
  destruct ((240 <=? b2z f) && (b2z f <=? 244)) eqn:H4; [|right; auto].
  destruct r as [|s [|t [|u r]]]; [right; auto | right; auto | right; auto |].
  pose proof (b2z_range s) as Hs. pose proof (b2z_range t) as Ht. pose proof (b2z_range u) as Hu.
  match goal with |- context[if ?b then _ else _] => destruct b eqn:E end; [|right; auto].
  left. exists ((b2z f - 240) * 262144 + (b2z s - 128) * 4096 + (b2z t - 128) * 64 + (b2z u - 128)), r. split; [unfold is_scalar; lia|].
  unfold encode_utf8. set (c := (b2z f - 240) * 262144 + (b2z s - 128) * 4096 + (b2z t - 128) * 64 + (b2z u - 128)).
  replace (c <? 128) with false by lia. replace (c <? 2048) with false by lia. replace (c <? 65536) with false by lia.
  rewrite (@byte_is f (240 + c / 262144)), (@byte_is s (128 + c / 4096 mod 64)), (@byte_is t (128 + c / 64 mod 64)),
    (@byte_is u (128 + c mod 64)) by lia. reflexivity.
Qed.

Lemma run_chars cs : Forall (fun c => is_scalar c = true) cs -> forall off r,
  utf8_run off (flat_map encode_utf8 cs ++ r) = utf8_run (length (flat_map encode_utf8 cs) + off) r.
Proof.
  induction 1 as [|c cs Hc Hcs IH]; intros off r; cbn [flat_map]; [reflexivity|].
  rewrite <- app_assoc, run_char by exact Hc. rewrite IH, app_length, len_encode_utf8. f_equal. lia.
Qed.

Lemma valid_nil : valid_utf8 [].
Proof. exists []. split; [constructor | reflexivity]. Qed.
Lemma valid_cons c r : is_scalar c = true -> valid_utf8 r -> valid_utf8 (encode_utf8 c ++ r).
Proof. intros Hc (cs & Hcs & ->). exists (c :: cs). split; [constructor; assumption | reflexivity]. Qed.
Lemma valid_app a b : valid_utf8 a -> valid_utf8 b -> valid_utf8 (a ++ b).
Proof.
  intros (cs & Hcs & ->) (ds & Hds & ->). exists (cs ++ ds). split; [apply Forall_app; auto | symmetry; apply flat_map_app].
Qed.

Lemma run_valid bs off : valid_utf8 bs -> utf8_run off bs = None.
Proof. intros (cs & Hcs & ->). rewrite <- (app_nil_r (flat_map _ _)), run_chars by exact Hcs. reflexivity. Qed.

Lemma run_spec n : forall bs off, (length bs <= n)%nat ->
  match utf8_run off bs with
  | None => valid_utf8 bs
  | Some k => (off <= k < off + length bs)%nat /\ valid_utf8 (firstn (k - off) bs)
  end.
Proof.
  induction n as [|n IH]; intros bs off Hl.
  - destruct bs; [apply valid_nil | cbn in Hl; lia].
  - destruct (utf8_case bs) as [-> | [(c & r & Hc & ->) | [Hne Hs]]].
    + apply valid_nil.
    + rewrite run_char by exact Hc. pose proof (encode_utf8_nonempty c) as Hp. rewrite app_length in *.
      specialize (IH r (len_utf8 c + off)%nat ltac:(lia)). rewrite <- len_encode_utf8 in *.
      destruct (utf8_run (length (encode_utf8 c) + off) r) as [k|] eqn:E.
      * destruct IH as [Hk Hv]. split; [lia|].
        replace (k - off)%nat with (length (encode_utf8 c) + (k - (length (encode_utf8 c) + off)))%nat by lia.
        rewrite firstn_app_2. apply valid_cons; assumption.
      * apply valid_cons; assumption.
    + rewrite Hs, Nat.sub_diag. cbn [firstn]. split; [|apply valid_nil].
      destruct bs; [congruence | cbn [length]; lia].
Qed.

Lemma from_utf8_valid bs : from_utf8 bs = None <-> valid_utf8 bs.
Proof.
  split.
  - intros H. unfold from_utf8 in H. pose proof (@run_spec (length bs) bs 0%nat (Nat.le_refl _)) as Hr. rewrite H in Hr. exact Hr.
  - apply run_valid.
Qed.

(* the reported index is the length of the longest well-formed prefix *)
Lemma from_utf8_index bs k : from_utf8 bs = Some k ->
  (k < length bs)%nat /\ valid_utf8 (firstn k bs) /\
  forall n, (k < n <= length bs)%nat -> ~ valid_utf8 (firstn n bs).
Proof.
  unfold from_utf8. intros H. pose proof (@run_spec (length bs) bs 0%nat (Nat.le_refl _)) as Hr. rewrite H in Hr.
  rewrite Nat.sub_0_r in Hr. destruct Hr as [Hk Hv]. split; [lia|]. split; [exact Hv|].
  intros n Hn (cs & Hcs & Heq).
  rewrite <- (firstn_skipn n bs), Heq, run_chars in H by exact Hcs. rewrite <- Heq in H.
  pose proof (@run_spec (length (skipn n bs)) (skipn n bs) (length (firstn n bs) + 0)%nat (Nat.le_refl _)) as Hr2.
  rewrite H in Hr2. destruct Hr2 as [Hr2 _]. rewrite firstn_length in Hr2. lia.
Qed.

(* so a decoder that indexes the data at that position does not panic *)
Lemma from_utf8_in_bounds bs k : from_utf8 bs = Some k -> exists c, nth_error bs k = Some c.
Proof.
  intros H. destruct (from_utf8_index _ H) as [Hk _]. destruct (nth_error bs k) as [c|] eqn:E; [eauto|].
  apply nth_error_None in E. lia.
Qed.
