(* C110, C111: what messages mention; which containers implement the traits. *)
From Coq Require Import Lia String Ascii.
From Verif Require Import Base BaseFacts Streams Utf8 Types Traits SizedSlice SizedStr ErrorText SpecAvail Encode Decode SpecText ErrorProofs TextProofs.
Set Implicit Arguments.
Local Open Scope list_scope.

(* ---- C110 *)

(* whether [w] is a prefix of [s], and whether it occurs in it *)
Fixpoint prefixb (w s : list byte) : bool :=
  match w, s with
  | [], _ => true
  | c :: w', d :: s' => byte_eqb c d && prefixb w' s'
  | _ :: _, [] => false
  end.
Fixpoint mentionsb (w s : list byte) : bool :=
  prefixb w s || match s with [] => false | _ :: s' => mentionsb w s' end.
Lemma prefixb_app w : forall b, prefixb w (w ++ b) = true.
Proof. induction w as [|c w IH]; intros b; cbn [prefixb app]; [reflexivity|]. rewrite IH, (proj2 (byte_eqb_spec c c) eq_refl). reflexivity. Qed.
Lemma mentions_b w s : Mentions w s -> mentionsb w s = true.
Proof.
  intros (a & b & ->). induction a as [|c a IH]; cbn [app].
  - destruct w as [|c w]; [destruct b; reflexivity|]. cbn [app mentionsb]. rewrite app_comm_cons, prefixb_app. reflexivity.
  - cbn [mentionsb]. rewrite IH. apply orb_true_r.
Qed.

(* a character that the word does not have separates its occurrences *)
Lemma mentions_split w a c b : ~ In c w -> Mentions w (a ++ c :: b) -> Mentions w a \/ Mentions w b.
Proof.
  intros Hc (x & y & H). revert x H. induction a as [|d a IH]; intros x H.
  - right. destruct x as [|d x]; cbn [app] in H.
    + destruct w as [|d w]; cbn [app] in H; [exists [], b; reflexivity|]. injection H as -> _. exfalso. apply Hc. left. reflexivity.
    + injection H as _ H. exists x, y. exact H.
  - destruct x as [|d' x]; cbn [app] in H.
    + (* the word begins here: it ends before [c] *)
      left. clear IH. exists []. cbn [app]. change ((d :: a) ++ c :: b = w ++ y) in H. revert w Hc H. generalize (d :: a) as l. clear d a.
      induction l as [|d l IH]; intros w Hc H; cbn [app] in H.
      * destruct w as [|e w]; [exists []; reflexivity|]. cbn [app] in H. injection H as -> _. exfalso. apply Hc. left. reflexivity.
      * destruct w as [|e w]; [exists (d :: l); reflexivity|]. cbn [app] in H. injection H as -> H.
        destruct (IH w) as (z & ->); [intros Hi; apply Hc; right; exact Hi | exact H | exists z; reflexivity].
    + injection H as -> H. destruct (IH x H) as [(p & q & ->)|Hb]; [left; exists (d' :: p), q; reflexivity | right; exact Hb].
Qed.
Lemma mentions_skip w a b : w <> [] -> Forall (fun c => ~ In c w) a -> Mentions w (a ++ b) -> Mentions w b.
Proof.
  intros Hw. induction 1 as [|c a Hc Ha IH]; intros H; [exact H|].
  change ((c :: a) ++ b) with ([] ++ c :: (a ++ b)) in H. apply mentions_split in H; [|exact Hc]. destruct H as [(x & y & H)|H]; [|auto].
  destruct w as [|d w]; [congruence|]. destruct x; discriminate.
Qed.
Definition encod : list byte := txt "encod".
Definition decod : list byte := txt "decod".
Lemma numeral_not b : numeral b = true -> ~ In b encod /\ ~ In b decod.
Proof. intros H. split; intros Hi; cbn in Hi; repeat (destruct Hi as [Hi|Hi]; [subst b; discriminate H|]); exact Hi. Qed.
Lemma skip_number w a b : w = encod \/ w = decod -> Forall (fun c => numeral c = true) a -> Mentions w (a ++ b) -> Mentions w b.
Proof.
  intros Hw Ha. apply mentions_skip; [destruct Hw; subst w; discriminate|].
  eapply Forall_impl; [|exact Ha]. cbn beta. intros c Hc. destruct Hw; subst w; apply (numeral_not _ Hc).
Qed.
Definition closed_by (w s : list byte) : bool :=
  negb (mentionsb w s) && match rev s with [] => false | c :: _ => negb (existsb (byte_eqb c) w) end.
Lemma skip_text w s b : closed_by w s = true -> Mentions w (s ++ b) -> Mentions w b.
Proof.
  unfold closed_by. intros H. apply andb_true_iff in H as [Hm Hl]. apply negb_true_iff in Hm.
  destruct (rev s) as [|c r] eqn:E; [discriminate|]. apply (f_equal (@rev byte)) in E. rewrite rev_involutive in E. cbn [rev] in E. subst s.
  apply negb_true_iff in Hl. intros HM. rewrite <- app_assoc in HM. cbn [app] in HM. apply mentions_split in HM.
  - destruct HM as [(p & q & Hp)|HM]; [|exact HM]. exfalso. rewrite Hp in Hm.
    assert (Mentions w ((p ++ w ++ q) ++ [c])) as HM by (exists p, (q ++ [c]); rewrite <- !app_assoc; reflexivity).
    apply mentions_b in HM. congruence.
  - intros Hi. enough (existsb (byte_eqb c) w = true) by congruence. apply existsb_exists. exists c. split; [exact Hi | apply byte_eqb_spec; reflexivity].
Qed.
Lemma no_mention w s : mentionsb w s = false -> Mentions w s -> False.
Proof. intros H HM. apply mentions_b in HM. congruence. Qed.

Lemma unsigned_numeral n : Forall (fun c => numeral c = true) (fmt_unsigned n).
Proof. apply radix_numeral. lia. Qed.
Lemma hex_numeral w n : Forall (fun c => numeral c = true) (fmt_hex w n).
Proof. apply pad_numeral, radix_numeral. lia. Qed.

Ltac silent :=
  repeat match goal with
  | H : Mentions ?w (txt ?s ++ _) |- _ => apply skip_text in H; [|vm_compute; reflexivity]
  | H : Mentions ?w (fmt_hex_prefix _ _ ++ _) |- _ => unfold fmt_hex_prefix in H; rewrite <- app_assoc in H
  | H : Mentions ?w ([x30; x78] ++ _) |- _ => apply skip_text in H; [|vm_compute; reflexivity]
  | H : Mentions ?w (_ ++ _) |- _ => apply skip_number in H;
      [|first [left; reflexivity | right; reflexivity] | first [apply signed_numeral | apply nat_numeral | apply unsigned_numeral | apply hex_numeral | apply pad_numeral, radix_numeral; lia]]
  end; try (eapply no_mention; [|eassumption]; vm_compute; reflexivity).

Lemma C110_encode_lemma e : forall r, of_eerr e = Some r -> ~ Mentions decod (display r).
Proof.
  induction e; intros rr Hr HM; cbn [of_eerr] in Hr; try discriminate;
    try (destruct (of_eerr e) as [x|] eqn:E; [|discriminate]); cbn [option_map] in Hr; injection Hr as <-; cbn [display] in HM; silent;
    try (eapply IHe; [reflexivity | exact HM]).
Qed.
Lemma C110_decode_lemma e : forall r, of_derr e = Some r -> ~ Mentions encod (display r).
Proof.
  induction e; intros rr Hr HM; cbn [of_derr] in Hr; try discriminate;
    try (destruct (of_derr e) as [x|] eqn:E; [|discriminate]); cbn [option_map] in Hr; injection Hr as <-; cbn [display] in HM; silent;
    try (eapply IHe; [reflexivity | exact HM]).
Qed.

(* ---- C111 *)
Lemma ity_eqb_refl a : ity_eqb a a = true.
Proof. destruct a; reflexivity. Qed.
Lemma ety_eqb_refl a : ety_eqb a a = true.
Proof. induction a; cbn [ety_eqb]; rewrite ?ity_eqb_refl, ?IHa, ?IHa1, ?IHa2; reflexivity. Qed.
Lemma dety_eqb_refl a : dety_eqb a a = true.
Proof.
  induction a as [| | | | | | |l IHl i IHi|e IHe|[d|] f IHf|]; cbn [dety_eqb]; rewrite ?ity_eqb_refl, ?IHl, ?IHi, ?IHe, ?IHf; reflexivity.
Qed.

Lemma C111_encode_lemma F t : Holder F -> (enc_ety (F t) <> None <-> enc_ety t <> None).
Proof. intros []; cbn [enc_ety]; try reflexivity; destruct (enc_ety t); cbn [option_map]; split; congruence. Qed.
Lemma C111_decode_lemma F t : OwningHolder F -> (dec_ety (F t) <> None <-> dec_ety t <> None).
Proof.
  intros []; cbn [dec_ety]; try reflexivity; try (destruct (dec_ety t); cbn [option_map]; split; congruence).
  destruct w; try reflexivity; exfalso; cbn in *; tauto.
Qed.

Lemma all_same_iff l y : all_same l y = true <-> Forall (fun o => o = Some y) l.
Proof.
  split; [apply all_same_forall|]. induction 1 as [|o l -> Hl IH]; cbn [all_same]; [reflexivity|]. rewrite ety_eqb_refl, IH. reflexivity.
Qed.
Lemma all_same_d_iff l y : all_same_d l y = true <-> Forall (fun o => o = Some y) l.
Proof.
  split; [apply all_same_d_forall|]. induction 1 as [|o l -> Hl IH]; cbn [all_same_d]; [reflexivity|]. rewrite dety_eqb_refl, IH. reflexivity.
Qed.
Lemma C111_tuple_lemma ts y : ts <> [] -> (List.length ts <= 12)%nat ->
  (enc_ety (TTuple ts) = Some y <-> Forall (fun t => enc_ety t = Some y) ts).
Proof.
  intros Hts _. cbn [enc_ety]. destruct ts as [|t ts]; [congruence|]. cbn [map]. split.
  - destruct (enc_ety t) as [x|] eqn:Et; [|discriminate]. destruct (all_same _ _) eqn:Ea; [|discriminate]. intros [= ->].
    constructor; [exact Et|]. apply all_same_iff in Ea. apply Forall_map in Ea. exact Ea.
  - intros H. inversion H as [|? ? Ht Hs]; subst. rewrite Ht. rewrite (proj2 (all_same_iff _ _)); [reflexivity|]. apply Forall_map. exact Hs.
Qed.
Lemma C111_tuple_decode_lemma ts z : ts <> [] -> (List.length ts <= 12)%nat ->
  (dec_ety (TTuple ts) = Some z <-> Forall (fun t => dec_ety t = Some z) ts).
Proof.
  intros Hts _. cbn [dec_ety]. destruct ts as [|t ts]; [congruence|]. cbn [map]. split.
  - destruct (dec_ety t) as [x|] eqn:Et; [|discriminate]. destruct (all_same_d _ _) eqn:Ea; [|discriminate]. intros [= ->].
    constructor; [exact Et|]. apply all_same_d_iff in Ea. apply Forall_map in Ea. exact Ea.
  - intros H. inversion H as [|? ? Ht Hs]; subst. rewrite Ht. rewrite (proj2 (all_same_d_iff _ _)); [reflexivity|]. apply Forall_map. exact Hs.
Qed.

Lemma generic_iff x : into_generic_ety x = true <-> Converts x YGeneric.
Proof.
  split.
  - induction x; cbn [into_generic_ety]; intros H; try discriminate; try (constructor; fail).
    + apply andb_true_iff in H as [H1 H2]. apply Cv_coll; auto.
    + apply Cv_item; auto.
    + apply Cv_enum; auto.
  - intros H. remember YGeneric as y eqn:E. induction H; subst; cbn [into_generic_ety]; try reflexivity; try discriminate; auto.
    apply andb_true_iff; auto.
Qed.
Lemma infallible_iff x : into_infallible_ety x = true <-> Converts x YInfallible.
Proof.
  split.
  - induction x; cbn [into_infallible_ety]; intros H; try discriminate; try (constructor; fail).
    + apply andb_true_iff in H as [H1 H2]. apply Cv_coll; auto.
    + apply Cv_item; auto.
    + apply andb_true_iff in H as [H1 H2]. apply Cv_never; auto; intros ->; discriminate.
  - intros H. remember YInfallible as y eqn:E. induction H; subst; cbn [into_infallible_ety]; try reflexivity; try discriminate; auto.
    + apply andb_true_iff; auto.
    + apply andb_true_iff. split; [destruct d; try reflexivity; congruence | auto].
Qed.
Lemma into_iff x y : into_ety x y = true <-> Converts x y.
Proof.
  unfold into_ety. rewrite orb_true_iff. split.
  - intros [H|H]; [apply ety_eqb_eq in H; subst; constructor|]. destruct y; try discriminate; [apply infallible_iff | apply generic_iff]; exact H.
  - intros H. destruct y; try (right; first [apply infallible_iff | apply generic_iff]; exact H);
      (left; inversion H; subst; try apply ety_eqb_refl; match goal with K : _ \/ _ |- _ => destruct K; discriminate end).
Qed.

Lemma C111_result_lemma t e y : enc_ety (TResult t e) = Some y <-> enc_ety t = Some y /\ exists x, enc_ety e = Some x /\ Converts x y.
Proof.
  cbn [enc_ety]. destruct (enc_ety t) as [a|], (enc_ety e) as [b|]; split; try discriminate; try (intros (? & ? & ? & _); discriminate); try (intros (? & _); discriminate).
  - destruct (into_ety b a) eqn:Ei; [|discriminate]. intros [= ->]. split; [reflexivity|]. exists b. split; [reflexivity | apply into_iff; exact Ei].
  - intros ([= ->] & x & [= ->] & Hc). apply into_iff in Hc. rewrite Hc. reflexivity.
Qed.
Lemma C111_result_decode_lemma t e : dec_ety (TResult t e) <> None <-> exists z, dec_ety t = Some z /\ dec_ety e = Some z.
Proof.
  cbn [dec_ety]. destruct (dec_ety t) as [a|], (dec_ety e) as [b|]; split; try congruence; try (intros (? & ? & ?); congruence).
  - destruct (dety_eqb a b) eqn:E; [|congruence]. intros _. apply dety_eqb_eq in E. subst. eauto.
  - intros (z & [= ->] & [= ->]). rewrite dety_eqb_refl. discriminate.
Qed.
Lemma C111_map_lemma k v : enc_ety (THashMap k v) <> None <-> exists y, enc_ety k = Some y /\ enc_ety v = Some y.
Proof.
  cbn [enc_ety]. destruct (enc_ety k) as [a|], (enc_ety v) as [b|]; split; try congruence; try (intros (? & ? & ?); congruence).
  - destruct (ety_eqb a b) eqn:E; [|congruence]. intros _. apply ety_eqb_eq in E. subst. eauto.
  - intros (z & [= ->] & [= ->]). rewrite ety_eqb_refl. discriminate.
Qed.
Lemma C111_map_decode_lemma k v : dec_ety (THashMap k v) <> None <-> exists z, dec_ety k = Some z /\ dec_ety v = Some z.
Proof.
  cbn [dec_ety]. destruct (dec_ety k) as [a|], (dec_ety v) as [b|]; split; try congruence; try (intros (? & ? & ?); congruence).
  - destruct (dety_eqb a b) eqn:E; [|congruence]. intros _. apply dety_eqb_eq in E. subst. eauto.
  - intros (z & [= ->] & [= ->]). rewrite dety_eqb_refl. discriminate.
Qed.
Lemma C111_refuted_lemma :
  (exists t u, enc_ety t <> None /\ enc_ety u <> None /\ dec_ety t <> None /\ dec_ety u <> None /\
     enc_ety (TTuple [t; u]) = None /\ enc_ety (THashMap t u) = None /\ enc_ety (TResult t u) = None /\
     dec_ety (TTuple [t; u]) = None /\ dec_ety (THashMap t u) = None /\ dec_ety (TResult t u) = None) /\
  enc_ety (THashMap TString (TInt U32)) = None /\ dec_ety (THashMap TString (TInt U32)) = None /\
  enc_ety (TTuple [TInt U8; TInt Usize]) = None /\ dec_ety (TTuple [TInt U8; TChar]) = None.
Proof.
  split; [|repeat split; reflexivity]. exists TString, (TInt U32). repeat split; try reflexivity; discriminate.
Qed.
