(* Decoding fails exactly as SpecErrors.v says. *)
From Coq Require Import Lia ZifyBool ZifyNat ZifyN.
From Verif Require Import Base BaseFacts Streams StreamFacts Utf8 Utf8Facts Types TypesFacts Traits Encode Decode Spec SpecCalls SpecDecode SpecDerive
  SpecErrors EncodeFacts WireFacts DecodeFacts StreamProofs DecodeLocal RoundTrip AcceptFacts DecodeProofs DeriveProofs ErrorProofs.
Set Implicit Arguments.
Local Open Scope Z_scope.

Scheme Rejects_ind4 := Induction for Rejects Sort Prop
with RejectsFields_ind4 := Induction for RejectsFields Sort Prop
with RejectsItems_ind4 := Induction for RejectsItems Sort Prop
with RejectsEntries_ind4 := Induction for RejectsEntries Sort Prop.
Combined Scheme Rejects_mutind from Rejects_ind4, RejectsFields_ind4, RejectsItems_ind4, RejectsEntries_ind4.

(* ---- the numbers an error holds are those of its type *)
Fixpoint sane (e : derr) : Prop :=
  match e with
  | DLen e | DItem _ e | DBad e | DField e => sane e
  | DUnassigned r d => in_ity r d
  | DChar c => 55295 < c < 57344 \/ 1114111 < c < 2 ^ 32
  | DLength c l | DGSmall c l => (c < l)%nat
  | DGUnassigned d => 0 <= d < 2 ^ 128
  | DTime _ | DGTime _ | DNoImpl => False
  | _ => True
  end.

Lemma within_sane c e : DWithin c e -> sane e -> sane c.
Proof. induction 1; cbn [sane]; auto. Qed.
Lemma in_ity_128 r d : in_ity r d -> - 2 ^ 128 <= d < 2 ^ 128.
Proof. unfold in_ity. destruct r; cbn [isigned iwidth]; intros H; lia. Qed.
Lemma generic_sane e e' : DGeneric e e' -> sane e -> sane e'.
Proof.
  intros (c & Hc & Hr) Hs. pose proof (within_sane Hc Hs) as Hsc. destruct Hr as [Hr | (r & d & -> & Hi & Hd & ->)].
  - destruct Hr; cbn [sane] in *; auto. pose proof (in_ity_128 _ _ H0). lia.
  - cbn [sane]. pose proof (in_ity_128 _ _ Hi). lia.
Qed.
Lemma u8_in b : in_ity U8 (b2z b).
Proof. unfold in_ity. cbn [isigned iwidth]. pose proof (b2z_range b). cbn. lia. Qed.

Lemma rejects_sane_all :
  (forall t bs e, Rejects t bs e -> sane e) /\ (forall ts bs e, RejectsFields ts bs e -> sane e) /\
  (forall t k bs e, RejectsItems t k bs e -> sane e) /\ (forall kt vt k bs e, RejectsEntries kt vt k bs e -> sane e).
Proof.
  apply (@Rejects_mutind (fun _ _ e _ => sane e) (fun _ _ e _ => sane e) (fun _ _ _ e _ => sane e) (fun _ _ _ _ e _ => sane e));
    intros; cbn [sane]; try assumption; try exact I; try apply u8_in; try (eapply generic_sane; eassumption).
  lia.
Qed.
Lemma rejects_sane t bs e : Rejects t bs e -> sane e.
Proof. apply (proj1 rejects_sane_all). Qed.

Lemma generic_dof z e : DOf z e -> into_generic_dety z = true -> sane e -> DGeneric e (into_generic_dec e).
Proof.
  induction 1; cbn [into_generic_dety into_generic_dec sane]; intros Hg Hs; try discriminate;
    try (eexists; split; [apply DW_here | left; constructor]; fail).
  - apply andb_true_iff in Hg. destruct Hg as [Hg _]. destruct (IHDOf Hg Hs) as (c & Hc & Hr). exists c. split; [constructor; exact Hc | exact Hr].
  - apply andb_true_iff in Hg. destruct Hg as [_ Hg]. cbn [into_generic_dety] in Hg.
    destruct (IHDOf Hg Hs) as (c & Hc & Hr). exists c. split; [constructor; exact Hc | exact Hr].
  - apply andb_true_iff in Hg. destruct Hg as [_ Hg]. destruct (IHDOf Hg Hs) as (c & Hc & Hr). exists c. split; [constructor; exact Hc | exact Hr].
  - exists (DUnassigned r d). split; [apply DW_here|]. destruct (Z.ltb_spec d 0) as [Hd|Hd].
    + right. exists r, d. repeat split; try assumption. unfold to_u128. f_equal. pose proof (in_ity_128 _ _ Hs).
      rewrite <- (Z.mod_small (2 ^ 128 + d) (2 ^ 128)) by lia. rewrite <- Zplus_mod_idemp_l, Z.mod_same by lia. reflexivity.
    + left. rewrite (@to_u128_id r d) by assumption. constructor; assumption.
  - destruct d; [|discriminate]. destruct (IHDOf Hg Hs) as (c & Hc & Hr). exists c. split; [constructor; exact Hc | exact Hr].
Qed.
Lemma within_generic c e : DWithin c e -> into_generic_dec e = into_generic_dec c.
Proof. induction 1; cbn [into_generic_dec]; auto. Qed.
Lemma generic_into_d e e' : DGeneric e e' -> into_generic_dec e = e'.
Proof.
  intros (c & Hc & [Hr | (r & d & -> & Hi & Hd & ->)]); [exact (C41_decode_lemma Hc Hr)|].
  rewrite (within_generic Hc). cbn [into_generic_dec]. f_equal. unfold to_u128. pose proof (in_ity_128 _ _ Hi).
  rewrite <- (Z.mod_small (2 ^ 128 + d) (2 ^ 128)) by lia. rewrite <- (Zplus_mod_idemp_l (2 ^ 128)), Z.mod_same by lia. reflexivity.
Qed.

(* ---- text *)
Lemma bad_text s k c : check_utf8 s = Err (DUtf8 c k) <-> BadText s k c.
Proof.
  unfold check_utf8, BadText. split.
  - destruct (from_utf8 s) as [j|] eqn:E; [|discriminate]. destruct (nth_error s j) as [b|] eqn:En; [|discriminate].
    intros H. injection H as -> ->. destruct (from_utf8_index _ E) as (_ & Hv & Hm). auto.
  - intros (Hn & Hv & Hm). destruct (from_utf8 s) as [j|] eqn:E.
    + destruct (from_utf8_index _ E) as (Hj & Hvj & Hmj). assert (Hk : (k < length s)%nat) by (apply nth_error_Some; congruence).
      assert (j = k).
      { destruct (lt_eq_lt_dec j k) as [[Hlt|Heq]|Hgt]; [|exact Heq|].
        - exfalso. apply (Hmj k); [lia | exact Hv].
        - exfalso. apply (Hm j); [lia | exact Hvj]. }
      subst j. rewrite Hn. reflexivity.
    + apply from_utf8_valid in E. exfalso. assert (Hk : (k < length s)%nat) by (apply nth_error_Some; congruence).
      apply (Hm (length s)); [lia|]. rewrite firstn_all. exact E.
Qed.
Lemma check_utf8_shape s e : check_utf8 s = Err e -> exists c k, e = DUtf8 c k.
Proof. unfold check_utf8. destruct (from_utf8 s) as [j|]; [|discriminate]. destruct (nth_error s j); [|discriminate]. intros H. injection H as <-. eauto. Qed.

(* ---- what the specification rejects is refused *)

Lemma R_bind_first {A B} (m : D A) (k : A -> D B) x e : Refuses m x e -> Refuses (dbind m k) x e.
Proof. intros H pre post. unfold dbind. rewrite H. reflexivity. Qed.
Lemma R_sign_true {A} (k : bool -> D A) x bs a : b2z x <> 0 -> Refuses (k true) bs a -> Refuses (dbind dec_bool k) (x :: bs) a.
Proof.
  intros Hx H. apply (@R_bind _ _ dec_bool k [x] bs true a); [|exact H]. pose proof (P_bool x) as P.
  replace (negb (b2z x =? 0)) with true in P by lia. exact P.
Qed.
Lemma R_sign_false {A} (k : bool -> D A) bs a : Refuses (k false) bs a -> Refuses (dbind dec_bool k) (x00 :: bs) a.
Proof. intros H. apply (@R_bind _ _ dec_bool k [x00] bs false a); [exact (P_bool x00) | exact H]. Qed.
Lemma R_byte {A} (k : Z -> D A) x bs a : Refuses (k (b2z x)) bs a -> Refuses (dbind dec_u8 k) (x :: bs) a.
Proof. intros H. apply (@R_bind _ _ dec_u8 k [x] bs (b2z x) a); [exact (P_byte x) | exact H]. Qed.

Lemma rejects_refuses_all :
  (forall t bs e, Rejects t bs e -> Refuses (decode t) bs e) /\
  (forall ts bs e, RejectsFields ts bs e -> forall conv, Refuses (dec_fields conv (map decode ts)) bs (conv e)) /\
  (forall t k bs e, RejectsItems t k bs e -> (forall n i, (k < n)%nat -> Refuses (dec_items (decode t) n i) bs (DItem (i + k) e)) /\
     (forall n i s, (k < n)%nat -> Refuses (dec_keys (decode t) n i s) bs (DItem (i + k) e))) /\
  (forall kt vt k bs e, RejectsEntries kt vt k bs e -> forall n i m, (k < n)%nat ->
     Refuses (dec_entries (decode kt) (decode vt) n i m) bs (DItem (i + k) e)).
Proof.
  apply (@Rejects_mutind
    (fun t bs e _ => Refuses (decode t) bs e)
    (fun ts bs e _ => forall conv, Refuses (dec_fields conv (map decode ts)) bs (conv e))
    (fun t k bs e _ => (forall n i, (k < n)%nat -> Refuses (dec_items (decode t) n i) bs (DItem (i + k) e)) /\
       (forall n i s, (k < n)%nat -> Refuses (dec_keys (decode t) n i s) bs (DItem (i + k) e)))
    (fun kt vt k bs e _ => forall n i m, (k < n)%nat -> Refuses (dec_entries (decode kt) (decode vt) n i m) bs (DItem (i + k) e)));
    intros; cbn [decode].
  - assert (Hz : in_ity i 0) by (unfold in_ity; destruct i; cbn [isigned iwidth]; lia).
    eapply R_bind_last; [apply (P_int Hz); eassumption | apply R_error].
  - assert (Hc : 0 <= c < 2 ^ (8 * Z.of_nat 4)) by (change (2 ^ (8 * Z.of_nat 4)) with (2 ^ 32); lia).
    eapply R_bind_last; [eapply P_u; eassumption|].
    replace (char_accepts c) with false by (unfold char_accepts; lia). apply R_error.
  - apply R_sign_true; [rewrite b2z_zero; assumption|]. apply R_map. assumption.
  - apply R_sign_false, R_map, R_map_err. assumption.
  - apply R_sign_true; [rewrite b2z_zero; assumption|]. apply R_map, R_map_err. assumption.
  - apply R_byte. cbn -[dmap dmap_err]. apply R_map, R_map_err. assumption.
  - apply R_byte. cbn -[dmap dmap_err]. apply R_map, R_map_err. assumption.
  - apply (proj1 (C27_lemma b)). assumption.
  - apply (proj2 (C27_lemma b)). assumption.
  - apply (proj2 (C27_lemma b)). assumption.
  - apply R_map. apply (H (fun e => e)).
  - apply R_map. rewrite <- (generic_into_d d). apply H.
  - apply R_bind_first. assumption.
  - eapply R_bind; [apply accepts_parses; eassumption|]. apply R_map. assumption.
  - apply R_bind_first. assumption.
  - eapply R_bind; [apply accepts_parses; eassumption|]. apply R_map. assumption.
  - apply R_map. assumption.
  - apply R_map. assumption.
  - apply R_map. assumption.
  - unfold enum_ok in e. destruct (discriminants (map fst vs)) as [ds|] eqn:Hd; [|contradiction]. cbn [dec_enum].
    eapply R_bind_last; [apply P_int; eassumption|].
    destruct (find_disc d ds 0) as [j|] eqn:Ej; [|apply R_error]. apply find_disc_inv in Ej. destruct Ej as (j' & -> & Hj).
    apply (@discriminants_assigned _ _ j' d Hd) in Hj. destruct (n _ Hj).
  - match goal with H : enum_ok _ _ |- _ => rename H into Hok end. unfold enum_ok in Hok.
    destruct (discriminants (map fst vs)) as [ds|] eqn:Hd; [|contradiction]. destruct Hok as [Hin Hnd].
    apply (@discriminants_assigned _ _ i d Hd) in a. cbn [dec_enum]. eapply R_bind; [apply P_int; [|eassumption]|].
    + rewrite Forall_forall in Hin. apply Hin. apply (nth_error_In _ _ a).
    + rewrite (@find_disc_spec _ _ _ 0%nat Hnd a). cbn [Nat.add].
      match goal with H : nth_error vs i = Some _ |- _ => rewrite (nth_error_map_some (fun x => map decode (snd x)) _ _ H) end. cbn [snd].
      apply R_map. match goal with H : DGeneric _ _ |- _ => rewrite <- (generic_into_d H) end. apply (H (fun e => DField (into_generic_dec e))).
  - apply R_map. apply (proj1 H n 0%nat). assumption.
  - eapply R_bind; [apply P_len; eassumption|]. rewrite Nat2Z.id. apply R_map, (proj1 H n 0%nat). assumption.
  - eapply R_bind; [apply P_len; eassumption|]. rewrite Nat2Z.id. apply R_map, (proj1 H n 0%nat). assumption.
  - eapply R_bind_last; [apply P_len; eassumption|]. rewrite Nat2Z.id. replace (n <? len)%nat with true by lia. apply R_error.
  - eapply R_bind; [apply P_len; eassumption|]. rewrite Nat2Z.id. replace (n <? len)%nat with false by lia. apply R_map, (proj1 H n 0%nat). assumption.
  - eapply R_bind; [apply P_len; eassumption|]. rewrite Nat2Z.id. eapply R_bind_last; [exact (P_read s)|].
    apply R_map, (R_map_err DBad). match goal with H : BadText _ _ _ |- _ => apply bad_text in H; rewrite H end. apply R_lift.
  - eapply R_bind; [apply P_len; eassumption|]. rewrite Nat2Z.id. eapply R_bind_last; [exact (P_read s)|].
    apply R_map. unfold sized_from_utf8. replace (n <? length s)%nat with true by lia. apply R_lift.
  - eapply R_bind; [apply P_len; eassumption|]. rewrite Nat2Z.id. eapply R_bind_last; [exact (P_read s)|].
    apply R_map. unfold sized_from_utf8. replace (n <? length s)%nat with false by lia.
    match goal with H : BadText _ _ _ |- _ => apply bad_text in H; rewrite H end. apply R_lift.
  - apply (proj2 (@C26_lemma _ _ w)); assumption.
  - eapply R_bind; [apply P_len; eassumption|]. rewrite Nat2Z.id. apply R_map, (H n 0%nat). assumption.
  - eapply R_bind; [apply P_len; eassumption|]. rewrite Nat2Z.id. apply R_map, (proj2 H n 0%nat). assumption.
  - apply R_map. assumption.
  - rewrite decode_owned. apply R_map. assumption.
  - apply R_map. assumption.
  - apply R_map. assumption.
  - cbn [map dec_fields]. apply R_bind_first, R_map_err. assumption.
  - cbn [map dec_fields]. eapply R_bind; [apply P_map_err, accepts_parses; eassumption|]. apply R_map, H.
  - split.
    + intros n i Hn. destruct n as [|n]; [lia|]. rewrite Nat.add_0_r. apply R_bind_first, R_map_err. assumption.
    + intros n i s Hn. destruct n as [|n]; [lia|]. rewrite Nat.add_0_r. apply R_bind_first, R_map_err. assumption.
  - destruct H as [H1 H2]. split.
    + intros n i Hn. destruct n as [|n]; [lia|]. cbn [dec_items]. eapply R_bind; [apply P_map_err, accepts_parses; eassumption|].
      apply R_map. rewrite <- Nat.add_succ_comm. apply H1. lia.
    + intros n i s Hn. destruct n as [|n]; [lia|]. cbn [dec_keys]. eapply R_bind; [apply P_map_err, accepts_parses; eassumption|].
      rewrite <- Nat.add_succ_comm. apply H2. lia.
  - destruct n as [|n]; [lia|]. rewrite Nat.add_0_r. apply R_bind_first, R_map_err. assumption.
  - destruct n as [|n]; [lia|]. rewrite Nat.add_0_r. cbn [dec_entries]. eapply R_bind; [apply P_map_err, accepts_parses; eassumption|].
    apply R_bind_first, R_map_err. assumption.
  - destruct n0 as [|n0]; [lia|]. cbn [dec_entries]. eapply R_bind; [apply P_map_err, accepts_parses; eassumption|].
    eapply R_bind; [apply P_map_err, accepts_parses; eassumption|]. rewrite <- Nat.add_succ_comm. apply H. lia.
Qed.
Lemma rejects_refuses t bs e : Rejects t bs e -> Refuses (decode t) bs e.
Proof. apply (proj1 rejects_refuses_all). Qed.

(* ---- Faults: what a call that returned an error consumed, and the error *)
Definition Faults {A} (m : D A) (Q : list byte -> derr -> Prop) : Prop :=
  forall i i' e, wf_in i -> m i = (i', Err e) ->
  exists n, (n <= length (rest i))%nat /\ i' = Input (i_buf i) (i_pos i + n) /\ Q (firstn n (rest i)) e.

Lemma X_ext {A} (m : D A) (Q R : list byte -> derr -> Prop) : Faults m Q -> (forall bs e, Q bs e -> R bs e) -> Faults m R.
Proof. intros H HR i i' e Hw He. destruct (H i i' e Hw He) as (n & Hn & Hi & Hq). exists n. auto. Qed.
Lemma X_never {A} (m : D A) (Q : list byte -> derr -> Prop) : DErrs m (fun _ => False) -> Faults m Q.
Proof. intros H i i' e Hw He. destruct (H _ _ _ He). Qed.
Lemma X_ok {A} (a : A) (Q : list byte -> derr -> Prop) : Faults (dok a) Q.
Proof. intros i i' e _ H. discriminate. Qed.
Lemma X_panic {A} p (Q : list byte -> derr -> Prop) : Faults (@dpanic A p) Q.
Proof. intros i i' e _ H. discriminate. Qed.
Lemma X_lift {A} (r : res derr A) (Q : list byte -> derr -> Prop) : (forall e, r = Err e -> Q [] e) -> Faults (dlift r) Q.
Proof.
  intros HQ i i' e Hw H. injection H as <- Hr. exists 0%nat. rewrite Nat.add_0_r. cbn [firstn].
  split; [lia|]. split; [destruct i; reflexivity | apply HQ; exact Hr].
Qed.
Lemma X_error {A} e (Q : list byte -> derr -> Prop) : Q [] e -> Faults (@derror A e) Q.
Proof. intros H. apply (@X_lift A (Err e)). intros x Hx. injection Hx as <-. exact H. Qed.
Lemma X_map_err {A} f (m : D A) (Q : list byte -> derr -> Prop) : Faults m (fun bs e => Q bs (f e)) -> Faults (dmap_err f m) Q.
Proof.
  intros H i i' e Hw He. unfold dmap_err in He. destruct (m i) as [i1 [a|x|p]] eqn:E; try discriminate. injection He as <- <-.
  destruct (H i i1 x Hw E) as (n & Hn & Hi & Hq). exists n. auto.
Qed.
Lemma X_bind {A B} (m : D A) (k : A -> D B) (Q : list byte -> A -> Prop) (R : list byte -> derr -> Prop) :
  Consumes m Q -> Faults m R -> (forall x a, Q x a -> Faults (k a) (fun y e => R (x ++ y) e)) -> Faults (dbind m k) R.
Proof.
  intros Hc Hm Hk i i' e Hw He. unfold dbind in He. destruct (m i) as [i1 [a|x|p]] eqn:E; try discriminate.
  - destruct (Hc i i1 a Hw E) as (n & Hn & -> & Hq).
    destruct (Hk _ _ Hq _ _ _ (advance_wf Hn Hw) He) as (n' & Hn' & -> & Hr). cbn [i_buf i_pos] in *.
    rewrite rest_advance in Hn', Hr. rewrite skipn_length in Hn'. exists (n + n')%nat.
    split; [lia|]. split; [f_equal; lia|]. rewrite firstn_plus. exact Hr.
  - injection He as <- <-. exact (Hm i i1 x Hw E).
Qed.
Lemma X_map {A B} (f : A -> B) m Q : Faults m Q -> Faults (dmap f m) Q.
Proof.
  intros H i i' e Hw He. unfold dmap, dbind in He. destruct (m i) as [i1 [a|x|p]] eqn:E; try discriminate. injection He as <- <-.
  exact (H i i1 x Hw E).
Qed.
Lemma X_int i Q : Faults (dec_int i) Q.
Proof. apply X_never, DErrs_int. Qed.
Lemma X_unsigned w Q : Faults (dec_unsigned w) Q.
Proof. apply X_never, DErrs_unsigned. Qed.

Definition FaultsTy (t : ty) : Prop := EnumsOk t -> dec_ety t <> None -> Faults (decode t) (Rejects t).

Lemma X_items t n : Faults (decode t) (Rejects t) -> Consumes (decode t) (Accepts t) -> forall i,
  Faults (dec_items (decode t) n i) (fun bs e => exists k e', (k < n)%nat /\ RejectsItems t k bs e' /\ e = DItem (i + k) e').
Proof.
  intros Hf Hc. induction n as [|n IH]; intros i; cbn [dec_items]; [apply X_ok|].
  eapply X_bind; [apply N_map_err, Hc | |].
  - apply X_map_err. eapply X_ext; [exact Hf|]. intros bs e He. exists 0%nat, e. split; [lia|]. split; [constructor; exact He|]. rewrite Nat.add_0_r. reflexivity.
  - intros x a Ha. apply X_map. eapply X_ext; [apply IH|]. cbn beta. intros bs e (k & e' & Hk & He & ->).
    exists (S k), e'. split; [lia|]. split; [econstructor; eassumption|]. rewrite Nat.add_succ_comm. reflexivity.
Qed.
Lemma X_keys t n : Faults (decode t) (Rejects t) -> Consumes (decode t) (Accepts t) -> forall i acc,
  Faults (dec_keys (decode t) n i acc) (fun bs e => exists k e', (k < n)%nat /\ RejectsItems t k bs e' /\ e = DItem (i + k) e').
Proof.
  intros Hf Hc. induction n as [|n IH]; intros i acc; cbn [dec_keys]; [apply X_ok|].
  eapply X_bind; [apply N_map_err, Hc | |].
  - apply X_map_err. eapply X_ext; [exact Hf|]. intros bs e He. exists 0%nat, e. split; [lia|]. split; [constructor; exact He|]. rewrite Nat.add_0_r. reflexivity.
  - intros x a Ha. eapply X_ext; [apply IH|]. cbn beta. intros bs e (k & e' & Hk & He & ->).
    exists (S k), e'. split; [lia|]. split; [econstructor; eassumption|]. rewrite Nat.add_succ_comm. reflexivity.
Qed.
Lemma X_entries kt vt n : Faults (decode kt) (Rejects kt) -> Consumes (decode kt) (Accepts kt) ->
  Faults (decode vt) (Rejects vt) -> Consumes (decode vt) (Accepts vt) -> forall i acc,
  Faults (dec_entries (decode kt) (decode vt) n i acc) (fun bs e => exists k e', (k < n)%nat /\ RejectsEntries kt vt k bs e' /\ e = DItem (i + k) e').
Proof.
  intros Hf Hc Hfv Hcv. induction n as [|n IH]; intros i acc; cbn [dec_entries]; [apply X_ok|].
  eapply X_bind; [apply N_map_err, Hc | |].
  - apply X_map_err. eapply X_ext; [exact Hf|]. intros bs e He. exists 0%nat, e. split; [lia|]. split; [constructor; exact He|]. rewrite Nat.add_0_r. reflexivity.
  - intros x a Ha. eapply X_bind; [apply N_map_err, Hcv | |].
    + apply X_map_err. eapply X_ext; [exact Hfv|]. intros bs e He. exists 0%nat, e. split; [lia|].
      split; [econstructor; eassumption|]. rewrite Nat.add_0_r. reflexivity.
    + intros y b Hb. eapply X_ext; [apply IH|]. cbn beta. intros bs e (k & e' & Hk & He & ->).
      exists (S k), e'. split; [lia|]. split; [econstructor; eassumption|]. rewrite Nat.add_succ_comm. reflexivity.
Qed.
Lemma X_fields conv ts : Forall (fun t => Faults (decode t) (Rejects t) /\ Consumes (decode t) (Accepts t)) ts -> Forall (fun t => dec_ety t <> None) ts ->
  Faults (dec_fields conv (map decode ts)) (fun bs e => exists e' t z, RejectsFields ts bs e' /\ e = conv e' /\ In t ts /\ dec_ety t = Some z /\ DOf z e').
Proof.
  induction 1 as [|t ts [Hf Hc] Hts IH]; intros Hn; cbn [map dec_fields]; [apply X_ok|]. inversion Hn; subst.
  eapply X_bind; [apply N_map_err, Hc | |].
  - apply X_map_err. intros i i' e Hw He. destruct (Hf i i' e Hw He) as (n & Hl & Hi & Hq). exists n. split; [exact Hl|]. split; [exact Hi|].
    destruct (dec_ety t) as [z|] eqn:Ez; [|congruence]. exists e, t, z. split; [constructor; exact Hq|]. split; [reflexivity|].
    split; [left; reflexivity|]. split; [exact Ez|]. eapply C68_decode_lemma; eassumption.
  - intros x a Ha. apply X_map. eapply X_ext; [apply IH; assumption|]. cbn beta. intros bs e (e' & t' & z & He & -> & Hin & Hz & Ho).
    exists e', t', z. split; [econstructor; eassumption|]. split; [reflexivity|]. split; [right; exact Hin|]. auto.
Qed.

Lemma X_vec (wrap : ty -> ty) t (H : forall n lb k bs e, WireLen n lb -> (k < n)%nat -> RejectsItems t k bs e -> Rejects (wrap t) (lb ++ bs) (DItem k e)) :
  Faults (decode t) (Rejects t) -> Consumes (decode t) (Accepts t) -> Faults (dec_vec (decode t)) (Rejects (wrap t)).
Proof.
  intros Hf Hc. eapply X_bind; [apply N_len | apply X_unsigned|]. intros lb z [Hz Hl]. apply X_map. eapply X_ext; [apply X_items; assumption|].
  cbn beta. intros bs e (k & e' & Hk & He & ->). cbn [Nat.add]. eapply H; eassumption.
Qed.

Lemma X_string : Faults dec_string (Rejects TString).
Proof.
  unfold dec_string. eapply X_bind; [apply N_len | apply X_unsigned|]. intros lb z [Hz Hl].
  eapply X_bind; [apply (@N_read _ (fun bs a => a = bs /\ length bs = Z.to_nat z)); auto | apply X_never, DErrs_read|].
  cbn beta. intros x a [-> Hx]. apply X_map, X_map_err, X_lift. intros e He. rewrite app_nil_r.
  destruct (check_utf8_shape _ He) as (c & k & ->). apply bad_text in He. constructor; [rewrite Hx; exact Hl | exact He].
Qed.
Lemma X_sized_str n : Faults (dec_sized_str n) (Rejects (TSizedStr n)).
Proof.
  unfold dec_sized_str. eapply X_bind; [apply N_len | apply X_unsigned|]. intros lb z [Hz Hl].
  eapply X_bind; [apply (@N_read _ (fun bs a => a = bs /\ length bs = Z.to_nat z)); auto | apply X_never, DErrs_read|].
  cbn beta. intros x a [-> Hx]. apply X_map, X_lift. intros e He. rewrite app_nil_r. unfold sized_from_utf8 in He.
  rewrite <- Hx in Hl. destruct (Nat.ltb_spec n (length x)) as [Hlt|Hge].
  - injection He as <-. constructor; assumption.
  - destruct (check_utf8 x) as [?|e'|?] eqn:Ec; try discriminate. injection He as <-.
    destruct (check_utf8_shape _ Ec) as (c & k & ->). apply bad_text in Ec. constructor; assumption.
Qed.
Lemma X_cstring : Faults dec_cstring (Rejects TCString).
Proof.
  unfold dec_cstring. eapply X_bind; [apply N_len | apply X_unsigned|]. intros lb z [Hz Hl].
  eapply X_bind; [apply (@N_read _ (fun bs a => a = bs /\ length bs = Z.to_nat z)); auto | apply X_never, DErrs_read|].
  cbn beta. intros x a [-> Hx]. rewrite <- Hx in Hl. destruct (find_null_some x 0) as [(k & -> & Hn & Hi) | [-> Hn]]; [|apply X_ok].
  apply X_error. rewrite app_nil_r. constructor; assumption.
Qed.

Lemma option_map_some_d {A B} (f : A -> B) o : option_map f o <> None -> o <> None.
Proof. destruct o; cbn; congruence. Qed.
Lemma same_static_d ts : dec_ety (TTuple ts) <> None -> Forall (fun t => dec_ety t <> None) ts.
Proof.
  cbn [dec_ety]. destruct (map dec_ety ts) as [|[y0|] l] eqn:El; try congruence. destruct (all_same_d l y0) eqn:Es; [|congruence].
  intros _. apply all_same_d_forall in Es.
  assert (Hall : Forall (fun o => o = Some y0) (map dec_ety ts)) by (rewrite El; constructor; [reflexivity | exact Es]).
  apply (proj1 (Forall_map _ _ _)) in Hall. eapply Forall_impl; [|exact Hall]. cbn beta. congruence.
Qed.
Lemma generic_some_d ts : all_generic_d (map dec_ety ts) = true -> Forall (fun t => dec_ety t <> None) ts.
Proof.
  intros H. apply all_generic_d_forall in H. apply (proj1 (Forall_map _ _ _)) in H. eapply Forall_impl; [|exact H].
  cbn beta. intros t (y & Hy & _). congruence.
Qed.
Lemma generic_in_d ts t z e : all_generic_d (map dec_ety ts) = true -> In t ts -> dec_ety t = Some z -> DOf z e -> sane e -> DGeneric e (into_generic_dec e).
Proof.
  intros H Hin Hz He Hs. apply all_generic_d_forall in H. apply (proj1 (Forall_map _ _ _)) in H. rewrite Forall_forall in H.
  destruct (H _ Hin) as (y & Hy & Hg). apply (@generic_dof y); [|exact Hg | exact Hs]. rewrite Hz in Hy. injection Hy as <-. exact He.
Qed.

Lemma cow_static t : dec_ety (TCow t) = dec_ety (owned t).
Proof. destruct t; reflexivity. Qed.
Lemma owned_enums t : EnumsOk (owned t) <-> EnumsOk t.
Proof. destruct t; reflexivity. Qed.

Ltac xconv := cbn beta; intros; econstructor; eassumption.

Lemma faults_fields ts : Forall (fun t => FaultsTy t /\ FaultsTy (owned t)) ts -> Forall EnumsOk ts -> Forall (fun t => dec_ety t <> None) ts ->
  Forall (fun t => Faults (decode t) (Rejects t) /\ Consumes (decode t) (Accepts t)) ts.
Proof.
  intros H Hok Hs. rewrite Forall_forall in *. intros t Ht. split; [apply H; auto | apply accepts_all; auto].
Qed.

Lemma faults_all t : FaultsTy t /\ FaultsTy (owned t).
Proof.
  induction t using ty_ind_strong; cbn [owned];
  lazymatch goal with
  | |- ?P /\ ?P => cut P; [intros Hcut; split; exact Hcut|]
  | |- _ => split; [intros _ Hs; destruct Hs; reflexivity|]
  end; intros Hok Hs; cbn [EnumsOk] in Hok; cbn [decode];
    try apply X_ok; try apply X_panic;
    try (apply X_never, DErrs_dmap; first [apply DErrs_int | apply DErrs_unsigned | apply DErrs_bool | apply DErrs_ip4 | apply DErrs_ip6]);
    try (apply X_never; first [apply DErrs_sock4 | apply DErrs_sock6]);
    try apply X_string; try apply X_sized_str; try apply X_cstring;
    try (cbn [dec_ety] in Hs; apply X_map; eapply X_ext; [apply IHt; assumption|]; xconv).
  - (* char *) unfold dec_char. eapply X_bind; [apply N_unsigned | apply X_unsigned|]. intros x c [Hc Hr]. destruct (char_accepts c) eqn:E; [apply X_ok|].
    apply X_error. rewrite app_nil_r. change (2 ^ (8 * Z.of_nat 4)) with (2 ^ 32) in Hc. unfold char_accepts in E. constructor; [lia | exact Hr].
  - (* NonZero *) unfold dec_nonzero. eapply X_bind; [apply N_int | apply X_int|]. intros x c [Hc Hr]. destruct (Z.eqb_spec c 0); [|apply X_ok].
    subst c. apply X_error. rewrite app_nil_r. constructor. exact Hr.
  - (* Option *) cbn [dec_ety] in Hs. unfold dec_option. eapply X_bind; [apply N_bool | apply X_never, DErrs_bool|].
    intros x c [(-> & ->) | (b & Hb & -> & ->)]; cbn [app]; [apply X_ok|]. apply X_map. eapply X_ext; [apply IHt; assumption|]. xconv.
  - (* Result *) cbn [dec_ety] in Hs. destruct (dec_ety t1) eqn:E1; [|congruence]. destruct (dec_ety t2) eqn:E2; [|congruence]. destruct Hok as [Ho1 Ho2].
    unfold dec_result. eapply X_bind; [apply N_bool | apply X_never, DErrs_bool|].
    intros x c [(-> & ->) | (b & Hb & -> & ->)]; cbn [app]; apply X_map, X_map_err.
    + eapply X_ext; [apply IHt1; [assumption | congruence]|]. xconv.
    + eapply X_ext; [apply IHt2; [assumption | congruence]|]. xconv.
  - (* tuple *) apply X_map. apply fold_and_map in Hok. apply same_static_d in Hs.
    eapply X_ext; [apply X_fields; [apply faults_fields; assumption | assumption]|]. cbn beta. intros bs e (e' & t & z & He & -> & _). constructor. exact He.
  - (* array *) cbn [dec_ety] in Hs. apply option_map_some_d in Hs. apply X_map. eapply X_ext; [apply X_items; [apply IHt | apply accepts_all]; assumption|].
    cbn beta. intros bs e (k & e' & Hk & He & ->). cbn [Nat.add]. constructor; assumption.
  - (* slice, owned *) cbn [dec_ety] in Hs. apply option_map_some_d in Hs. apply X_vec; [apply Rj_vec | apply IHt; assumption | apply accepts_all; assumption].
  - (* Vec *) cbn [dec_ety] in Hs. apply option_map_some_d in Hs. apply X_vec; [apply Rj_vec | apply IHt; assumption | apply accepts_all; assumption].
  - (* LinkedList *) cbn [dec_ety] in Hs. apply option_map_some_d in Hs. apply X_vec; [apply Rj_linked | apply IHt; assumption | apply accepts_all; assumption].
  - (* SizedSlice *) cbn [dec_ety] in Hs. apply option_map_some_d in Hs. unfold dec_sized_slice.
    eapply X_bind; [apply N_len | apply X_unsigned|]. intros lb z [Hz Hl]. destruct (Nat.ltb_spec n (Z.to_nat z)) as [Hlt|Hge].
    + apply X_error. rewrite app_nil_r. constructor; assumption.
    + apply X_map. eapply X_ext; [apply X_items; [apply IHt | apply accepts_all]; assumption|].
      cbn beta. intros bs e (k & e' & Hk & He & ->). cbn [Nat.add]. eapply Rj_sized_slice; eassumption.
  - (* wrapper *) cbn [dec_ety] in Hs. apply X_map. eapply X_ext; [apply IHt; [assumption | destruct w; congruence]|]. xconv.
  - (* Cow *) rewrite cow_static in Hs. rewrite decode_owned. apply X_map. eapply X_ext; [apply IHt; [apply owned_enums; assumption | assumption]|]. xconv.
  - (* Duration *) apply X_never. unfold dec_duration. apply DErrs_bind; [apply DErrs_unsigned|]. intros s. apply DErrs_bind; [apply DErrs_unsigned|]. intros n.
    apply DErrs_lift. intros e He. unfold duration_new in He. repeat destruct (_ <? _)%Z; discriminate.
  - (* SystemTime *) unfold dec_time. eapply X_bind; [apply N_signed; lia | apply X_never, DErrs_signed|].
    change (2 ^ (8 * Z.of_nat 8 - 1)) with (2 ^ 63). intros x s [Hs' Hr].
    assert (E : (if 0 <? s then epoch_plus s else epoch_plus (0 - Z.abs s)) = Some (VTime s 0)).
    { destruct (Z.ltb_spec 0 s); [apply epoch_plus_in; exact Hs'|]. replace (0 - Z.abs s) with s by lia. apply epoch_plus_in; exact Hs'. }
    rewrite E. apply X_ok.
  - (* IpAddr *) unfold dec_ip_addr. eapply X_bind; [apply N_byte | apply X_unsigned|]. intros x z (b & -> & ->). cbn [app].
    destruct (Z.eqb_spec (b2z b) 4) as [E|E]; [apply X_never, DErrs_dmap, DErrs_ip4|].
    destruct (Z.eqb_spec (b2z b) 6) as [E6|E6]; [apply X_never, DErrs_dmap, DErrs_ip6|].
    apply X_error. constructor. cbn [In]. intros [H|[H|[]]]; subst b; [apply E | apply E6]; reflexivity.
  - (* SocketAddr *) unfold dec_sock_addr. eapply X_bind; [apply N_byte | apply X_unsigned|]. intros x z (b & -> & ->). cbn [app].
    destruct (Z.eqb_spec (b2z b) 4) as [E|E]; [apply X_never, DErrs_sock4|].
    destruct (Z.eqb_spec (b2z b) 6) as [E6|E6]; [apply X_never, DErrs_sock6|].
    apply X_error. constructor. cbn [In]. intros [H|[H|[]]]; subst b; [apply E | apply E6]; reflexivity.
  - (* Range *) cbn [dec_ety] in Hs. eapply X_bind; [apply accepts_all; assumption | |].
    + eapply X_ext; [apply IHt; assumption|]. cbn beta. intros. apply Rj_range_start. assumption.
    + intros x a Ha. apply X_map. eapply X_ext; [apply IHt; assumption|]. cbn beta. intros. eapply Rj_range_end; eassumption.
  - (* RangeInclusive *) cbn [dec_ety] in Hs. eapply X_bind; [apply accepts_all; assumption | |].
    + eapply X_ext; [apply IHt; assumption|]. cbn beta. intros. apply Rj_range_incl_start. assumption.
    + intros x a Ha. apply X_map. eapply X_ext; [apply IHt; assumption|]. cbn beta. intros. eapply Rj_range_incl_end; eassumption.
  - (* Bound *) cbn [dec_ety] in Hs. apply option_map_some_d in Hs. unfold dec_bound. eapply X_bind; [apply N_byte | apply X_unsigned|]. intros x z (b & -> & ->). cbn [app].
    destruct (Z.eqb_spec (b2z b) 0) as [E|E]; [|destruct (Z.eqb_spec (b2z b) 1) as [E1|E1]; [|destruct (Z.eqb_spec (b2z b) 2) as [E2|E2]; [apply X_ok|]]].
    + apply (b2z_inj b x00) in E. subst b. apply X_map, X_map_err. eapply X_ext; [apply IHt; assumption|]. xconv.
    + apply (b2z_inj b x01) in E1. subst b. apply X_map, X_map_err. eapply X_ext; [apply IHt; assumption|]. cbn beta. intros. apply Rj_excluded. assumption.
    + apply X_error. constructor. cbn [In]. intros [H|[H|[H|[]]]]; subst b; [apply E | apply E1 | apply E2]; reflexivity.
  - (* HashMap *) cbn [dec_ety] in Hs. destruct (dec_ety t1) eqn:E1; [|congruence]. destruct (dec_ety t2) eqn:E2; [|congruence]. destruct Hok as [Ho1 Ho2].
    unfold dec_map. eapply X_bind; [apply N_len | apply X_unsigned|]. intros lb z [Hz Hl]. apply X_map.
    eapply X_ext; [apply X_entries; [apply IHt1 | apply accepts_all | apply IHt2 | apply accepts_all]; solve [assumption | congruence]|].
    cbn beta. intros bs e (k & e' & Hk & He & ->). cbn [Nat.add]. econstructor; eassumption.
  - (* HashSet *) cbn [dec_ety] in Hs. apply option_map_some_d in Hs. unfold dec_set. eapply X_bind; [apply N_len | apply X_unsigned|]. intros lb z [Hz Hl]. apply X_map.
    eapply X_ext; [apply X_keys; [apply IHt | apply accepts_all]; assumption|].
    cbn beta. intros bs e (k & e' & Hk & He & ->). cbn [Nat.add]. econstructor; eassumption.
  - (* struct *) cbn [dec_ety] in Hs. destruct (all_generic_d (map dec_ety ts)) eqn:Eg; [|congruence]. apply fold_and_map in Hok. apply X_map.
    pose proof (generic_some_d _ Eg) as Hg. eapply X_ext; [apply X_fields; [apply faults_fields; assumption | assumption]|].
    cbn beta. intros bs e (e' & t & z & He & -> & Hin & Hz & Ho). econstructor; [exact He|].
    eapply generic_in_d; try eassumption. apply (proj1 (proj2 rejects_sane_all) _ _ _ He).
  - (* enum *) cbn [dec_ety] in Hs. destruct (forallb _ vs) eqn:Eg; [|congruence]. rewrite forallb_forall in Eg. destruct Hok as [Heok Hok]. apply fold_and_map in Hok.
    unfold dec_enum. destruct (discriminants (map fst vs)) as [ds|] eqn:Hd; [|apply X_panic].
    eapply X_bind; [apply N_int | apply X_int|]. intros x d [Hz Hr]. destruct (find_disc d ds 0) as [i|] eqn:Ei.
    + apply find_disc_inv in Ei. destruct Ei as (j & -> & Hj). cbn [Nat.add].
      destruct (nth_error (map (fun x0 => map decode (snd x0)) vs) j) as [fs|] eqn:Ej; [|apply X_panic].
      apply nth_error_map_inv in Ej. destruct Ej as ([e ts] & Ej & ->). cbn [snd]. pose proof (nth_error_In _ _ Ej) as Hin.
      rewrite Forall_forall in Hok, H. specialize (Hok _ Hin). specialize (H _ Hin). specialize (Eg _ Hin). cbn [snd] in *. apply fold_and_map in Hok.
      pose proof (generic_some_d _ Eg) as Hg. apply X_map. eapply X_ext; [apply X_fields; [apply faults_fields; assumption | assumption]|].
      cbn beta. intros bs y (e' & t & z & He & -> & Hit & Hzt & Ho). eapply Rj_field; try eassumption.
      * apply (@discriminants_assigned _ _ j d Hd). exact Hj.
      * eapply generic_in_d; try eassumption. apply (proj1 (proj2 rejects_sane_all) _ _ _ He).
    + apply X_error. rewrite app_nil_r. constructor; try assumption. intros j Hj. apply (@discriminants_assigned _ _ j d Hd) in Hj.
      apply (find_disc_none _ _ _ Ei). apply (nth_error_In _ _ Hj).
Qed.

(* ---- the property *)
Lemma C89_run_lemma t z i i' e : EnumsOk t -> dec_ety t = Some z -> in_bounds i -> decode t i = (i', Err e) ->
  exists bs post, unread i = bs ++ post /\ i' = Input (i_buf i) (i_pos i + length bs) /\ Rejects t bs e.
Proof.
  intros Hok Hz Hw He. assert (Hs : dec_ety t <> None) by congruence.
  destruct (proj1 (faults_all t) Hok Hs i i' e Hw He) as (n & Hn & -> & Hr).
  exists (firstn n (rest i)), (skipn n (rest i)). split; [symmetry; apply firstn_skipn|]. split; [|exact Hr].
  rewrite firstn_length, Nat.min_l by exact Hn. reflexivity.
Qed.
Lemma C89_lemma t z bs e : EnumsOk t -> dec_ety t = Some z -> (Refuses (decode t) bs e <-> Rejects t bs e).
Proof.
  intros Hok Hz. split; [|apply rejects_refuses].
  intros H. specialize (H [] []). cbn [app length Nat.add] in H. rewrite app_nil_r in H.
  destruct (@C89_run_lemma t z (Input bs 0) (Input bs (length bs)) e Hok Hz (Nat.le_0_l _) H) as (x & post & Hx & Hi & Ha).
  unfold unread in Hx. cbn [i_buf i_pos skipn] in *. injection Hi as Hl. unfold input_position in Hx. cbn [i_pos skipn] in Hx.
  assert (post = []).
  { apply (f_equal (@length byte)) in Hx. rewrite app_length in Hx. destruct post; [reflexivity | cbn [length] in Hx; lia]. }
  subst post. rewrite app_nil_r in Hx. subst x. exact Ha.
Qed.

Lemma C89_panics_lemma t z i : EnumsOk t -> dec_ety t = Some z -> in_bounds i ->
  ((exists i' p, decode t i = (i', Panic p)) <->
   (forall bs post, unread i = bs ++ post -> (forall v, ~ Accepts t bs v) /\ (forall e, ~ Rejects t bs e))).
Proof.
  intros Hok Hz Hw.
  assert (Hat : forall bs post, unread i = bs ++ post -> exists pre, i = Input (pre ++ bs ++ post) (length pre)).
  { intros bs post Hu. exists (firstn (i_pos i) (i_buf i)). unfold unread, input_position, in_bounds, input_capacity in *. rewrite <- Hu, firstn_skipn.
    rewrite firstn_length. unfold input_position in Hw. rewrite Nat.min_l by exact Hw. destruct i; reflexivity. }
  split.
  - intros (i' & p & Hd) bs post Hu. destruct (Hat _ _ Hu) as (pre & ->). split.
    + intros v Hv. apply accepts_parses in Hv. specialize (Hv pre post). rewrite Hv in Hd. discriminate.
    + intros e He. apply rejects_refuses in He. specialize (He pre post). rewrite He in Hd. discriminate.
  - intros H. destruct (decode t i) as [i' [v|e|p]] eqn:Hd; [| |eauto].
    + destruct (@decode_exact t i i' v Hok Hw Hd) as (bs & post & Hu & _ & Ha). destruct (proj1 (H _ _ Hu) _ Ha).
    + destruct (@C89_run_lemma t z i i' e Hok Hz Hw Hd) as (bs & post & Hu & _ & Ha). destruct (proj2 (H _ _ Hu) _ Ha).
Qed.
