(* Errors belong to the declared error types: C65, C67, C68. *)
From Coq Require Import Lia ZifyBool ZifyNat ZifyN.
From Verif Require Import Base BaseFacts Streams StreamFacts Utf8 Types Traits Encode Decode TypesFacts Spec SpecCalls SpecDecode SpecDerive.
Set Implicit Arguments.

(* ---- equality of error types *)

Lemma ity_eqb_eq a b : ity_eqb a b = true -> a = b.
Proof. destruct a, b; cbn; congruence. Qed.
Lemma ety_eqb_eq a : forall b, ety_eqb a b = true -> a = b.
Proof.
  induction a; intros [] H; cbn [ety_eqb] in H; try discriminate; try reflexivity;
    try (apply andb_true_iff in H as [H1 H2]); f_equal; auto using ity_eqb_eq.
Qed.
Lemma dety_eqb_eq a : forall b, dety_eqb a b = true -> a = b.
Proof.
  induction a as [| | | | | | |l IHl i IHi|e IHe|d f IHf|]; intros b H;
    destruct b as [| | | | | | |l' i'|e'|d' f'|]; cbn [dety_eqb] in H; try discriminate; try reflexivity;
    try (destruct d; discriminate).
  - apply andb_true_iff in H as [H1 H2]. f_equal; auto.
  - f_equal; auto.
  - destruct d as [d|], d' as [d'|]; try discriminate.
    + apply andb_true_iff in H as [H1 H2]. apply ity_eqb_eq in H1. subst. f_equal; auto.
    + f_equal; auto.
Qed.

(* ---- encoding *)

(* every error of the call satisfies [P] *)
Definition Errs (m : E) (P : eerr -> Prop) : Prop := forall o o' e, m o = (o', Err e) -> P e.

Lemma Errs_impl m (P Q : eerr -> Prop) : Errs m P -> (forall e, P e -> Q e) -> Errs m Q.
Proof. intros H HQ o o' e He. apply HQ. exact (H _ _ _ He). Qed.
Arguments Errs_impl {m P Q} _ _.
Lemma Errs_ok P : Errs eok P.
Proof. intros o o' e H. discriminate. Qed.
Lemma Errs_panic p P : Errs (epanic p) P.
Proof. intros o o' e H. discriminate. Qed.
Lemma Errs_error x (P : eerr -> Prop) : P x -> Errs (eerror x) P.
Proof. intros Hx o o' e H. injection H as _ <-. exact Hx. Qed.
Lemma Errs_write d P : Errs (ewrite d) P.
Proof. intros o o' e H. unfold ewrite in H. destruct (output_write o d) as [? [?|?|?]]; discriminate. Qed.
Lemma Errs_num w z P : Errs (enc_num w z) P.
Proof. apply Errs_write. Qed.
Lemma Errs_seq a b P : Errs a P -> Errs b P -> Errs (eseq a b) P.
Proof.
  intros Ha Hb o o' e H. unfold eseq in H. destruct (a o) as [o1 [?|x|?]] eqn:E; [exact (Hb _ _ _ H) | | discriminate].
  injection H as _ <-. exact (Ha _ _ _ E).
Qed.
Arguments Errs_seq {a b P} _ _.
Lemma Errs_map f m (P Q : eerr -> Prop) : Errs m P -> (forall e, P e -> Q (f e)) -> Errs (emap_err f m) Q.
Proof.
  intros Hm HQ o o' e H. unfold emap_err in H. destruct (m o) as [o1 [?|x|?]] eqn:E; try discriminate.
  injection H as _ <-. apply HQ. exact (Hm _ _ _ E).
Qed.
Arguments Errs_map f {m P Q} _ _.
Lemma Errs_int i z : Errs (enc_int i z) (EOf (int_ety i)).
Proof.
  destruct i; cbn [enc_int]; try apply Errs_num; unfold enc_usize, enc_isize; destruct (_ && _)%bool;
    try apply Errs_num; apply Errs_error; constructor.
Qed.
Lemma Errs_items {A} (f : A -> E) wrap (P Q : eerr -> Prop) l : Forall (fun x => Errs (f x) P) l -> (forall i e, P e -> Q (wrap i e)) ->
  forall i, Errs (enc_items f wrap i l) Q.
Proof.
  intros H HQ. induction H as [|x l Hx Hl IH]; intros i; cbn [enc_items]; [apply Errs_ok|].
  apply Errs_seq; [|apply IH]. apply (Errs_map (wrap i) Hx). intros e. apply HQ.
Qed.
Arguments Errs_items {A f wrap P Q l} _ _ _.
Lemma Errs_slice {A} (f : A -> E) wrap (P : eerr -> Prop) y l : Forall (fun x => Errs (f x) P) l ->
  (forall i e, P e -> EOf (YColl YUsize y) (wrap i e)) -> Errs (enc_slice f wrap l) (EOf (YColl YUsize y)).
Proof.
  intros H HQ. apply Errs_seq; [|apply (Errs_items H HQ)]. apply (Errs_map ELen (Errs_int Usize _)). intros e He. constructor. exact He.
Qed.
Arguments Errs_slice {A f wrap P y l} _ _.
Lemma Errs_bytes bs : Errs (enc_bytes bs) (EOf (YColl YUsize (YItem YInfallible))).
Proof.
  apply (@Errs_slice _ (fun b => enc_u8 (b2z b)) EItem (EOf YInfallible)); [apply Forall_forall; intros x _; apply Errs_num|].
  intros i e He. constructor. exact He.
Qed.
Lemma Errs_fields conv (Q : eerr -> Prop) fs : Forall (fun f => forall v, Errs (f v) (fun e => Q (conv e))) fs ->
  forall vs, Errs (enc_fields fs conv vs) Q.
Proof.
  induction 1 as [|f fs Hf Hfs IH]; intros [|v vs]; cbn [enc_fields]; try apply Errs_ok; try apply Errs_panic.
  apply Errs_seq; [|apply IH]. apply (Errs_map conv (Hf v)). auto.
Qed.
Lemma Errs_entries fk fv P l : (forall x, Errs (fk x) P) -> (forall x, Errs (fv x) P) -> Errs (enc_entries fk fv l) P.
Proof. intros Hk Hv. induction l as [|[k v] l IH]; cbn [enc_entries]; [apply Errs_ok|]. repeat apply Errs_seq; auto. Qed.
Lemma Errs_keys fk P l : (forall x, Errs (fk x) P) -> Errs (enc_keys fk l) P.
Proof. intros Hk. induction l as [|k l IH]; cbn [enc_keys]; [apply Errs_ok|]. repeat apply Errs_seq; auto. Qed.
Lemma Errs_time ch s n P : Errs (enc_time ch s n) P.
Proof.
  unfold enc_time. destruct (0 <=? s)%Z; [apply Errs_num|]. cbn zeta. destruct (_ =? _)%Z; [|apply Errs_num].
  destruct ch; [apply Errs_panic | apply Errs_num].
Qed.

(* conversions of error values follow the conversions of their types *)
Lemma into_generic_of y e : EOf y e -> into_generic_ety y = true -> EOf YGeneric (into_generic_enc e).
Proof.
  induction 1; intros Hy; cbn [into_generic_ety into_generic_enc] in *; try discriminate; try constructor;
    try (apply IHEOf; try (apply andb_true_iff in Hy as [H1 H2]); try assumption; destruct r; reflexivity).
  apply andb_true_iff in Hy as [_ Hy]. discriminate.
Qed.
Arguments into_generic_of {y e} _ _.
Lemma into_infallible_of y e : EOf y e -> into_infallible_ety y = true -> False.
Proof.
  induction 1; intros Hy; cbn [into_infallible_ety] in *; try discriminate; apply andb_true_iff in Hy as [H1 H2]; auto; try discriminate.
  apply IHEOf. destruct (int_ety r); try discriminate. reflexivity.
Qed.
Arguments into_infallible_of {y e} _ _.

Definition ErrTy (ch : bool) (t : ty) : Prop := forall y, enc_ety t = Some y -> forall v, Errs (encode ch t v) (EOf y).

Lemma all_same_forall l y : all_same l y = true -> Forall (fun o => o = Some y) l.
Proof.
  induction l as [|[e|] l IH]; cbn [all_same]; intros H; [constructor| |discriminate].
  apply andb_true_iff in H as [H1 H2]. apply ety_eqb_eq in H1. subst. constructor; auto.
Qed.
Lemma all_generic_forall l : all_generic l = true -> Forall (fun o => exists y, o = Some y /\ into_generic_ety y = true) l.
Proof.
  induction l as [|[e|] l IH]; cbn [all_generic]; intros H; [constructor| |discriminate].
  apply andb_true_iff in H as [H1 H2]. constructor; eauto.
Qed.

Lemma fields_generic ch ts : Forall (ErrTy ch) ts -> all_generic (map enc_ety ts) = true ->
  Forall (fun f => forall v, Errs (f v) (fun e => EOf YGeneric (into_generic_enc e))) (map (encode ch) ts).
Proof.
  intros H Hg. apply all_generic_forall in Hg. induction H as [|t ts Ht Hts IH]; cbn [map] in *; [constructor|].
  inversion Hg as [|? ? (y & Hy & Hyg) Hg']; subst. constructor; [|apply IH; exact Hg'].
  intros v. eapply Errs_impl; [apply (Ht _ Hy)|]. intros e He. eapply into_generic_of; eassumption.
Qed.
Arguments fields_generic {ch ts} _ _.

Lemma encode_errors ch t : ErrTy ch t.
Proof.
  induction t using ty_ind_strong; intros y Hy v; cbn [enc_ety] in Hy;
    destruct v; cbn [encode]; try apply Errs_panic; try (injection Hy as <-);
    try apply Errs_num; try apply Errs_int; try apply Errs_ok; try apply Errs_bytes; try apply Errs_time;
    try (repeat apply Errs_seq; apply Errs_num); try (apply IHt; exact Hy).
  - apply Errs_seq; [apply Errs_num | apply IHt; exact Hy].
  - destruct (enc_ety t1) as [y1|] eqn:E1; [|discriminate]. destruct (enc_ety t2) as [y2|] eqn:E2; [|discriminate].
    destruct (into_ety y2 y1); [|discriminate]. injection Hy as <-. apply Errs_seq; [apply Errs_num | apply IHt1; exact E1].
  - destruct (enc_ety t1) as [y1|] eqn:E1; [|discriminate]. destruct (enc_ety t2) as [y2|] eqn:E2; [|discriminate].
    destruct (into_ety y2 y1) eqn:Ei; [|discriminate]. injection Hy as <-. apply Errs_seq; [apply Errs_num|].
    apply (Errs_map (result_conv t1 t2) (IHt2 _ E2 v)). intros e He. unfold result_conv. rewrite E1, E2.
    unfold into_ety in Ei. apply orb_true_iff in Ei as [Ei|Ei].
    + apply ety_eqb_eq in Ei. subst y2. destruct y1; exact He.
    + destruct y1; try discriminate.
      * exfalso. eapply into_infallible_of; eassumption.
      * pose proof (into_generic_of He Ei). destruct y2; try assumption.
  - destruct (map enc_ety ts) as [|[y0|] l] eqn:El; try discriminate. destruct (all_same l y0) eqn:Es; [|discriminate].
    injection Hy as <-. apply all_same_forall in Es.
    assert (Hall : Forall (fun o => o = Some y0) (map enc_ety ts)) by (rewrite El; constructor; [reflexivity | exact Es]).
    apply Errs_fields. clear El Es. induction H as [|t ts Ht Hts IH]; cbn [map] in *; [constructor|].
    inversion Hall; subst. constructor; [|apply IH; assumption]. apply Ht. assumption.
  - destruct (enc_ety t) as [y0|] eqn:Ey; [|discriminate]. injection Hy as <-.
    apply (@Errs_items _ (encode ch t) EItem (EOf y0)); [apply Forall_forall; intros x _; apply IHt; exact Ey | intros i e He; constructor; exact He].
  - destruct (enc_ety t) as [y0|] eqn:Ey; [|discriminate]. injection Hy as <-.
    apply (@Errs_slice _ (encode ch t) EItem (EOf y0)); [apply Forall_forall; intros x _; apply IHt; exact Ey | intros i e He; constructor; exact He].
  - destruct (enc_ety t) as [y0|] eqn:Ey; [|discriminate]. injection Hy as <-.
    apply (@Errs_slice _ (encode ch t) EItem (EOf y0)); [apply Forall_forall; intros x _; apply IHt; exact Ey | intros i e He; constructor; exact He].
  - destruct (enc_ety t) as [y0|] eqn:Ey; [|discriminate]. injection Hy as <-.
    apply (@Errs_slice _ (encode ch t) EItemTuple (EOf y0)); [apply Forall_forall; intros x _; apply IHt; exact Ey | intros i e He; constructor; exact He].
  - destruct (enc_ety t) as [y0|] eqn:Ey; [|discriminate]. injection Hy as <-.
    apply (@Errs_slice _ (encode ch t) EItem (EOf y0)); [apply Forall_forall; intros x _; apply IHt; exact Ey | intros i e He; constructor; exact He].
  - destruct (enc_ety t) as [y0|] eqn:Ey; [|discriminate]. injection Hy as <-. unfold enc_refcell.
    destruct mut_borrowed; [apply Errs_error; constructor|]. apply (Errs_map EBadValue (IHt _ Ey v)). intros e He. constructor. exact He.
  - apply Errs_seq; eapply Errs_map; try apply (Errs_num _ _ (fun _ => False)); intros e [].
  - apply Errs_seq; eapply Errs_map; try apply (Errs_num _ _ (fun _ => False)); intros e [].
  - apply Errs_seq; apply IHt; exact Hy.
  - apply Errs_seq; apply IHt; exact Hy.
  - destruct (enc_ety t) as [y0|] eqn:Ey; [|discriminate]. injection Hy as <-. apply Errs_seq; [apply Errs_num|].
    apply (Errs_map EField (IHt _ Ey v)). intros e He. constructor. exact He.
  - destruct (enc_ety t) as [y0|] eqn:Ey; [|discriminate]. injection Hy as <-. apply Errs_seq; [apply Errs_num|].
    apply (Errs_map EField (IHt _ Ey v)). intros e He. constructor. exact He.
  - destruct (enc_ety t1) as [y1|] eqn:E1; [|discriminate]. destruct (enc_ety t2) as [y2|] eqn:E2; [|discriminate].
    destruct (ety_eqb y1 y2) eqn:Ei; [|discriminate]. apply ety_eqb_eq in Ei. subst y2. injection Hy as <-.
    apply Errs_entries; intros x; [apply IHt1 | apply IHt2]; assumption.
  - apply Errs_keys. intros x. apply IHt. exact Hy.
  - destruct (all_generic (map enc_ety ts)) eqn:Eg; [|discriminate]. injection Hy as <-.
    apply Errs_fields. apply (fields_generic H Eg).
  - destruct (forallb _ vs) eqn:Eg; [|discriminate]. injection Hy as <-. rewrite forallb_forall in Eg.
    unfold enc_enum. destruct (discriminants _) as [ds|]; [|apply Errs_panic].
    destruct (nth_error ds i) as [d|]; [|apply Errs_panic].
    destruct (nth_error (map _ vs) i) as [fs|] eqn:Ef; [|apply Errs_panic].
    apply nth_error_map_inv in Ef. destruct Ef as ([x ts] & Ef & ->). cbn [snd]. apply nth_error_In in Ef.
    rewrite Forall_forall in H. specialize (H _ Ef). specialize (Eg _ Ef). cbn [snd] in *.
    apply Errs_seq.
    + apply (Errs_map EDisc (Errs_int r d)). intros e He. constructor. exact He.
    + apply Errs_fields. eapply Forall_impl; [|apply (fields_generic H Eg)]. cbn beta. intros f Hf w.
      eapply Errs_impl; [apply Hf|]. intros e He. constructor. exact He.
Qed.

(* ---- decoding *)

Definition DErrs {A} (m : D A) (P : derr -> Prop) : Prop := forall i i' e, m i = (i', Err e) -> P e.

Lemma DErrs_impl {A} (m : D A) (P Q : derr -> Prop) : DErrs m P -> (forall e, P e -> Q e) -> DErrs m Q.
Proof. intros H HQ o o' e He. apply HQ. exact (H _ _ _ He). Qed.
Arguments DErrs_impl {A m P Q} _ _.
Lemma DErrs_ok {A} (a : A) P : DErrs (dok a) P.
Proof. intros o o' e H. discriminate. Qed.
Lemma DErrs_panic {A} p P : DErrs (@dpanic A p) P.
Proof. intros o o' e H. discriminate. Qed.
Lemma DErrs_error {A} x (P : derr -> Prop) : P x -> DErrs (@derror A x) P.
Proof. intros Hx o o' e H. injection H as _ <-. exact Hx. Qed.
Lemma DErrs_lift {A} (r : res derr A) (P : derr -> Prop) : (forall e, r = Err e -> P e) -> DErrs (dlift r) P.
Proof. intros Hx o o' e H. injection H as _ H. auto. Qed.
Lemma DErrs_bind {A B} (m : D A) (k : A -> D B) P : DErrs m P -> (forall a, DErrs (k a) P) -> DErrs (dbind m k) P.
Proof.
  intros Hm Hk o o' e H. unfold dbind in H. destruct (m o) as [o1 [a|x|?]] eqn:E; [exact (Hk _ _ _ _ H) | | discriminate].
  injection H as _ <-. exact (Hm _ _ _ E).
Qed.
Lemma DErrs_dmap {A B} (f : A -> B) m P : DErrs m P -> DErrs (dmap f m) P.
Proof. intros H. apply DErrs_bind; [exact H | intros a; apply DErrs_ok]. Qed.
Lemma DErrs_map {A} f (m : D A) (P Q : derr -> Prop) : DErrs m P -> (forall e, P e -> Q (f e)) -> DErrs (dmap_err f m) Q.
Proof.
  intros Hm HQ o o' e H. unfold dmap_err in H. destruct (m o) as [o1 [?|x|?]] eqn:E; try discriminate.
  injection H as _ <-. apply HQ. exact (Hm _ _ _ E).
Qed.
Arguments DErrs_map {A} f {m P Q} _ _.
Lemma DErrs_read n P : DErrs (dread n) P.
Proof. intros o o' e H. unfold dread in H. destruct (input_read o n) as [? [?|?|?]]; discriminate. Qed.
Lemma DErrs_read_into n P : DErrs (dread_into n) P.
Proof. intros o o' e H. unfold dread_into in H. destruct (input_read_into o _) as [[? ?] [?|?|?]]; discriminate. Qed.
Lemma DErrs_unsigned w P : DErrs (dec_unsigned w) P.
Proof. apply DErrs_dmap, DErrs_read_into. Qed.
Lemma DErrs_signed w P : DErrs (dec_signed w) P.
Proof. apply DErrs_dmap, DErrs_read_into. Qed.
Lemma DErrs_int i P : DErrs (dec_int i) P.
Proof. destruct i; cbn [dec_int isigned]; (apply DErrs_unsigned || apply DErrs_signed). Qed.
Lemma DErrs_bool P : DErrs dec_bool P.
Proof. apply DErrs_dmap, DErrs_unsigned. Qed.
Lemma DErrs_items {A} (f : D A) (P Q : derr -> Prop) : DErrs f P -> (forall i e, P e -> Q (DItem i e)) -> forall n i, DErrs (dec_items f n i) Q.
Proof.
  intros H HQ. induction n as [|n IH]; intros i; cbn [dec_items]; [apply DErrs_ok|].
  apply DErrs_bind; [apply (DErrs_map (DItem i) H); auto | intros a; apply DErrs_dmap, IH].
Qed.
Arguments DErrs_items {A f P Q} _ _ _ _.
Lemma DErrs_fields conv (Q : derr -> Prop) fs : Forall (fun f => DErrs f (fun e => Q (conv e))) fs -> DErrs (dec_fields conv fs) Q.
Proof.
  induction 1 as [|f fs Hf Hfs IH]; cbn [dec_fields]; [apply DErrs_ok|].
  apply DErrs_bind; [apply (DErrs_map conv Hf); auto | intros a; apply DErrs_dmap, IH].
Qed.
Lemma DErrs_vec f z : DErrs f (DOf z) -> DErrs (dec_vec f) (DOf (ZColl ZInfallible (ZItem z))).
Proof.
  intros H. apply DErrs_bind; [apply DErrs_unsigned|]. intros n. apply DErrs_dmap. apply (DErrs_items H). intros i e He. constructor. exact He.
Qed.
Lemma DErrs_entries fk fv z n : forall i acc, DErrs fk (DOf z) -> DErrs fv (DOf z) ->
  DErrs (dec_entries fk fv n i acc) (DOf (ZColl ZInfallible (ZItem z))).
Proof.
  induction n as [|n IH]; intros i acc Hk Hv; cbn [dec_entries]; [apply DErrs_ok|].
  apply DErrs_bind; [apply (DErrs_map (DItem i) Hk); intros e He; constructor; exact He|]. intros k.
  apply DErrs_bind; [apply (DErrs_map (DItem i) Hv); intros e He; constructor; exact He|]. intros v. apply IH; assumption.
Qed.
Lemma DErrs_keys fk z n : forall i acc, DErrs fk (DOf z) -> DErrs (dec_keys fk n i acc) (DOf (ZColl ZInfallible (ZItem z))).
Proof.
  induction n as [|n IH]; intros i acc Hk; cbn [dec_keys]; [apply DErrs_ok|].
  apply DErrs_bind; [apply (DErrs_map (DItem i) Hk); intros e He; constructor; exact He|]. intros k. apply IH; assumption.
Qed.
Lemma check_utf8_err bs e : check_utf8 bs = Err e -> DOf ZUtf8 e.
Proof. unfold check_utf8. destruct (from_utf8 bs); [|discriminate]. destruct (nth_error bs n); [|discriminate]. intros H. injection H as <-. constructor. Qed.
Arguments check_utf8_err bs {e} _.
Lemma DErrs_string : DErrs dec_string (DOf (ZColl ZInfallible ZUtf8)).
Proof.
  apply DErrs_bind; [apply DErrs_unsigned|]. intros n. apply DErrs_bind; [apply DErrs_read|]. intros bs. apply DErrs_dmap.
  eapply DErrs_map; [apply DErrs_lift; intros e He; exact (check_utf8_err _ He)|]. intros e He. constructor. exact He.
Qed.
Lemma DErrs_cstring : DErrs dec_cstring (DOf ZCString).
Proof.
  apply DErrs_bind; [apply DErrs_unsigned|]. intros n. apply DErrs_bind; [apply DErrs_read|]. intros bs.
  destruct (find_null 0 bs); [apply DErrs_error; constructor | apply DErrs_ok].
Qed.
Lemma DErrs_ip4 P : DErrs dec_ip4 P.
Proof. apply DErrs_dmap, DErrs_unsigned. Qed.
Lemma DErrs_ip6 P : DErrs dec_ip6 P.
Proof. apply DErrs_dmap, DErrs_unsigned. Qed.
Lemma DErrs_sock4 k P : DErrs (dec_sock4 k) P.
Proof. apply DErrs_bind; [apply DErrs_ip4|]. intros o. apply DErrs_bind; [apply DErrs_unsigned|]. intros p. apply DErrs_ok. Qed.
Lemma DErrs_sock6 k P : DErrs (dec_sock6 k) P.
Proof. apply DErrs_bind; [apply DErrs_ip6|]. intros o. do 3 (apply DErrs_bind; [apply DErrs_unsigned|]; intros ?). apply DErrs_ok. Qed.

Lemma into_generic_dof z e : DOf z e -> into_generic_dety z = true -> DOf ZGeneric (into_generic_dec e).
Proof.
  induction 1; intros Hz; cbn [into_generic_dety into_generic_dec] in *; try discriminate; try constructor;
    try (apply IHDOf; try (apply andb_true_iff in Hz as [H1 H2]); assumption).
  apply IHDOf. destruct d; [exact Hz | discriminate].
Qed.
Arguments into_generic_dof {z e} _ _.

Lemma all_same_d_forall l y : all_same_d l y = true -> Forall (fun o => o = Some y) l.
Proof.
  induction l as [|[e|] l IH]; cbn [all_same_d]; intros H; [constructor| |discriminate].
  apply andb_true_iff in H as [H1 H2]. apply dety_eqb_eq in H1. subst. constructor; auto.
Qed.
Lemma all_generic_d_forall l : all_generic_d l = true -> Forall (fun o => exists y, o = Some y /\ into_generic_dety y = true) l.
Proof.
  induction l as [|[e|] l IH]; cbn [all_generic_d]; intros H; [constructor| |discriminate].
  apply andb_true_iff in H as [H1 H2]. constructor; eauto.
Qed.

Definition DErrTy (t : ty) : Prop := forall z, dec_ety t = Some z -> DErrs (decode t) (DOf z).

Lemma dfields_generic ts : Forall DErrTy ts -> all_generic_d (map dec_ety ts) = true ->
  Forall (fun f => DErrs f (fun e => DOf ZGeneric (into_generic_dec e))) (map decode ts).
Proof.
  intros H Hg. apply all_generic_d_forall in Hg. induction H as [|t ts Ht Hts IH]; cbn [map] in *; [constructor|].
  inversion Hg as [|? ? (y & Hy & Hyg) Hg']; subst. constructor; [|apply IH; exact Hg'].
  eapply DErrs_impl; [apply (Ht _ Hy)|]. intros e He. eapply into_generic_dof; eassumption.
Qed.
Arguments dfields_generic {ts} _ _.

Lemma decode_errors_cow t : DErrTy (owned t) -> DErrTy (TCow t).
Proof.
  intros H z Hz. assert (Hd : decode (TCow t) = dmap (VCow true) (decode (owned t))) by (destruct t; reflexivity).
  rewrite Hd. apply DErrs_dmap, H. rewrite <- Hz. destruct t; reflexivity.
Qed.

Lemma decode_errors t : DErrTy t /\ DErrTy (owned t).
Proof.
  induction t using ty_ind_strong; cbn [owned]; try (split; [intros z Hz; discriminate Hz|]);
  lazymatch goal with
  | |- ?P /\ ?P => cut P; [intros Hcut; split; exact Hcut|]
  | |- _ => idtac
  end;
    intros z Hz; cbn [dec_ety decode] in *; try (injection Hz as <-);
    try (apply DErrs_dmap; first [apply DErrs_int | apply DErrs_unsigned | apply DErrs_bool | apply DErrs_ip4 | apply DErrs_ip6]);
    try apply DErrs_ok; try apply DErrs_panic; try apply DErrs_string; try apply DErrs_cstring; try apply DErrs_sock4; try apply DErrs_sock6;
    try (apply DErrs_dmap; apply IHt; exact Hz).
  - unfold dec_char. apply DErrs_bind; [apply DErrs_unsigned|]. intros c. destruct (char_accepts c); [apply DErrs_ok | apply DErrs_error; constructor].
  - unfold dec_nonzero. apply DErrs_bind; [apply DErrs_int|]. intros c. destruct (_ =? _)%Z; [apply DErrs_error; constructor | apply DErrs_ok].
  - unfold dec_option. apply DErrs_bind; [apply DErrs_bool|]. intros b. destruct b; [|apply DErrs_ok]. apply DErrs_dmap, IHt. exact Hz.
  - destruct (dec_ety t1) as [y1|] eqn:E1; [|discriminate]. destruct (dec_ety t2) as [y2|] eqn:E2; [|discriminate].
    destruct (dety_eqb y1 y2) eqn:Ei; [|discriminate]. apply dety_eqb_eq in Ei. subst y2. injection Hz as <-.
    unfold dec_result. apply DErrs_bind; [apply DErrs_bool|]. intros b.
    destruct b; apply DErrs_dmap; (eapply DErrs_map; [first [apply (proj1 IHt2 _ E2) | apply (proj1 IHt1 _ E1)]|]); intros e He; constructor; exact He.
  - destruct (map dec_ety ts) as [|[y0|] l] eqn:El; try discriminate. destruct (all_same_d l y0) eqn:Es; [|discriminate].
    injection Hz as <-. apply all_same_d_forall in Es.
    assert (Hall : Forall (fun o => o = Some y0) (map dec_ety ts)) by (rewrite El; constructor; [reflexivity | exact Es]).
    apply DErrs_dmap, DErrs_fields. clear El Es. induction H as [|t ts Ht Hts IH]; cbn [map] in *; [constructor|].
    inversion Hall; subst. constructor; [|apply IH; assumption]. apply Ht. assumption.
  - destruct (dec_ety t) as [y0|] eqn:Ey; [|discriminate]. injection Hz as <-. apply DErrs_dmap.
    apply (DErrs_items (proj1 IHt _ Ey)). intros i e He. constructor. exact He.
  - destruct (dec_ety t) as [y0|] eqn:Ey; [|discriminate]. injection Hz as <-. apply DErrs_vec, IHt. exact Ey.
  - destruct (dec_ety t) as [y0|] eqn:Ey; [|discriminate]. injection Hz as <-. apply DErrs_vec, IHt. exact Ey.
  - destruct (dec_ety t) as [y0|] eqn:Ey; [|discriminate]. injection Hz as <-. apply DErrs_vec, IHt. exact Ey.
  - destruct (dec_ety t) as [y0|] eqn:Ey; [|discriminate]. injection Hz as <-. unfold dec_sized_slice.
    apply DErrs_bind; [apply DErrs_unsigned|]. intros len. destruct (_ <? _); [apply DErrs_error; constructor; constructor|].
    apply DErrs_dmap. apply (DErrs_items (proj1 IHt _ Ey)). intros i e He. constructor. exact He.
  - unfold dec_sized_str. apply DErrs_bind; [apply DErrs_unsigned|]. intros len. apply DErrs_bind; [apply DErrs_read|]. intros bs.
    apply DErrs_dmap, DErrs_lift. intros e He. unfold sized_from_utf8 in He. destruct (_ <? _); [injection He as <-; constructor; constructor|].
    destruct (check_utf8 bs) as [?|x|?] eqn:Ec; try discriminate. injection He as <-. constructor. exact (check_utf8_err _ Ec).
  - destruct w; try discriminate; apply DErrs_dmap, IHt; exact Hz.
  - apply (@decode_errors_cow t (proj2 IHt) z). exact Hz.
  - unfold dec_duration. apply DErrs_bind; [apply DErrs_unsigned|]. intros s. apply DErrs_bind; [apply DErrs_unsigned|]. intros n.
    apply DErrs_lift. intros e He. unfold duration_new in He. repeat destruct (_ <? _)%Z; discriminate.
  - unfold dec_time. apply DErrs_bind; [apply DErrs_signed|]. intros s.
    destruct (if (0 <? s)%Z then _ else _); [apply DErrs_ok | apply DErrs_error; constructor].
  - unfold dec_ip_addr. apply DErrs_bind; [apply DErrs_unsigned|]. intros d.
    destruct (_ =? _)%Z; [apply DErrs_dmap, DErrs_ip4|]. destruct (_ =? _)%Z; [apply DErrs_dmap, DErrs_ip6 | apply DErrs_error; constructor].
  - unfold dec_sock_addr. apply DErrs_bind; [apply DErrs_unsigned|]. intros d.
    destruct (_ =? _)%Z; [apply DErrs_sock4|]. destruct (_ =? _)%Z; [apply DErrs_sock6 | apply DErrs_error; constructor].
  - apply DErrs_bind; [apply IHt; exact Hz|]. intros a. apply DErrs_dmap, IHt. exact Hz.
  - apply DErrs_bind; [apply IHt; exact Hz|]. intros a. apply DErrs_dmap, IHt. exact Hz.
  - destruct (dec_ety t) as [y0|] eqn:Ey; [|discriminate]. injection Hz as <-. unfold dec_bound. apply DErrs_bind; [apply DErrs_unsigned|]. intros d.
    repeat destruct (_ =? _)%Z; try apply DErrs_ok; try (apply DErrs_error; constructor);
      apply DErrs_dmap; apply (DErrs_map DField (proj1 IHt _ Ey)); intros e He; constructor; exact He.
  - destruct (dec_ety t1) as [y1|] eqn:E1; [|discriminate]. destruct (dec_ety t2) as [y2|] eqn:E2; [|discriminate].
    destruct (dety_eqb y1 y2) eqn:Ei; [|discriminate]. apply dety_eqb_eq in Ei. subst y2. injection Hz as <-.
    unfold dec_map. apply DErrs_bind; [apply DErrs_unsigned|]. intros n. apply DErrs_dmap, DErrs_entries; [apply IHt1 | apply IHt2]; assumption.
  - destruct (dec_ety t) as [y0|] eqn:Ey; [|discriminate]. injection Hz as <-. unfold dec_set. apply DErrs_bind; [apply DErrs_unsigned|]. intros n.
    apply DErrs_dmap, DErrs_keys, IHt. exact Ey.
  - destruct (all_generic_d (map dec_ety ts)) eqn:Eg; [|discriminate]. injection Hz as <-. apply DErrs_dmap, DErrs_fields.
    apply dfields_generic; [|exact Eg]. eapply Forall_impl; [|exact H]. cbn beta. tauto.
  - destruct (forallb _ vs) eqn:Eg; [|discriminate]. injection Hz as <-. rewrite forallb_forall in Eg.
    unfold dec_enum. destruct (discriminants _) as [ds|]; [|apply DErrs_panic].
    apply DErrs_bind; [apply DErrs_int|]. intros d. destruct (find_disc d ds 0) as [i|]; [|apply DErrs_error; constructor].
    destruct (nth_error (map _ vs) i) as [fs|] eqn:Ef; [|apply DErrs_panic].
    apply nth_error_map_inv in Ef. destruct Ef as ([x ts] & Ef & ->). cbn [snd]. apply nth_error_In in Ef.
    rewrite Forall_forall in H. specialize (H _ Ef). specialize (Eg _ Ef). cbn [snd] in *. apply DErrs_dmap, DErrs_fields.
    assert (H' : Forall DErrTy ts) by (eapply Forall_impl; [|exact H]; cbn beta; tauto).
    eapply Forall_impl; [|apply (dfields_generic H' Eg)]. cbn beta. intros f Hf.
    eapply DErrs_impl; [apply Hf|]. intros e He. constructor. exact He.
Qed.

(* ---- C68 *)

Lemma C68_encode_lemma ch t v y o o' e : enc_ety t = Some y -> encode ch t v o = (o', Err e) -> EOf y e.
Proof. intros Hy He. exact (@encode_errors ch t y Hy v _ _ _ He). Qed.
Lemma C68_decode_lemma t z i i' e : dec_ety t = Some z -> decode t i = (i', Err e) -> DOf z e.
Proof. intros Hz He. exact (proj1 (decode_errors t) z Hz _ _ _ He). Qed.

(* ---- C67 *)

Lemma C67_lemma ch t y v o o' e : enc_ety t = Some y -> into_infallible_ety y = true -> encode ch t v o <> (o', Err e).
Proof. intros Hy Hi He. eapply into_infallible_of; [exact (C68_encode_lemma _ _ _ _ Hy He) | exact Hi]. Qed.

(* ---- C65 *)

Lemma enc_accepted t : contains enc_opaque t = false -> forall y, enc_ety t = Some y -> into_generic_ety y = true.
Proof.
  induction t using ty_ind_strong; intros Hc y Hy; cbn [contains enc_opaque orb] in Hc; try discriminate; cbn [enc_ety] in Hy;
    try (injection Hy as <-; reflexivity); try (apply IHt; assumption).
  - injection Hy as <-. destruct i; reflexivity.
  - injection Hy as <-. destruct i; reflexivity.
  - apply orb_false_iff in Hc as [H1 H2]. destruct (enc_ety t1) as [y1|]; [|discriminate]. destruct (enc_ety t2) as [y2|]; [|discriminate].
    destruct (into_ety y2 y1); [|discriminate]. injection Hy as <-. apply IHt1; [exact H1 | reflexivity].
  - destruct ts as [|t ts]; [discriminate|]. cbn [map] in Hy. destruct (enc_ety t) as [y0|] eqn:Ey; [|discriminate].
    destruct (all_same _ _); [|discriminate]. injection Hy as <-. inversion H; subst. cbn [existsb] in Hc. apply orb_false_iff in Hc as [Hc _]. auto.
  - destruct (enc_ety t) as [y0|]; [|discriminate]. injection Hy as <-. cbn. apply IHt; [exact Hc | reflexivity].
  - destruct (enc_ety t) as [y0|]; [|discriminate]. injection Hy as <-. cbn. apply IHt; [exact Hc | reflexivity].
  - destruct (enc_ety t) as [y0|]; [|discriminate]. injection Hy as <-. cbn. apply IHt; [exact Hc | reflexivity].
  - destruct (enc_ety t) as [y0|]; [|discriminate]. injection Hy as <-. cbn. apply IHt; [exact Hc | reflexivity].
  - destruct (enc_ety t) as [y0|]; [|discriminate]. injection Hy as <-. cbn. apply IHt; [exact Hc | reflexivity].
  - apply orb_false_iff in Hc as [H1 H2]. destruct (enc_ety t1) as [y1|]; [|discriminate]. destruct (enc_ety t2) as [y2|]; [|discriminate].
    destruct (ety_eqb y1 y2); [|discriminate]. injection Hy as <-. apply IHt1; [exact H1 | reflexivity].
  - destruct (all_generic _); [|discriminate]. injection Hy as <-. reflexivity.
  - destruct (forallb _ _); [|discriminate]. injection Hy as <-. reflexivity.
Qed.

Lemma dec_accepted t : contains dec_opaque t = false ->
  (forall z, dec_ety t = Some z -> into_generic_dety z = true) /\ (forall z, dec_ety (owned t) = Some z -> into_generic_dety z = true).
Proof.
  induction t using ty_ind_strong; intros Hc; cbn [contains dec_opaque orb] in Hc; try discriminate; cbn [owned];
  lazymatch goal with
  | |- ?P /\ ?P => cut P; [intros Hcut; split; exact Hcut|]
  | |- _ => split; [intros z Hz; discriminate Hz|]
  end; intros z Hz; cbn [dec_ety] in Hz;
    try (injection Hz as <-; reflexivity); try (exact (proj1 (IHt Hc) _ Hz));
    try (destruct (dec_ety t) as [y0|] eqn:Ey; [|discriminate]; injection Hz as <-; cbn; exact (proj1 (IHt Hc) _ eq_refl)).
  - destruct ts as [|t ts]; [discriminate|]. cbn [map] in Hz. destruct (dec_ety t) as [y0|] eqn:Ey; [|discriminate].
    destruct (all_same_d _ _); [|discriminate]. injection Hz as <-. inversion H; subst. cbn [existsb] in Hc. apply orb_false_iff in Hc as [Hc _].
    exact (proj1 (H2 Hc) _ Ey).
  - destruct w; try discriminate; exact (proj1 (IHt Hc) _ Hz).
  - apply (proj2 (IHt Hc) z). rewrite <- Hz. destruct t; reflexivity.
  - apply orb_false_iff in Hc as [H1 H2]. destruct (dec_ety t1) as [y1|]; [|discriminate]. destruct (dec_ety t2) as [y2|]; [|discriminate].
    destruct (dety_eqb y1 y2); [|discriminate]. injection Hz as <-. cbn. exact (proj1 (IHt1 H1) _ eq_refl).
  - destruct (all_generic_d _); [|discriminate]. injection Hz as <-. reflexivity.
  - destruct (forallb _ _); [|discriminate]. injection Hz as <-. reflexivity.
Qed.

Lemma all_generic_intro ts : Forall (fun t => enc_ety t <> None /\ contains enc_opaque t = false) ts -> all_generic (map enc_ety ts) = true.
Proof.
  induction 1 as [|t ts [Hn Hc] H IH]; [reflexivity|]. cbn [map all_generic]. destruct (enc_ety t) as [y|] eqn:Ey; [|congruence].
  rewrite (enc_accepted _ Hc Ey). exact IH.
Qed.
Lemma all_generic_d_intro ts : Forall (fun t => dec_ety t <> None /\ contains dec_opaque t = false) ts -> all_generic_d (map dec_ety ts) = true.
Proof.
  induction 1 as [|t ts [Hn Hc] H IH]; [reflexivity|]. cbn [map all_generic_d]. destruct (dec_ety t) as [y|] eqn:Ey; [|congruence].
  rewrite (proj1 (dec_accepted _ Hc) _ Ey). exact IH.
Qed.

Lemma C65_encode_lemma : 
  (forall ts, Forall (fun t => enc_ety t <> None /\ contains enc_opaque t = false) ts -> enc_ety (TStruct ts) <> None) /\
  (forall r vs, Forall (fun x => Forall (fun t => enc_ety t <> None /\ contains enc_opaque t = false) (snd x)) vs -> enc_ety (TEnum r vs) <> None).
Proof.
  split.
  - intros ts H. cbn [enc_ety]. rewrite (all_generic_intro H). discriminate.
  - intros r vs H. cbn [enc_ety]. replace (forallb _ vs) with true; [discriminate|]. symmetry. apply forallb_forall.
    intros x Hx. rewrite Forall_forall in H. apply all_generic_intro, H, Hx.
Qed.
Lemma C65_decode_lemma :
  (forall ts, Forall (fun t => dec_ety t <> None /\ contains dec_opaque t = false) ts -> dec_ety (TStruct ts) <> None) /\
  (forall r vs, Forall (fun x => Forall (fun t => dec_ety t <> None /\ contains dec_opaque t = false) (snd x)) vs -> dec_ety (TEnum r vs) <> None).
Proof.
  split.
  - intros ts H. cbn [dec_ety]. rewrite (all_generic_d_intro H). discriminate.
  - intros r vs H. cbn [dec_ety]. replace (forallb _ vs) with true; [discriminate|]. symmetry. apply forallb_forall.
    intros x Hx. rewrite Forall_forall in H. apply all_generic_d_intro, H, Hx.
Qed.

(* ---- C41: every error that converts has a root cause *)

Lemma eroot_exists y e : EOf y e -> into_generic_ety y = true -> exists c g, EWithin c e /\ ERoot c g.
Proof.
  induction 1; intros Hy; cbn [into_generic_ety] in Hy; try discriminate;
    try (eexists; eexists; split; [apply EW_here | constructor]; fail).
  - apply andb_true_iff in Hy as [H1 H2]. destruct (IHEOf H1) as (c & g & Hw & Hr). exists c, g. split; [constructor|]; assumption.
  - apply andb_true_iff in Hy as [H1 H2]. destruct (IHEOf H2) as (c & g & Hw & Hr). exists c, g. split; [constructor|]; assumption.
  - apply andb_true_iff in Hy as [H1 H2]. discriminate.
  - destruct IHEOf as (c & g & Hw & Hr); [destruct r; reflexivity|]. exists c, g. split; [constructor|]; assumption.
  - destruct (IHEOf Hy) as (c & g & Hw & Hr). exists c, g. split; [constructor|]; assumption.
Qed.
