(* Containers around implementations that the user writes. *)
From Coq Require Import Lia ZifyBool ZifyNat ZifyN.
From Verif Require Import Base BaseFacts Streams StreamFacts Utf8 Types TypesFacts Traits Encode Decode Slot Spec SpecCalls
  EncodeFacts WireFacts EncodeCases DecodeFacts DecodeLocal RoundTrip EncodeProofs ValueProofs PortableProofs User SpecUser.
Set Implicit Arguments.

Section UtyInd.
  Variable P : uty -> Prop.
  Hypothesis HUser : forall k, P (UUser k).
  Hypothesis HStd : forall t, P (UStd t).
  Hypothesis HOption : forall t, P t -> P (UOption t).
  Hypothesis HResult : forall c t e, P t -> P e -> P (UResult c t e).
  Hypothesis HTuple : forall ts, Forall P ts -> P (UTuple ts).
  Hypothesis HArray : forall t n, P t -> P (UArray t n).
  Hypothesis HSlice : forall t, P t -> P (USlice t).
  Hypothesis HVec : forall t, P t -> P (UVec t).
  Hypothesis HLinked : forall t, P t -> P (ULinked t).
  Hypothesis HSized : forall t n, P t -> P (USizedSlice t n).
  Hypothesis HWrap : forall w t, P t -> P (UWrap w t).
  Hypothesis HCow : forall t, P t -> P (UCow t).
  Hypothesis HRefCell : forall t, P t -> P (URefCell t).
  Hypothesis HLock : forall l t, P t -> P (ULock l t).
  Hypothesis HRange : forall t, P t -> P (URange t).
  Hypothesis HRangeI : forall t, P t -> P (URangeInclusive t).
  Hypothesis HRangeF : forall t, P t -> P (URangeFrom t).
  Hypothesis HRangeT : forall t, P t -> P (URangeTo t).
  Hypothesis HRangeTI : forall t, P t -> P (URangeToInclusive t).
  Hypothesis HBound : forall t, P t -> P (UBound t).
  Hypothesis HMap : forall insert k v, P k -> P v -> P (UHashMap insert k v).
  Hypothesis HSet : forall insert k, P k -> P (UHashSet insert k).
  Hypothesis HStruct : forall ce cd ts, Forall P ts -> P (UStruct ce cd ts).
  Hypothesis HEnum : forall ce cd r vs, Forall (fun x => Forall P (snd x)) vs -> P (UEnum ce cd r vs).

  Fixpoint uty_ind_strong (t : uty) : P t :=
    let all := fix all (ts : list uty) : Forall P ts :=
      match ts with [] => Forall_nil P | t :: ts' => Forall_cons t (uty_ind_strong t) (all ts') end in
    match t with
    | UUser k => HUser k
    | UStd t => HStd t
    | UOption t => HOption (uty_ind_strong t)
    | UResult c t e => HResult c (uty_ind_strong t) (uty_ind_strong e)
    | UTuple ts => HTuple (all ts)
    | UArray t n => HArray n (uty_ind_strong t)
    | USlice t => HSlice (uty_ind_strong t)
    | UVec t => HVec (uty_ind_strong t)
    | ULinked t => HLinked (uty_ind_strong t)
    | USizedSlice t n => HSized n (uty_ind_strong t)
    | UWrap w t => HWrap w (uty_ind_strong t)
    | UCow t => HCow (uty_ind_strong t)
    | URefCell t => HRefCell (uty_ind_strong t)
    | ULock l t => HLock l (uty_ind_strong t)
    | URange t => HRange (uty_ind_strong t)
    | URangeInclusive t => HRangeI (uty_ind_strong t)
    | URangeFrom t => HRangeF (uty_ind_strong t)
    | URangeTo t => HRangeT (uty_ind_strong t)
    | URangeToInclusive t => HRangeTI (uty_ind_strong t)
    | UBound t => HBound (uty_ind_strong t)
    | UHashMap insert k v => HMap insert (uty_ind_strong k) (uty_ind_strong v)
    | UHashSet insert k => HSet insert (uty_ind_strong k)
    | UStruct ce cd ts => HStruct ce cd (all ts)
    | UEnum ce cd r vs =>
      HEnum ce cd r
        ((fix allv (vs : list (option Z * list uty)) : Forall (fun x => Forall P (snd x)) vs :=
            match vs with
            | [] => Forall_nil _
            | x :: vs' => Forall_cons x (match x as y return Forall P (snd y) with (_, ts) => all ts end) (allv vs')
            end) vs)
    end.
End UtyInd.

(* ---- sending *)

Lemma sends_traces m cs r : Traces m cs r -> Sends m (concat cs) r.
Proof.
  intros Ht o Hw. split; intros Hr.
  - apply fits_iff in Hr; [|exact Hw]. exists (append o (concat cs)). rewrite (Ht o), replay_fits by assumption.
    split; [reflexivity|]. split; [apply append_slice; exact Hw|]. split; [reflexivity | apply append_capacity; exact Hr].
  - assert (Hf : ~ fits o (concat cs)) by (rewrite fits_iff by exact Hw; lia).
    destruct (replay_short cs r Hw Hf) as (d & c & rest & _ & _ & _ & E). rewrite (Ht o), E. eauto.
Qed.

Lemma sends_seq a b x y r : Sends a x (Ok tt) -> Sends b y r -> Sends (eseq a b) (x ++ y) r.
Proof.
  intros Ha Hb o Hw. destruct (Ha o Hw) as [Ha1 Ha2]. rewrite app_length.
  split; intros Hr.
  - destruct Ha1 as (o1 & E1 & S1 & P1 & C1); [lia|].
    assert (Hw1 : output_position o1 <= output_capacity o1) by (unfold output_remaining in Hr; lia).
    destruct (Hb o1 Hw1) as [Hb1 _]. destruct Hb1 as (o2 & E2 & S2 & P2 & C2); [unfold output_remaining in *; lia|].
    exists o2. unfold eseq. rewrite E1. split; [exact E2|]. split; [rewrite S2, S1, app_assoc; reflexivity|]. split; [lia | congruence].
  - destruct (Nat.le_gt_cases (length x) (output_remaining o)) as [Hx|Hx].
    + destruct (Ha1 Hx) as (o1 & E1 & S1 & P1 & C1).
      assert (Hw1 : output_position o1 <= output_capacity o1) by (unfold output_remaining in Hx; lia).
      destruct (Hb o1 Hw1) as [_ Hb2]. unfold eseq. rewrite E1. apply Hb2. unfold output_remaining in *; lia.
    + destruct (Ha2 Hx) as (o1 & p & E1). unfold eseq. rewrite E1. eauto.
Qed.
Lemma sends_stop a b x r : Sends a x r -> r <> Ok tt -> Sends (eseq a b) x r.
Proof.
  intros Ha Hr o Hw. destruct (Ha o Hw) as [H1 H2]. unfold eseq. split; intros Hx.
  - destruct (H1 Hx) as (o1 & E & Hrest). rewrite E. exists o1. destruct r as [[]|e|p]; [congruence | auto | auto].
  - destruct (H2 Hx) as (o1 & p & E). rewrite E. eauto.
Qed.
Lemma sends_map_err f a x r : Sends a x r -> Sends (emap_err f a) x (rmap_err f r).
Proof.
  intros Ha o Hw. destruct (Ha o Hw) as [H1 H2]. unfold emap_err. split; intros Hx.
  - destruct (H1 Hx) as (o1 & E & Hrest). rewrite E. exists o1. destruct r as [[]|e|p]; auto.
  - destruct (H2 Hx) as (o1 & p & E). rewrite E. eauto.
Qed.
Lemma sends_ok : Sends eok [] (Ok tt).
Proof. apply (sends_traces T_eok). Qed.
Lemma sends_succeeds m bs : Succeeds m bs -> Sends m bs (Ok tt).
Proof. intros (cs & Ht & <-). apply sends_traces. exact Ht. Qed.

Lemma forall2_len {A B} (R : A -> B -> Prop) l l' : Forall2 R l l' -> length l = length l'.
Proof. induction 1; cbn [length]; congruence. Qed.

(* ---- an encoder and a decoder that belong together *)

Definition Rt {A} (m : E) (d : D A) (same : A -> Prop) : Prop :=
  exists bs r, Sends m bs r /\ (r = Ok tt -> exists a, Parses d bs a /\ same a).

Lemma rt_bind {A B C} a b (d : D A) (e : D B) (s : A -> Prop) (s' : B -> Prop) (k : A -> D C) (S' : C -> Prop) (mk : A -> B -> C) :
  Rt a d s -> Rt b e s' -> (forall x bs y, Parses e bs y -> Parses (k x) bs (mk x y)) -> (forall x y, s x -> s' y -> S' (mk x y)) ->
  Rt (eseq a b) (dbind d k) S'.
Proof.
  intros (x & r & Sa & Ra) (y & q & Sb & Rb) Hk Hs. destruct r as [[]|e0|p].
  - exists (x ++ y), q. split; [apply sends_seq; assumption|]. intros ->.
    destruct (Ra eq_refl) as (v & Pv & Hv). destruct (Rb eq_refl) as (w & Pw & Hw).
    exists (mk v w). split; [eapply P_bind; [exact Pv | apply Hk; exact Pw] | apply Hs; assumption].
  - exists x, (Err e0). split; [apply sends_stop; [exact Sa | discriminate] | discriminate].
  - exists x, (Panic p). split; [apply sends_stop; [exact Sa | discriminate] | discriminate].
Qed.

(* a fixed prefix, that [d] checks before going on with [e] *)
Lemma rt_prefix {B C} a x b (e : D B) (d : D C) (s : B -> Prop) (S' : C -> Prop) (mk : B -> C) :
  Succeeds a x -> Rt b e s -> (forall bs y, Parses e bs y -> Parses d (x ++ bs) (mk y)) -> (forall y, s y -> S' (mk y)) ->
  Rt (eseq a b) d S'.
Proof.
  intros Ha (y & q & Sb & Rb) Hk Hs. exists (x ++ y), q. split; [apply sends_seq; [apply sends_succeeds; exact Ha | exact Sb]|].
  intros ->. destruct (Rb eq_refl) as (w & Pw & Hw). exists (mk w). split; [apply Hk; exact Pw | apply Hs; exact Hw].
Qed.
Lemma rt_const {C} a x (d : D C) (S' : C -> Prop) y : Succeeds a x -> Parses d x y -> S' y -> Rt a d S'.
Proof. intros Ha Hp Hy. exists x, (Ok tt). split; [apply sends_succeeds; exact Ha|]. intros _. eauto. Qed.

Lemma rt_map {A B} m (d : D A) (s : A -> Prop) (S' : B -> Prop) (mk : A -> B) :
  Rt m d s -> (forall x, s x -> S' (mk x)) -> Rt m (dmap mk d) S'.
Proof.
  intros (x & r & Sa & Ra) Hs. exists x, r. split; [exact Sa|]. intros E. destruct (Ra E) as (v & Pv & Hv).
  exists (mk v). split; [apply P_map; exact Pv | auto].
Qed.
Lemma rt_err {A} m (d : D A) s f : Rt m d s -> Rt (emap_err f m) d s.
Proof.
  intros (x & r & Sa & Ra). exists x, (rmap_err f r). split; [apply sends_map_err; exact Sa|]. intros E. apply Ra.
  destruct r as [[]|e|p]; [reflexivity | discriminate | discriminate].
Qed.
Lemma rt_derr {A} m (d : D A) s g : Rt m d s -> Rt m (dmap_err g d) s.
Proof.
  intros (x & r & Sa & Ra). exists x, r. split; [exact Sa|]. intros E. destruct (Ra E) as (a & Pa & Ha).
  exists a. split; [apply P_map_err; exact Pa | exact Ha].
Qed.
Lemma rt_fail {A} e (d : D A) s : Rt (eerror e) d s.
Proof. exists [], (Err e). split; [apply (sends_traces (T_eerror e)) | discriminate]. Qed.

Lemma rt_items {A} (f : A -> E) (d : D A) (same : A -> A -> Prop) wrap vs : Forall (fun v => Rt (f v) d (same v)) vs ->
  forall i j, Rt (enc_items f wrap i vs) (dec_items d (length vs) j) (Forall2 same vs).
Proof.
  induction 1 as [|v vs Hv _ IH]; intros i j; cbn [enc_items dec_items length].
  - eapply rt_const; [apply (ex_intro _ []); split; [apply T_eok | reflexivity] | apply P_ok | constructor].
  - apply (@rt_bind _ _ _ _ _ _ (dec_items d (length vs) (S j)) (same v) (Forall2 same vs) _ _ (fun x y => x :: y)).
    + apply rt_err, rt_derr. exact Hv.
    + apply IH.
    + intros x bs y Hp. apply (P_map (cons x)). exact Hp.
    + intros x y Hx Hy. constructor; assumption.
Qed.

Lemma succeeds_len vs : (Z.of_nat (length vs) <= 65535)%Z -> exists lb, WireLen (length vs) lb /\
  Succeeds (emap_err ELen (enc_usize (Z.of_nat (length (A := val) vs)))) lb.
Proof.
  intros Hl. exists (le_bytes 2 (Z.of_nat (length vs))). assert (H : WireLen (length vs) (le_bytes 2 (Z.of_nat (length vs)))).
  { split; [exact Hl | apply le_repr_le_bytes]. }
  split; [exact H|]. exact (S_len H).
Qed.
Lemma long_len vs : (65535 < Z.of_nat (length (A := val) vs))%Z ->
  exists e, Traces (emap_err ELen (enc_usize (Z.of_nat (length vs)))) [] (Err e).
Proof.
  intros Hl. exists (ELen (EUsize (Z.of_nat (length vs)))). intros o. unfold emap_err, enc_usize.
  replace ((0 <=? Z.of_nat (length vs)) && (Z.of_nat (length vs) <? 65536))%Z with false by lia. reflexivity.
Qed.

Lemma rt_slice (f : val -> E) (d : D val) k (same : val -> val -> Prop) wrap vs :
  Forall (fun v => Rt (f v) d (same v)) vs ->
  (forall lb bs l, WireLen (length vs) lb -> length l = length vs -> Parses (dec_items d (length vs) 0) bs l -> Parses k (lb ++ bs) (VSeq l)) ->
  Rt (enc_slice f wrap vs) k (fun v' => exists l, v' = VSeq l /\ Forall2 same vs l).
Proof.
  intros Hf Hk. unfold enc_slice. destruct (Z.leb_spec (Z.of_nat (length vs)) 65535) as [Hl|Hl].
  - destruct (succeeds_len vs Hl) as (lb & Hw & Hs).
    destruct (@rt_items _ f d same wrap vs Hf 0 0) as (y & q & Sb & Rb).
    exists (lb ++ y), q. split; [apply sends_seq; [apply sends_succeeds; exact Hs | exact Sb]|]. intros ->.
    destruct (Rb eq_refl) as (l & Pl & Hall). exists (VSeq l). split; [|eauto].
    apply Hk; [exact Hw | symmetry; exact (forall2_len Hall) | exact Pl].
  - destruct (long_len vs Hl) as (e & Ht). exists [], (Err e). split; [|discriminate].
    apply sends_stop; [apply (sends_traces Ht) | discriminate].
Qed.

Lemma rt_vec (f : val -> E) (d : D val) (same : val -> val -> Prop) wrap vs : Forall (fun v => Rt (f v) d (same v)) vs ->
  Rt (enc_slice f wrap vs) (dec_vec d) (fun v' => exists l, v' = VSeq l /\ Forall2 same vs l).
Proof.
  intros Hf. apply (@rt_slice f d _ same wrap vs); [exact Hf|]. intros lb bs l Hw _ Hp. unfold dec_vec. eapply P_bind; [apply P_len; exact Hw|].
  rewrite Nat2Z.id. apply P_map. exact Hp.
Qed.
Lemma rt_sized (f : val -> E) (d : D val) (same : val -> val -> Prop) wrap vs : Forall (fun v => Rt (f v) d (same v)) vs ->
  Rt (enc_slice f wrap vs) (dec_sized_slice d (length vs)) (fun v' => exists l, v' = VSeq l /\ Forall2 same vs l).
Proof.
  intros Hf. apply (@rt_slice f d _ same wrap vs); [exact Hf|]. intros lb bs l Hw Hl Hp. unfold dec_sized_slice. eapply P_bind; [apply P_len; exact Hw|].
  rewrite Nat2Z.id. replace (length vs <? length vs) with false by lia.
  replace (VSeq l) with (VSeq (firstn (length vs) l)) by (rewrite <- Hl, firstn_all; reflexivity).
  apply (P_map (fun l => VSeq (firstn (length vs) l))). exact Hp.
Qed.

Section Containers.
  Variable ch : bool.
  Variable us : nat -> impl.
  Variable cs : nat -> contract.
  Hypothesis Hus : forall k, Honours (us k) (cs k).

  Let good (t : uty) : Prop := forall v, Fit cs t v -> Rt (uencode ch us t v) (udecode us t) (Again cs t v).

  Lemma rt_fields ce cd ts : Forall good ts -> forall vs, all2 (map (Fit cs) ts) vs ->
    Rt (enc_fields (map (uencode ch us) ts) ce vs) (dec_fields cd (map (udecode us) ts))
       (fun vs' => length vs = length vs' /\ all2 (map (fun t p => Again cs t (fst p) (snd p)) ts) (combine vs vs')).
  Proof.
    induction 1 as [|t ts Ht _ IH]; intros [|v vs] Hf; cbn [map all2] in Hf; try contradiction; cbn [map enc_fields dec_fields].
    - eapply rt_const; [apply (ex_intro _ []); split; [apply T_eok | reflexivity] | apply P_ok | split; [reflexivity | exact I]].
    - destruct Hf as [Hv Hvs].
      apply (@rt_bind _ _ _ _ _ _ (dec_fields cd (map (udecode us) ts)) (Again cs t v)
        (fun vs' => length vs = length vs' /\ all2 (map (fun t p => Again cs t (fst p) (snd p)) ts) (combine vs vs')) _ _ (fun x y => x :: y)).
      + apply rt_err, rt_derr, Ht. exact Hv.
      + apply IH. exact Hvs.
      + intros x bs y Hp. apply (P_map (cons x)). exact Hp.
      + intros x y Hx [Hl Hy]. cbn [length combine map all2 fst snd]. auto.
  Qed.

  Lemma rt_std t : good (UStd t).
  Proof.
    intros v [Hw Hr]. cbn [uencode udecode Again]. destruct (encode_has_trace ch t v) as (ws & r & Ht).
    exists (concat ws), r. split; [apply sends_traces; exact Ht|]. intros ->. exists (norm v). split; [|reflexivity].
    apply (@wt_norm_accepts ch t v (concat ws) Hw Hr). apply (traces_appends Ht).
  Qed.

  Lemma int_or_fail r d : (exists db, WireInt r d db) \/ (exists e, Traces (enc_int r d) [] (Err e)).
  Proof.
    destruct r; try (left; eexists; apply WI_fixed; [discriminate | discriminate | apply le_repr_le_bytes]).
    - destruct (Z_le_dec 0 d) as [H0|H0]; [destruct (Z_le_dec d 65535) as [H1|H1]|].
      + left. eexists. apply WI_usize; [lia | apply le_repr_le_bytes].
      + right. exists (EUsize d). intros o. cbn [enc_int]. unfold enc_usize. replace ((0 <=? d) && (d <? 65536))%Z with false by lia. reflexivity.
      + right. exists (EUsize d). intros o. cbn [enc_int]. unfold enc_usize. replace ((0 <=? d) && (d <? 65536))%Z with false by lia. reflexivity.
    - destruct (Z_le_dec (-32768) d) as [H0|H0]; [destruct (Z_le_dec d 32767) as [H1|H1]|].
      + left. eexists. apply WI_isize; [lia | apply le_repr_le_bytes].
      + right. exists (EIsize d). intros o. cbn [enc_int]. unfold enc_isize. replace ((-32768 <=? d) && (d <? 32768))%Z with false by lia. reflexivity.
      + right. exists (EIsize d). intros o. cbn [enc_int]. unfold enc_isize. replace ((-32768 <=? d) && (d <? 32768))%Z with false by lia. reflexivity.
  Qed.

  Lemma good_items t vs : good t -> Forall (Fit cs t) vs -> Forall (fun v => Rt (uencode ch us t v) (udecode us t) (Again cs t v)) vs.
  Proof. intros Ht. apply Forall_impl. exact Ht. Qed.

  Lemma containers t : good t /\ (forall u, t = USlice u -> good u).
  Proof.
    induction t using uty_ind_strong; (split; [|intros u Eu; try discriminate Eu; try (injection Eu as <-; exact (proj1 IHt))]).
    - intros v Hf. cbn [Fit uencode udecode Again] in *. exact (Hus k v Hf).
    - apply rt_std.
    - intros v Hf; destruct v; try (destruct Hf; fail); cbn [Fit uencode udecode] in *.
      + eapply rt_const; [apply (S_bool false) | apply P_sign_false, P_ok | exact I].
      + apply (@rt_prefix _ _ _ [x01] _ (udecode us t) _ (Again cs t v) _ VSome); [apply (S_bool true) | apply (proj1 IHt); exact Hf | | auto].
        intros bs y Hp. apply P_sign_true; [discriminate | apply P_map; exact Hp].
    - intros v Hf; destruct v; try (destruct Hf; fail); cbn [Fit uencode udecode] in *.
      + apply (@rt_prefix _ _ _ [x00] _ (udecode us t1) _ (Again cs t1 v) _ VOk); [apply (S_bool false) | apply (proj1 IHt1); exact Hf | | auto].
        intros bs y Hp. apply P_sign_false, P_map, P_map_err. exact Hp.
      + apply (@rt_prefix _ _ _ [x01] _ (udecode us t2) _ (Again cs t2 v) _ VErr); [apply (S_bool true) | apply rt_err, (proj1 IHt2); exact Hf | | auto].
        intros bs y Hp. apply P_sign_true; [discriminate | apply P_map, P_map_err; exact Hp].
    - assert (Hg : Forall good ts) by (exact (Forall_impl _ (fun x Hx => proj1 Hx) H)).
      intros v Hf; destruct v; try (destruct Hf; fail); cbn [Fit uencode udecode] in *.
      eapply rt_map; [apply rt_fields; assumption|]. cbn [Again]. auto.
    - intros v Hf; destruct v; try (destruct Hf; fail); cbn [Fit uencode udecode] in *. destruct Hf as [<- Hf].
      eapply rt_map; [apply rt_items; apply (good_items (proj1 IHt) Hf)|]. cbn [Again]. auto.
    - intros v Hf; destruct v; destruct Hf.
    - intros v Hf; destruct v; try (destruct Hf; fail); cbn [Fit uencode udecode] in *.
      destruct (@rt_vec (uencode ch us t) (udecode us t) (Again cs t) EItem vs (good_items (proj1 IHt) Hf)) as (bs & r & Hs & Hr). exists bs, r. split; [exact Hs|]. intros E.
      destruct (Hr E) as (a & Pa & l & -> & Hl). exists (VSeq l). auto.
    - intros v Hf; destruct v; try (destruct Hf; fail); cbn [Fit uencode udecode] in *.
      destruct (@rt_vec (uencode ch us t) (udecode us t) (Again cs t) EItemTuple vs (good_items (proj1 IHt) Hf)) as (bs & r & Hs & Hr). exists bs, r. split; [exact Hs|]. intros E.
      destruct (Hr E) as (a & Pa & l & -> & Hl). exists (VSeq l). auto.
    - intros v Hf; destruct v; try (destruct Hf; fail); cbn [Fit uencode udecode] in *. destruct Hf as [<- Hf].
      destruct (@rt_sized (uencode ch us t) (udecode us t) (Again cs t) EItem vs (good_items (proj1 IHt) Hf)) as (bs & r & Hs & Hr). exists bs, r. split; [exact Hs|]. intros E.
      destruct (Hr E) as (a & Pa & l & -> & Hl). exists (VSeq l). auto.
    - intros v Hf; destruct v; try (destruct Hf; fail); cbn [Fit uencode udecode] in *.
      eapply rt_map; [apply (proj1 IHt); exact Hf | cbn [Again]; auto].
    - intros v Hf; destruct v; try (destruct Hf; fail). destruct t;
        try (cbn [uencode udecode]; eapply rt_map; [apply (proj1 IHt); exact Hf | cbn [Again]; auto]; fail).
      cbn [Fit] in Hf. destruct v; try (destruct Hf; fail). cbn [uencode udecode].
      destruct (@rt_vec (uencode ch us t) (udecode us t) (Again cs t) EItem vs (good_items (proj2 IHt t eq_refl) Hf)) as (bs & r & Hs & Hr). exists bs, r. split; [exact Hs|]. intros E.
      destruct (Hr E) as (a & Pa & l & -> & Hl). exists (VCow true (VSeq l)). split; [apply P_map; exact Pa | exact Hl].
    - intros v Hf; destruct v; try (destruct Hf; fail); cbn [Fit uencode udecode] in *. unfold enc_refcell.
      destruct mut_borrowed; [apply rt_fail|]. apply rt_err. eapply rt_map; [apply (proj1 IHt); exact Hf | cbn [Again]; auto].
    - intros v Hf; destruct v; try (destruct Hf; fail); cbn [Fit uencode udecode] in *.
      eapply rt_map; [apply (proj1 IHt); exact Hf | cbn [Again]; auto].
    - intros v Hf; destruct v; try (destruct Hf; fail); cbn [Fit uencode udecode] in *. destruct Hf as [Ha Hb].
      eapply (@rt_bind _ _ _ _ _ _ (udecode us t) _ _ _ _ VRange); [apply (proj1 IHt); exact Ha | apply (proj1 IHt); exact Hb | | cbn [Again]; auto].
      intros x bs y Hp. apply P_map. exact Hp.
    - intros v Hf; destruct v; try (destruct Hf; fail); cbn [Fit uencode udecode] in *. destruct Hf as [Ha Hb].
      eapply (@rt_bind _ _ _ _ _ _ (udecode us t) _ _ _ _ (fun a b => VRangeInclusive a b false)); [apply (proj1 IHt); exact Ha | apply (proj1 IHt); exact Hb | | cbn [Again]; auto].
      intros x bs y Hp. apply (P_map (fun b => VRangeInclusive x b false)). exact Hp.
    - intros v Hf; destruct v; try (destruct Hf; fail); cbn [Fit uencode udecode] in *.
      eapply rt_map; [apply (proj1 IHt); exact Hf | cbn [Again]; auto].
    - intros v Hf; destruct v; try (destruct Hf; fail); cbn [Fit uencode udecode] in *.
      eapply rt_map; [apply (proj1 IHt); exact Hf | cbn [Again]; auto].
    - intros v Hf; destruct v; try (destruct Hf; fail); cbn [Fit uencode udecode] in *.
      eapply rt_map; [apply (proj1 IHt); exact Hf | cbn [Again]; auto].
    - intros v Hf; destruct v; try (destruct Hf; fail); cbn [Fit uencode udecode] in *.
      + apply (@rt_prefix _ _ _ [x00] _ (udecode us t) _ (Again cs t v) _ VIncluded); [apply (@S_u8 0 x00 eq_refl) | apply rt_err, (proj1 IHt); exact Hf | | auto].
        intros bs y Hp. apply P_octet. cbn -[dmap dmap_err]. apply P_map, P_map_err. exact Hp.
      + apply (@rt_prefix _ _ _ [x01] _ (udecode us t) _ (Again cs t v) _ VExcluded); [apply (@S_u8 1 x01 eq_refl) | apply rt_err, (proj1 IHt); exact Hf | | auto].
        intros bs y Hp. apply P_octet. cbn -[dmap dmap_err]. apply P_map, P_map_err. exact Hp.
      + eapply (@rt_const _ _ [x02]); [apply (@S_u8 2 x02 eq_refl) | apply P_octet, P_ok | exact I].
    - intros v Hf; destruct v; destruct Hf.
    - intros v Hf; destruct v; destruct Hf.
    - assert (Hg : Forall good ts) by (exact (Forall_impl _ (fun x Hx => proj1 Hx) H)).
      intros v Hf; destruct v; try (destruct Hf; fail); cbn [Fit uencode udecode] in *.
      eapply rt_map; [apply rt_fields; assumption|]. cbn [Again]. auto.
    - intros v Hf; destruct v as [| | | | | | | | | | | | | | | | | | | | | | | | | | | | | | | | |i fs]; try (destruct Hf; fail); cbn [Fit uencode udecode] in *.
      destruct Hf as [Hok Hf]. unfold enum_ok in Hok. rewrite map_map in Hok. cbn [fst] in Hok.
      destruct (discriminants (map fst vs)) as [ds|] eqn:Hd; [|contradiction]. destruct Hok as [Hin Hnd].
      destruct (nth_error vs i) as [[e0 ts]|] eqn:Hi; [|rewrite nth_error_map, Hi in Hf; destruct Hf].
      rewrite (nth_error_map_some (fun x => map (Fit cs) (snd x)) _ _ Hi) in Hf. cbn [snd] in Hf.
      rewrite (nth_error_map_some (fun x => map (uencode ch us) (snd x)) _ _ Hi). cbn [snd].
      assert (Hg : Forall good ts).
      { rewrite Forall_forall in H. specialize (H _ (nth_error_In _ _ Hi)). cbn [snd] in H.
        exact (Forall_impl _ (fun x Hx => proj1 Hx) H). }
      destruct (nth_error ds i) as [d|] eqn:Hdi.
      2: { exfalso. apply nth_error_None in Hdi. assert (Hs : nth_error vs i <> None) by congruence. apply nth_error_Some in Hs.
           unfold discriminants in Hd. apply discriminants_from_spec in Hd. rewrite map_length in Hd. lia. }
      assert (Hfd : Rt (enc_fields (map (uencode ch us) ts) (fun e => EField (ce e)) fs)
                       (dec_fields (fun e => DField (cd e)) (map (udecode us) ts))
                       (fun fs' => length fs = length fs' /\ all2 (map (fun t p => Again cs t (fst p) (snd p)) ts) (combine fs fs'))).
      { apply rt_fields; assumption. }
      destruct (int_or_fail r d) as [(db & Hw)|(e & He)].
      + apply (@rt_prefix _ _ _ db _ _ _ _ (Again cs (UEnum ce cd r vs) (VEnum i fs)) (VEnum i)) with (2 := Hfd).
        * destruct (S_int Hw) as (ws & Ht & Hc). exists ws. split; [|exact Hc]. apply (T_map_err EDisc Ht).
        * intros bs y Hp. eapply P_bind; [apply P_int; [|exact Hw]|].
          -- rewrite Forall_forall in Hin. apply Hin. apply (nth_error_In _ _ Hdi).
          -- rewrite (@find_disc_spec _ _ _ 0 Hnd Hdi). cbn [Nat.add].
             rewrite (nth_error_map_some (fun x => map (udecode us) (snd x)) _ _ Hi). cbn [snd]. apply P_map. exact Hp.
        * intros y Hy. cbn [Again]. rewrite (nth_error_map_some (fun x => map (fun t p => Again cs t (fst p) (snd p)) (snd x)) _ _ Hi). cbn [snd].
          split; [reflexivity | exact Hy].
      + exists [], (Err (EDisc e)). split; [|discriminate]. apply sends_stop; [|discriminate].
        apply (sends_map_err EDisc (sends_traces He)).
  Qed.

  Lemma C99_containers_lemma t v : Fit cs t v -> exists bs r, Sends (uencode ch us t v) bs r /\
    (r = Ok tt -> exists v', Yields (udecode us t) bs v' /\ Again cs t v v').
  Proof. intros Hf. exact (proj1 (containers t) v Hf). Qed.
End Containers.
