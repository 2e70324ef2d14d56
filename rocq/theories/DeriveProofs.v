(* Proofs of C37-C42. *)
From Coq Require Import Lia ZifyBool ZifyNat ZifyN.
From Verif Require Import Base BaseFacts Streams StreamFacts Utf8 Types Traits Encode Decode Sized TypesFacts Spec SpecCalls SpecDecode SpecSize
  SpecDerive EncodeFacts WireFacts EncodeCases RoundTrip EncodeProofs ItemProofs DecodeFacts DecodeLocal AcceptFacts DecodeProofs SizeProofs.
Set Implicit Arguments.

(* ---- fields *)

Lemma HT_encode_fields ch conv ts vs : HasTrace (enc_fields (map (encode ch) ts) conv vs).
Proof. apply HT_fields. apply forall_map, Forall_forall. intros t _ v. apply encode_has_trace. Qed.

Lemma fields_ok ch conv ts : forall vs bs,
  Appends (enc_fields (map (encode ch) ts) conv vs) bs (Ok tt) <-> exists bss, FieldBytes ch ts vs bss /\ bs = concat bss.
Proof.
  induction ts as [|t ts IH]; intros [|v vs] bs; cbn [map enc_fields].
  - split.
    + intros Ha. destruct (appends_unique HT_ok Ha (traces_appends T_eok)) as [-> _]. exists []. split; [constructor | reflexivity].
    + intros (bss & Hb & ->). inversion Hb; subst. apply (traces_appends T_eok).
  - split.
    + intros Ha. destruct (appends_unique (HT_panic _) Ha (traces_appends (T_epanic _))) as [_ H]. discriminate.
    + intros (bss & Hb & ->). inversion Hb.
  - split.
    + intros Ha. destruct (appends_unique (HT_panic _) Ha (traces_appends (T_epanic _))) as [_ H]. discriminate.
    + intros (bss & Hb & ->). inversion Hb.
  - destruct (encode_has_trace ch t v) as (cs & r & Ht). destruct (HT_encode_fields ch conv ts vs) as (ds & q & Hd).
    split.
    + intros Ha. destruct r as [[]|e|p].
      * pose proof (T_seq_ok (T_map_err conv Ht) Hd) as H. destruct (appends_traces H Ha) as [<- ->].
        destruct (proj1 (IH vs (concat ds)) (traces_appends Hd)) as (bss & Hb & Hc).
        exists (concat cs :: bss). split; [constructor; [apply (traces_appends Ht) | exact Hb]|].
        cbn [concat]. rewrite concat_app, Hc. reflexivity.
      * assert (H : Traces (eseq (emap_err conv (encode ch t v)) (enc_fields (map (encode ch) ts) conv vs)) cs (Err (conv e)))
          by (apply T_seq_stop; [exact (T_map_err conv Ht) | discriminate]).
        destruct (appends_traces H Ha) as [_ Hx]. discriminate.
      * assert (H : Traces (eseq (emap_err conv (encode ch t v)) (enc_fields (map (encode ch) ts) conv vs)) cs (Panic p))
          by (apply T_seq_stop; [exact (T_map_err conv Ht) | discriminate]).
        destruct (appends_traces H Ha) as [_ Hx]. discriminate.
    + intros (bss & Hb & ->). inversion Hb as [|? ? b ? ? bs' Hb1 Hb2]; subst.
      destruct (appends_traces Ht Hb1) as [<- ->].
      destruct (appends_traces Hd (proj2 (IH vs (concat bs')) (ex_intro _ bs' (conj Hb2 eq_refl)))) as [Hc ->].
      cbn [concat]. rewrite <- Hc, <- concat_app. apply traces_appends. exact (T_seq_ok (T_map_err conv Ht) Hd).
Qed.

Lemma fields_err ch conv ts : forall vs bs e,
  Appends (enc_fields (map (encode ch) ts) conv vs) bs (Err e) ->
  exists k e', FieldFailure ch ts vs k e' bs /\ e = conv e'.
Proof.
  induction ts as [|t ts IH]; intros [|v vs] bs e Ha; cbn [map enc_fields] in Ha.
  - destruct (appends_unique HT_ok Ha (traces_appends T_eok)) as [_ H]. discriminate.
  - destruct (appends_unique (HT_panic _) Ha (traces_appends (T_epanic _))) as [_ H]. discriminate.
  - destruct (appends_unique (HT_panic _) Ha (traces_appends (T_epanic _))) as [_ H]. discriminate.
  - destruct (encode_has_trace ch t v) as (cs & r & Ht). destruct (HT_encode_fields ch conv ts vs) as (ds & q & Hd).
    destruct r as [[]|e1|p].
    + pose proof (T_seq_ok (T_map_err conv Ht) Hd) as H. destruct (appends_traces H Ha) as [<- ->].
      destruct (IH vs _ _ (traces_appends Hd)) as (k & e' & (t' & v' & bss & b & H1 & H2 & H3 & H4 & H5) & ->).
      exists (S k), e'. split; [|reflexivity]. exists t', v', (concat cs :: bss), b. cbn [nth_error firstn].
      repeat split; try assumption; [constructor; [apply (traces_appends Ht) | exact H3]|].
      rewrite concat_app, H5. cbn [concat]. apply app_assoc.
    + assert (H : Traces (eseq (emap_err conv (encode ch t v)) (enc_fields (map (encode ch) ts) conv vs)) cs (Err (conv e1)))
        by (apply T_seq_stop; [exact (T_map_err conv Ht) | discriminate]).
      destruct (appends_traces H Ha) as [<- Hx]. injection Hx as <-. exists 0, e1. split; [|reflexivity].
      exists t, v, [], (concat cs). cbn [nth_error firstn concat app]. repeat split; [constructor | apply (traces_appends Ht)].
    + assert (H : Traces (eseq (emap_err conv (encode ch t v)) (enc_fields (map (encode ch) ts) conv vs)) cs (Panic p))
        by (apply T_seq_stop; [exact (T_map_err conv Ht) | discriminate]).
      destruct (appends_traces H Ha) as [_ Hx]. discriminate.
Qed.

Definition with_conv {A} (conv : derr -> derr) (x : input * res derr A) : input * res derr A :=
  match x with (i, Err e) => (i, Err (conv e)) | _ => x end.

Lemma dec_fields_list conv ts : forall i, dec_fields conv (map decode ts) i = with_conv conv (decode_list ts i).
Proof.
  induction ts as [|t ts IH]; intros i; cbn [map dec_fields decode_list]; [reflexivity|].
  unfold dbind, dmap_err. destruct (decode t i) as [i1 [v|e|p]]; [|reflexivity|reflexivity].
  unfold dmap, dbind. rewrite IH. destruct (decode_list ts i1) as [i2 [vs|e|p]]; reflexivity.
Qed.

(* ---- C37 *)

Lemma C37_encode_lemma ch ts vs bs :
  Appends (encode ch (TStruct ts) (VTuple vs)) bs (Ok tt) <-> exists bss, FieldBytes ch ts vs bss /\ bs = concat bss.
Proof. cbn [encode]. apply fields_ok. Qed.

Lemma C37_error_lemma ch ts vs bs e : Appends (encode ch (TStruct ts) (VTuple vs)) bs (Err e) ->
  exists k e', FieldFailure ch ts vs k e' bs /\ e = into_generic_enc e'.
Proof. cbn [encode]. apply fields_err. Qed.

Lemma C37_decode_lemma ts i :
  decode (TStruct ts) i = match decode_list ts i with
                          | (i', Ok vs) => (i', Ok (VTuple vs))
                          | (i', Err e) => (i', Err (into_generic_dec e))
                          | (i', Panic p) => (i', Panic p)
                          end.
Proof.
  cbn [decode]. unfold dmap, dbind. rewrite dec_fields_list. destruct (decode_list ts i) as [i' [vs|e|p]]; reflexivity.
Qed.

(* ---- C38 *)

Lemma discriminants_none vs : forall prev, (forall p, prev = Some p -> (0 <= p < 2 ^ 128)%Z) ->
  Forall (fun d => match d with Some z => (0 <= z < 2 ^ 128)%Z | None => True end) vs ->
  (discriminants_from prev vs = None <-> exists i d, AssignedFrom prev vs i d /\ (2 ^ 128 <= d)%Z).
Proof.
  intros prev Hp Hv. split.
  - revert prev Hp. induction Hv as [|e vs He Hv IH]; intros prev Hp H; cbn [discriminants_from] in H; [discriminate|].
    destruct (next_discriminant prev e) as [d|] eqn:En.
    + destruct (discriminants_from (Some d) vs) as [l|] eqn:El; [discriminate|].
      assert (Hd : AssignedFrom prev (e :: vs) 0 d /\ (0 <= d < 2 ^ 128)%Z).
      { unfold next_discriminant in En. destruct e as [z|].
        - injection En as <-. split; [apply AF_explicit; reflexivity | exact He].
        - destruct prev as [p|].
          + destruct (Z.ltb_spec (p + 1) (2 ^ 128)); [|discriminate]. injection En as <-.
            split; [eapply AF_prev; reflexivity|]. specialize (Hp _ eq_refl). lia.
          + injection En as <-. split; [apply AF_zero; reflexivity | lia]. }
      destruct Hd as [Ha Hr].
      destruct (IH (Some d)) as (i & x & Hx & Hge); [intros p E; injection E as <-; exact Hr | exact El |].
      exists (S i), x. split; [|exact Hge]. eapply assigned_from_shift; eassumption.
    + unfold next_discriminant in En. destruct e as [z|]; [discriminate|]. destruct prev as [p|]; [|discriminate].
      destruct (Z.ltb_spec (p + 1) (2 ^ 128)); [discriminate|]. exists 0%nat, (p + 1)%Z. split; [eapply AF_prev; reflexivity | lia].
  - intros (i & d & Ha & Hd). destruct (discriminants_from prev vs) as [ds|] eqn:E; [exfalso|reflexivity].
    assert (Hall : Forall (fun z => (0 <= z < 2 ^ 128)%Z) ds).
    { clear Ha Hd i d. revert prev Hp ds E. induction Hv as [|e vs He Hv IH]; intros prev Hp ds E; cbn [discriminants_from] in E.
      - injection E as <-. constructor.
      - destruct (next_discriminant prev e) as [d|] eqn:En; [|discriminate].
        assert (Hr : (0 <= d < 2 ^ 128)%Z).
        { unfold next_discriminant in En. destruct e as [z|]; [injection En as <-; exact He|].
          destruct prev as [p|]; [|injection En as <-; lia].
          destruct (Z.ltb_spec (p + 1) (2 ^ 128)); [|discriminate]. injection En as <-. specialize (Hp _ eq_refl). lia. }
        destruct (discriminants_from (Some d) vs) as [l|] eqn:El; [|discriminate]. injection E as <-. constructor; [exact Hr|].
        apply (IH (Some d)); [intros p E; injection E as <-; exact Hr | exact El]. }
    assert (Hi : (i < length ds)%nat).
    { rewrite (discriminants_from_spec _ _ E). apply nth_error_Some. inversion Ha; subst; congruence. }
    destruct (nth_error ds i) as [x|] eqn:Ex; [|apply nth_error_None in Ex; lia].
    pose proof (discriminants_from_assigned _ _ E _ Ex) as Hx. rewrite (assigned_from_functional Ha Hx) in Hd.
    rewrite Forall_forall in Hall. specialize (Hall _ (nth_error_In _ _ Ex)). cbn beta in Hall. lia.
Qed.

Lemma C38_lemma vs : Forall (fun d => match d with Some z => (0 <= z < 2 ^ 128)%Z | None => True end) vs ->
  match discriminants vs with
  | Some ds => length ds = length vs /\ forall i d, nth_error ds i = Some d <-> Assigned vs i d
  | None => exists i d, Assigned vs i d /\ (2 ^ 128 <= d)%Z
  end.
Proof.
  intros Hv. destruct (discriminants vs) as [ds|] eqn:E.
  - split; [apply (discriminants_from_spec _ _ E)|]. intros i d. apply discriminants_assigned. exact E.
  - destruct (proj1 (@discriminants_none vs None ltac:(discriminate) Hv) E) as (i & d & Ha & Hd). exists i, d.
    split; [apply assigned_from_none; exact Ha | exact Hd].
Qed.

(* ---- C39 *)

Lemma C39_encode_lemma ch r vs k fs bs : enum_ok r vs ->
  (Appends (encode ch (TEnum r vs) (VEnum k fs)) bs (Ok tt) <->
   exists e ts d db bss, nth_error vs k = Some (e, ts) /\ Assigned (map fst vs) k d /\ WireInt r d db /\
                         FieldBytes ch ts fs bss /\ bs = db ++ concat bss).
Proof.
  intros Hok. unfold enum_ok in Hok. destruct (discriminants (map fst vs)) as [ds|] eqn:Hd; [|contradiction]. destruct Hok as [Hin _].
  cbn [encode]. rewrite Hd. unfold enc_enum. split.
  - intros Ha. destruct (nth_error ds k) as [d|] eqn:Ek.
    2:{ destruct (appends_unique (HT_panic _) Ha (traces_appends (T_epanic _))) as [_ H]. discriminate. }
    destruct (nth_error (map (fun x => map (encode ch) (snd x)) vs) k) as [es|] eqn:Ev.
    2:{ destruct (appends_unique (HT_panic _) Ha (traces_appends (T_epanic _))) as [_ H]. discriminate. }
    apply nth_error_map_inv in Ev. destruct Ev as ([e ts] & Ev & ->). cbn [snd] in Ha.
    destruct (HT_map_err EDisc (HT_int r d)) as (cs & q & Ht).
    destruct (HT_encode_fields ch (fun e => EField (into_generic_enc e)) ts fs) as (es & q' & Hf).
    destruct q as [[]|e1|p].
    + destruct (appends_traces (T_seq_ok Ht Hf) Ha) as [<- ->].
      destruct (proj1 (fields_ok ch _ ts fs (concat es)) (traces_appends Hf)) as (bss & Hb & Hc).
      exists e, ts, d, (concat cs), bss. repeat split; try assumption.
      * apply (@discriminants_assigned _ _ _ _ Hd). exact Ek.
      * rewrite Forall_forall in Hin. specialize (Hin _ (nth_error_In _ _ Ek)).
        destruct (Good_map_err EDisc (@Good_int ch r d Hin)) as [db _ Hw (xs & Hx & <-) | xs e2 _ Hx | xs _ Hl _]; [| |discriminate].
        -- destruct (traces_unique Ht Hx) as [Heq _]. rewrite Heq. exact Hw.
        -- destruct (traces_unique Ht Hx) as [_ Hbad]. discriminate.
      * rewrite concat_app, Hc. reflexivity.
    + assert (H : Traces (eseq (emap_err EDisc (enc_int r d)) (enc_fields (map (encode ch) ts) (fun e => EField (into_generic_enc e)) fs)) cs (Err e1))
        by (apply T_seq_stop; [exact Ht | discriminate]).
      destruct (appends_traces H Ha) as [_ Hx]. discriminate.
    + assert (H : Traces (eseq (emap_err EDisc (enc_int r d)) (enc_fields (map (encode ch) ts) (fun e => EField (into_generic_enc e)) fs)) cs (Panic p))
        by (apply T_seq_stop; [exact Ht | discriminate]).
      destruct (appends_traces H Ha) as [_ Hx]. discriminate.
  - intros (e & ts & d & db & bss & Hk & Has & Hw & Hb & ->). apply (@discriminants_assigned _ _ _ _ Hd) in Has. rewrite Has.
    rewrite (nth_error_map_some (fun x => map (encode ch) (snd x)) _ _ Hk). cbn [snd].
    destruct (S_map_err EDisc (S_int Hw)) as (xs & Hx & <-).
    destruct (HT_encode_fields ch (fun e => EField (into_generic_enc e)) ts fs) as (es & q' & Hf).
    destruct (appends_traces Hf (proj2 (fields_ok ch _ ts fs (concat bss)) (ex_intro _ bss (conj Hb eq_refl)))) as [<- ->].
    rewrite <- concat_app. apply traces_appends. exact (T_seq_ok Hx Hf).
Qed.

Lemma find_disc_none ds : forall d k, find_disc d ds k = None -> ~ In d ds.
Proof.
  induction ds as [|d' ds IH]; intros d k H; cbn [find_disc] in H; [intros [] |].
  destruct (Z.eqb_spec d d') as [->|Hne]; [discriminate|]. intros [->|Hin]; [congruence|]. apply (IH _ _ H Hin).
Qed.

Lemma C39_decode_lemma r vs db : enum_ok r vs -> length db = wire_width r ->
  exists d, in_ity r d /\ WireInt r d db /\
  ((exists k e ts, nth_error vs k = Some (e, ts) /\ Assigned (map fst vs) k d /\
      forall pre post, decode (TEnum r vs) (Input (pre ++ db ++ post) (length pre)) =
        match decode_list ts (Input (pre ++ db ++ post) (length pre + length db)) with
        | (i', Ok fs) => (i', Ok (VEnum k fs))
        | (i', Err e) => (i', Err (DField (into_generic_dec e)))
        | (i', Panic p) => (i', Panic p)
        end) \/
   ((forall k, ~ Assigned (map fst vs) k d) /\ Refuses (decode (TEnum r vs)) db (DUnassigned r d))).
Proof.
  intros Hok Hl. unfold enum_ok in Hok. destruct (discriminants (map fst vs)) as [ds|] eqn:Hd; [|contradiction].
  destruct (int_yields r db Hl) as (d & Hin & Hw & Hp). exists d. split; [exact Hin|]. split; [exact Hw|].
  destruct (find_disc d ds 0) as [k|] eqn:Ef.
  - left. pose proof (find_disc_inv _ _ _ Ef) as (j & -> & Hj). cbn [Nat.add] in *.
    assert (Hlt : j < length vs).
    { rewrite <- (map_length fst vs), <- (discriminants_from_spec _ _ Hd). apply nth_error_Some. congruence. }
    destruct (nth_error vs j) as [[e ts]|] eqn:Ev; [|apply nth_error_None in Ev; lia].
    exists j, e, ts. split; [exact Ev|]. split; [apply (@discriminants_assigned _ _ _ _ Hd); exact Hj|].
    intros pre post. cbn [decode]. rewrite Hd. unfold dec_enum, dbind. rewrite Hp, Ef.
    rewrite (nth_error_map_some (fun x => map decode (snd x)) _ _ Ev). cbn [snd]. unfold dmap, dbind. rewrite dec_fields_list.
    destruct (decode_list ts _) as [i' [fs|x|p]]; reflexivity.
  - right. split.
    + intros k Ha. apply (@discriminants_assigned _ _ _ _ Hd) in Ha. apply nth_error_In in Ha. exact (find_disc_none _ _ _ Ef Ha).
    + intros pre post. cbn [decode]. rewrite Hd. unfold dec_enum, dbind. rewrite Hp, Ef. reflexivity.
Qed.

Lemma C39_error_lemma ch r vs k fs bs x : enum_ok r vs -> wt (TEnum r vs) (VEnum k fs) ->
  Appends (encode ch (TEnum r vs) (VEnum k fs)) bs (Err x) ->
  exists e ts d, nth_error vs k = Some (e, ts) /\ Assigned (map fst vs) k d /\
   ((~ int_fits r d /\ bs = [] /\ ((r = Usize /\ x = EDisc (EUsize d)) \/ (r = Isize /\ x = EDisc (EIsize d)))) \/
    (exists db j e' fbs, WireInt r d db /\ FieldFailure ch ts fs j e' fbs /\ bs = db ++ fbs /\ x = EField (into_generic_enc e'))).
Proof.
  intros Hok [_ Hwt] Ha. unfold enum_ok in Hok. destruct (discriminants (map fst vs)) as [ds|] eqn:Hd; [|contradiction]. destruct Hok as [Hin _].
  cbn [encode] in Ha. rewrite Hd in Ha. unfold enc_enum in Ha.
  destruct (nth_error (map (fun x => map wt (snd x)) vs) k) as [ps|] eqn:Ev; [|contradiction]. clear Hwt.
  apply nth_error_map_inv in Ev. destruct Ev as ([e ts] & Ev & _).
  destruct (nth_error ds k) as [d|] eqn:Ek.
  2:{ destruct (appends_unique (HT_panic _) Ha (traces_appends (T_epanic _))) as [_ H]. discriminate. }
  rewrite (nth_error_map_some (fun x => map (encode ch) (snd x)) _ _ Ev) in Ha. cbn [snd] in Ha.
  exists e, ts, d. split; [exact Ev|]. split; [apply (@discriminants_assigned _ _ _ _ Hd); exact Ek|].
  rewrite Forall_forall in Hin. specialize (Hin _ (nth_error_In _ _ Ek)).
  destruct (HT_encode_fields ch (fun e => EField (into_generic_enc e)) ts fs) as (es & q' & Hf).
  destruct (@Good_int ch r d Hin) as [db Hfit Hw (xs & Hx & <-) | xs e2 Hfit Hx | xs _ Hl _]; [right|left|discriminate].
  - destruct (appends_traces (T_seq_ok (T_map_err EDisc Hx) Hf) Ha) as [<- ->].
    destruct (fields_err ch _ ts fs (traces_appends Hf)) as (j & e' & Hff & ->).
    exists (concat xs), j, e', (concat es). split; [exact Hw|]. split; [exact Hff|]. split; [apply concat_app | reflexivity].
  - split; [exact Hfit|].
    assert (H : Traces (eseq (emap_err EDisc (enc_int r d)) (enc_fields (map (encode ch) ts) (fun e => EField (into_generic_enc e)) fs)) xs (Err (EDisc e2)))
      by (apply T_seq_stop; [exact (T_map_err EDisc Hx) | discriminate]).
    destruct (appends_traces H Ha) as [<- Heq]. injection Heq as <-.
    assert (Hu : forall y, Traces (enc_int r d) [] (Err y) -> concat xs = [] /\ e2 = y).
    { intros y Hy. destruct (traces_unique Hx Hy) as [H1 H2]. split; [exact H1 | congruence]. }
    destruct r; cbn [int_fits] in Hfit; try (exfalso; apply Hfit; exact I); cbn [enc_int] in Hu.
    + destruct (Hu (EUsize d)) as [-> ->]; [|split; [reflexivity | left; split; reflexivity]].
      unfold enc_usize. destruct ((0 <=? d) && (d <? 65536))%Z eqn:Hb; [lia | apply T_eerror].
    + destruct (Hu (EIsize d)) as [-> ->]; [|split; [reflexivity | right; split; reflexivity]].
      unfold enc_isize. destruct ((-32768 <=? d) && (d <? 32768))%Z eqn:Hb; [lia | apply T_eerror].
Qed.

(* ---- C40 *)

Lemma sum_opt_spec l : forall n, sum_opt l = Some n <-> exists ns, l = map Some ns /\ n = sum ns.
Proof.
  induction l as [|[x|] l IH]; intros n; cbn [sum_opt].
  - split; [intros H; injection H as <-; exists []; split; reflexivity|]. intros ([|] & H & ->); [reflexivity | discriminate].
  - split.
    + destruct (sum_opt l) as [m|] eqn:E; [|discriminate]. intros H. apply some_inj in H. subst n.
      destruct (proj1 (IH m) eq_refl) as (ns & -> & ->). exists (x :: ns). split; reflexivity.
    + intros ([|y ns] & H & ->); [discriminate|]. cbn [map] in H. injection H as -> ->. rewrite (proj2 (IH (sum ns))); [reflexivity|].
      exists ns. split; reflexivity.
  - split; [discriminate|]. intros ([|] & H & _); discriminate.
Qed.

Lemma max_opt_spec l : forall n, max_opt l = Some n <-> exists ns, l = map Some ns /\ n = largest ns.
Proof.
  induction l as [|[x|] l IH]; intros n; cbn [max_opt].
  - split; [intros H; injection H as <-; exists []; split; reflexivity|]. intros ([|] & H & ->); [reflexivity | discriminate].
  - split.
    + destruct (max_opt l) as [m|] eqn:E; [|discriminate]. intros H. apply some_inj in H. subst n.
      destruct (proj1 (IH m) eq_refl) as (ns & -> & ->). exists (x :: ns). split; reflexivity.
    + intros ([|y ns] & H & ->); [discriminate|]. cbn [map] in H. injection H as -> ->. rewrite (proj2 (IH (largest ns))); [reflexivity|].
      exists ns. split; reflexivity.
  - split; [discriminate|]. intros ([|] & H & _); discriminate.
Qed.

Lemma map_some_forall2 {A} (f : A -> option N) l : forall ns, map f l = map Some ns <-> Forall2 (fun x n => f x = Some n) l ns.
Proof.
  induction l as [|x l IH]; intros [|n ns]; cbn [map]; split; intros H; try discriminate; try (inversion H; fail); try constructor; try reflexivity.
  - injection H; congruence.
  - apply IH. injection H; congruence.
  - inversion H; subst. f_equal; [assumption | apply IH; assumption].
Qed.

Lemma C40_struct_lemma so ts n :
  max_size so (TStruct ts) = Some n <-> exists ns, Forall2 (fun t m => max_size so t = Some m) ts ns /\ n = sum ns.
Proof.
  cbn [max_size]. rewrite sum_opt_spec. split; intros (ns & H & ->); exists ns; (split; [apply map_some_forall2; exact H | reflexivity]).
Qed.

Lemma C40_enum_lemma so r vs n :
  max_size so (TEnum r vs) = Some n <->
  exists nss, Forall2 (fun x ns => Forall2 (fun t m => max_size so t = Some m) (snd x) ns) vs nss /\
              n = match vs with [] => 0 | _ => int_size r + largest (map sum nss) end%N.
Proof.
  cbn [max_size]. rewrite max_opt_spec.
  assert (Hl : forall ks, largest (map (N.add (int_size r)) ks) = match ks with [] => 0 | _ => int_size r + largest ks end%N).
  { induction ks as [|k ks IH]; [reflexivity|]. cbn [map largest fold_right]. change (fold_right N.max 0%N) with largest. rewrite IH.
    destruct ks; cbn [largest fold_right]; lia. }
  split.
  - intros (ns & H & ->).
    assert (Hx : exists nss, Forall2 (fun x ns => Forall2 (fun t m => max_size so t = Some m) (snd x) ns) vs nss /\
                             ns = map (N.add (int_size r)) (map sum nss)).
    { revert ns H. induction vs as [|[e ts] vs IH]; intros [|k ns] H; try discriminate.
      - exists []. split; [constructor | reflexivity].
      - cbn [map snd] in H. injection H as H1 H2. destruct (IH _ H2) as (nss & Hn & ->).
        destruct (sum_opt (map (max_size so) ts)) as [m|] eqn:E; [|discriminate]. apply some_inj in H1. subst k.
        apply sum_opt_spec in E. destruct E as (ms & E & ->). apply map_some_forall2 in E.
        exists (ms :: nss). split; [constructor; assumption | reflexivity]. }
    destruct Hx as (nss & Hn & ->). exists nss. split; [exact Hn|]. rewrite Hl. inversion Hn; reflexivity.
  - intros (nss & Hn & ->). exists (map (N.add (int_size r)) (map sum nss)). split.
    + clear Hl. induction Hn as [|[e ts] ns vs nss H Hn IH]; [reflexivity|]. cbn [map snd]. f_equal; [|exact IH].
      cbn [snd] in H. apply map_some_forall2 in H. rewrite (proj2 (sum_opt_spec _ (sum ns))); [reflexivity|].
      exists ns. split; [exact H | reflexivity].
    + rewrite Hl. inversion Hn; reflexivity.
Qed.

Lemma attains_fields ch ts ns : Forall2 (Attains ch) ts ns ->
  exists vs bss, Forall2 wt ts vs /\ FieldBytes ch ts vs bss /\ N.of_nat (length (concat bss)) = sum ns.
Proof.
  induction 1 as [|t n ts ns (v & b & Hw & Ha & Hl) H (vs & bss & Hws & Hb & Hs)].
  - exists [], []. repeat split; constructor.
  - exists (v :: vs), (b :: bss). repeat split; try (constructor; assumption).
    cbn [concat sum fold_right]. change (fold_right N.add 0%N ns) with (sum ns). rewrite app_length. lia.
Qed.

Lemma C40_struct_attained_lemma ch ts ns : Forall2 (Attains ch) ts ns -> Attains ch (TStruct ts) (sum ns).
Proof.
  intros H. destruct (attains_fields H) as (vs & bss & Hw & Hb & Hs). exists (VTuple vs), (concat bss).
  split; [cbn [wt]; apply all2_forall2; exact Hw|]. split; [|exact Hs]. apply C37_encode_lemma. exists bss. split; [exact Hb | reflexivity].
Qed.

Lemma largest_in l : l <> [] -> In (largest l) l.
Proof.
  induction l as [|x l IH]; [congruence|]. intros _. cbn [largest fold_right]. change (fold_right N.max 0%N l) with (largest l).
  destruct l as [|y l]; [left; cbn; lia|]. destruct (N.max_spec x (largest (y :: l))) as [[_ ->]|[_ ->]]; [right; apply IH; discriminate | left; reflexivity].
Qed.

Lemma C40_enum_attained_lemma ch r vs nss : enum_ok r vs -> vs <> [] ->
  (forall k d, Assigned (map fst vs) k d -> int_fits r d) ->
  Forall2 (fun x ns => Forall2 (Attains ch) (snd x) ns) vs nss ->
  Attains ch (TEnum r vs) (int_size r + largest (map sum nss)).
Proof.
  intros Hok Hne Hfit H.
  assert (Hi : In (largest (map sum nss)) (map sum nss)) by (apply largest_in; inversion H; subst; [congruence | discriminate]).
  apply in_map_iff in Hi. destruct Hi as (ns & Hs & Hin). rewrite <- Hs.
  destruct (In_nth_error _ _ Hin) as (k & Hk).
  assert (Hx : exists e ts, nth_error vs k = Some (e, ts) /\ Forall2 (Attains ch) ts ns).
  { clear - H Hk. revert k Hk. induction H as [|[e ts] m vs nss H1 H IH]; intros [|k] Hk; cbn [nth_error] in *; try discriminate.
    - injection Hk as ->. exists e, ts. split; [reflexivity | exact H1].
    - apply IH; exact Hk. }
  destruct Hx as (e & ts & Hv & Hat). destruct (attains_fields Hat) as (fs & bss & Hw & Hb & Hl).
  pose proof Hok as Hok'. unfold enum_ok in Hok'. destruct (discriminants (map fst vs)) as [ds|] eqn:Hd; [|contradiction]. destruct Hok' as [Hin' _].
  assert (Hlt : k < length ds).
  { rewrite (discriminants_from_spec _ _ Hd), map_length. apply nth_error_Some. congruence. }
  destruct (nth_error ds k) as [d|] eqn:Ek; [|apply nth_error_None in Ek; lia].
  pose proof (proj1 (@discriminants_assigned _ _ _ _ Hd) Ek) as Has. pose proof (Hfit _ _ Has) as Hf.
  rewrite Forall_forall in Hin'. specialize (Hin' _ (nth_error_In _ _ Ek)).
  destruct (@Good_int ch r d Hin') as [db _ Hwi _ | ? ? Hn _ | ? _ Hlow _]; [|contradiction|discriminate].
  exists (VEnum k fs), (db ++ concat bss). split; [|split].
  - cbn [wt]. split; [exact Hok|]. rewrite (nth_error_map_some (fun x => map wt (snd x)) _ _ Hv). cbn [snd]. apply all2_forall2. exact Hw.
  - apply C39_encode_lemma; [exact Hok|]. exists e, ts, d, db, bss. repeat split; assumption.
  - rewrite app_length. pose proof (wireint_len Hwi). lia.
Qed.

(* ---- C41, C42 *)

Lemma C41_encode_lemma c e g : EWithin c e -> ERoot c g -> into_generic_enc e = g.
Proof. intros H Hr. induction H; cbn [into_generic_enc]; try assumption. destruct Hr; reflexivity. Qed.

Lemma to_u128_id r d : (0 <= d)%Z -> in_ity r d -> to_u128 d = d.
Proof.
  intros H0 Hi. unfold to_u128. apply Z.mod_small. split; [exact H0|].
  unfold in_ity in Hi. destruct r; cbn [isigned iwidth] in Hi; lia.
Qed.

Lemma C41_decode_lemma c e g : DWithin c e -> DRoot c g -> into_generic_dec e = g.
Proof.
  intros H Hr. induction H; cbn [into_generic_dec]; try assumption. destruct Hr; try reflexivity.
  cbn [into_generic_dec]. rewrite (@to_u128_id r d); [reflexivity | assumption | assumption].
Qed.

Lemma C42_lemma r d : in_ity r d -> (0 <= d)%Z -> into_generic_dec (DUnassigned r d) = DGUnassigned (zero_extended r d).
Proof.
  intros Hi H0. cbn [into_generic_dec]. rewrite (@to_u128_id r d) by assumption. unfold zero_extended. rewrite Z.mod_small; [reflexivity|].
  split; [exact H0|]. unfold in_ity in Hi. destruct r; cbn [isigned iwidth] in *; lia.
Qed.
