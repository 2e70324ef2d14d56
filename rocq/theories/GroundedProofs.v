(* C94, exactly: decoding returns on every input if and only if no chain of definitions goes on for ever without reading an octet. *)
From Coq Require Import Lia ZifyBool ZifyNat ZifyN.
From Verif Require Import Base BaseFacts Streams StreamFacts Utf8 Utf8Facts Types TypesFacts Traits Encode Decode Spec SpecCalls SpecDecode SpecValues
  StreamProofs DecodeFacts DecodeLocal AcceptFacts PanicProofs RoundTrip Recursive SpecRecursive RecursiveFacts RecursiveProofs RecursiveLemmas SpecGrounded.
Set Implicit Arguments.

(* ---- A decoder that can succeed without moving *)
Definition Quiet {A} (m : D A) : Prop := exists i i' a, wf_in i /\ m i = (i', Ok a) /\ i_pos i' = i_pos i.

Lemma Q_eats {A} (m : D A) : Eats m -> ~ Quiet m.
Proof. intros He (i & i' & a & Hw & Hm & Hp). pose proof (He _ _ _ Hw Hm). lia. Qed.
Lemma Q_panic {A} p : ~ Quiet (@dpanic A p).
Proof. intros (i & i' & a & Hw & Hm & Hp). discriminate. Qed.
Lemma Q_bind {A B} (m : D A) (k : A -> D B) : Local m -> (forall a, Local (k a)) -> Quiet (dbind m k) -> Quiet m /\ exists a, Quiet (k a).
Proof.
  intros Hl Hk (i & i' & b & Hw & Hm & Hp). unfold dbind in Hm. destruct (m i) as [i1 [a|e|p]] eqn:E; try discriminate.
  destruct (local_forward Hl Hw E) as (_ & H1 & Hw1). destruct (local_forward (Hk a) Hw1 Hm) as (_ & H2 & _).
  split; [exists i, i1, a | exists a, i1, i', b]; split; try split; try assumption; lia.
Qed.
Lemma Q_map {A B} (f : A -> B) (m : D A) : Local m -> Quiet (dmap f m) -> Quiet m.
Proof. intros Hl H. apply Q_bind in H; [apply H | exact Hl | intros a; apply L_ok]. Qed.
Lemma Q_map_err {A} f (m : D A) : Quiet (dmap_err f m) -> Quiet m.
Proof.
  intros (i & i' & a & Hw & Hm & Hp). unfold dmap_err in Hm. destruct (m i) as [i1 [x|e|p]] eqn:E; try discriminate.
  injection Hm as <- <-. exists i, i1, x. auto.
Qed.
Lemma Q_items {A} (f : D A) n i : Local f -> Quiet (dec_items f n i) -> n = 0%nat \/ Quiet f.
Proof.
  intros Hl H. destruct n as [|n]; [left; reflexivity | right]. cbn [dec_items] in H. apply Q_bind in H.
  - destruct H as [H _]. apply Q_map_err in H. exact H.
  - apply L_map_err, Hl.
  - intros a. apply L_map, L_items, Hl.
Qed.
Lemma Q_fields conv fs : Forall Local fs -> Quiet (dec_fields conv fs) -> Forall Quiet fs.
Proof.
  induction fs as [|f fs IH]; intros Hl H; [constructor|]. inversion Hl; subst. cbn [dec_fields] in H. apply Q_bind in H.
  - destruct H as [H [a H']]. apply Q_map_err in H. apply Q_map in H'; [|apply L_fields; assumption]. constructor; [exact H | apply IH; assumption].
  - apply L_map_err. assumption.
  - intros a. apply L_map, L_fields. assumption.
Qed.

Lemma quiet_all ts : Forall (fun t => (Quiet (decode t) -> no_octets t = true) /\ (Quiet (decode (owned t)) -> no_octets t = true)) ts ->
  Forall Quiet (map decode ts) -> forallb no_octets ts = true.
Proof.
  induction 1 as [|t ts [Ht _] Hts IH]; cbn [map forallb]; intros H; [reflexivity|]. inversion H; subst. rewrite Ht by assumption. apply IH. assumption.
Qed.
Lemma quiet_const t : (Quiet (decode t) -> no_octets t = true) /\ (Quiet (decode (owned t)) -> no_octets t = true).
Proof.
  induction t using ty_ind_strong;
    try (match goal with |- ?P /\ _ => enough P by (split; assumption) end);
    repeat match goal with H : _ /\ _ |- _ => destruct H end;
    try (intros HQ; exfalso; revert HQ; apply Q_eats; apply eats_sound; reflexivity);
    cbn [no_octets owned decode]; try (intros _; reflexivity);
    try (intros HQ; exfalso; revert HQ; apply Q_panic);
    try (intros HQ; apply Q_map in HQ; [auto; fail | apply decode_local]).
  - intros HQ. apply Q_map in HQ; [|apply L_fields, local_decode_all]. apply Q_fields in HQ; [|apply local_decode_all]. apply quiet_all; assumption.
  - intros HQ. apply Q_map in HQ; [|apply L_items, decode_local]. apply Q_items in HQ; [|apply decode_local].
    destruct HQ as [->|HQ]; [reflexivity|]. apply orb_true_iff. right. auto.
  - split; intros HQ; exfalso; revert HQ; [apply Q_panic | apply Q_eats; apply (eats_sound (TVec t)); reflexivity].
  - split; intros HQ; exfalso; revert HQ; [apply Q_panic | apply Q_eats; apply (eats_sound TString); reflexivity].
  - split; intros HQ; exfalso; revert HQ; [apply Q_panic | apply Q_eats; apply (eats_sound TCString); reflexivity].
  - rewrite decode_owned. intros HQ. apply Q_map in HQ; [auto | apply decode_local].
  - intros HQ. apply Q_bind in HQ; [|apply decode_local | intros a; apply L_map, decode_local]. destruct HQ as [HQ _]. auto.
  - intros HQ. apply Q_bind in HQ; [|apply decode_local | intros a; apply L_map, decode_local]. destruct HQ as [HQ _]. auto.
  - intros HQ. apply Q_map in HQ; [|apply L_fields, local_decode_all]. apply Q_fields in HQ; [|apply local_decode_all]. apply quiet_all; assumption.
Qed.

Section Defs.
  Variable defs : nat -> rdef.

  Lemma silent_all ts : Forall (Silent defs) ts -> Silent defs (RTuple ts).
  Proof. induction 1; constructor; assumption. Qed.

  (* what succeeds without moving is silent *)
  Lemma quiet_inst env t : (forall k, nominal (env k)) -> (forall k, Quiet (decode (env k)) -> Silent defs (RVar k)) ->
    (Quiet (decode (inst env t)) -> Silent defs t) /\ (Quiet (decode (owned (inst env t))) -> Silent defs t).
  Proof.
    intros Hn Hv. induction t using rty_ind_strong; cbn [inst];
      try (match goal with |- ?P /\ _ => enough P by (split; assumption) end);
      repeat match goal with H : _ /\ _ |- _ => destruct H end;
      try (intros HQ; exfalso; revert HQ; apply Q_eats; match goal with |- Eats (decode ?t) => apply (eats_sound t) end; reflexivity);
      cbn [owned decode];
      try (intros HQ; apply Q_map in HQ; [constructor; auto; fail | apply decode_local]).
    - destruct (quiet_const t) as [H1 H2]. split; intros HQ; constructor; auto.
    - rewrite Hn. split; apply Hv.
    - intros HQ. apply Q_map in HQ; [|apply L_fields, local_decode_all]. apply Q_fields in HQ; [|apply local_decode_all]. apply silent_all.
      clear - H HQ. induction H as [|t ts [Ht _] Hts IH]; [constructor|]. cbn [map] in HQ. inversion HQ; subst. constructor; auto.
    - intros HQ. apply Q_map in HQ; [|apply L_items, decode_local]. apply Q_items in HQ; [|apply decode_local].
      destruct HQ as [->|HQ]; [apply Si_array_empty | apply Si_array; auto].
    - split; intros HQ; exfalso; revert HQ; [apply Q_panic | apply Q_eats; apply (eats_sound (TVec (inst env t))); reflexivity].
    - rewrite decode_owned. intros HQ. apply Q_map in HQ; [constructor; auto | apply decode_local].
    - intros HQ. apply Q_bind in HQ; [|apply decode_local | intros a; apply L_map, decode_local]. destruct HQ as [HQ _]. constructor. auto.
    - intros HQ. apply Q_bind in HQ; [|apply decode_local | intros a; apply L_map, decode_local]. destruct HQ as [HQ _]. constructor. auto.
  Qed.
  Lemma quiet_insts env conv ts : (forall k, nominal (env k)) -> (forall k, Quiet (decode (env k)) -> Silent defs (RVar k)) ->
    Quiet (dec_fields conv (map decode (map (inst env) ts))) -> Silent defs (RTuple ts).
  Proof.
    intros Hn Hv HQ. apply Q_fields in HQ; [|apply local_decode_all]. apply silent_all. induction ts as [|t ts IH]; [constructor|].
    cbn [map] in HQ. inversion HQ; subst. constructor; [apply (proj1 (@quiet_inst env t Hn Hv)); assumption | auto].
  Qed.
  Lemma quiet_unroll n : forall k, Quiet (decode (unroll defs n k)) -> Silent defs (RVar k).
  Proof.
    induction n as [|n IH]; intros k HQ; [exfalso; revert HQ; apply Q_panic|]. cbn [unroll] in HQ. destruct (defs k) as [ts|r vs] eqn:E; cbn [inst_def] in HQ.
    - apply (@Si_struct defs k ts E). cbn [decode] in HQ. apply Q_map in HQ; [|apply L_fields, local_decode_all].
      apply (@quiet_insts (unroll defs n) _ _ (unroll_nominal defs n) IH HQ).
    - exfalso. revert HQ. apply Q_eats. match goal with |- Eats (decode ?t) => apply (eats_sound t) end. reflexivity.
  Qed.

  (* what is silent succeeds without moving, unless the depth is exceeded *)
  Definition Still {A} (m : D A) (i : input) : Prop := (exists a, m i = (i, Ok a)) \/ snd (m i) = Panic PInfallible.

  Lemma T_map {A B} (f : A -> B) m i : Still m i -> Still (dmap f m) i.
  Proof. intros [[a H]|H]; unfold Still, dmap, dbind; [left; rewrite H; eexists; reflexivity | right]. destruct (m i) as [i1 [a|e|p]]; cbn [snd] in *; congruence. Qed.
  Lemma T_map_err {A} f (m : D A) i : Still m i -> Still (dmap_err f m) i.
  Proof. intros [[a H]|H]; unfold Still, dmap_err; [left; rewrite H; eexists; reflexivity | right]. destruct (m i) as [i1 [a|e|p]]; cbn [snd] in *; congruence. Qed.
  Lemma T_bind {A B} (m : D A) (k : A -> D B) i : Still m i -> (forall a, Still (k a) i) -> Still (dbind m k) i.
  Proof.
    intros [[a H]|H] Hk; unfold Still, dbind; [rewrite H; apply Hk | right]. destruct (m i) as [i1 [a|e|p]]; cbn [snd] in *; congruence.
  Qed.
  Lemma T_items {A} (f : D A) n i : Still f i -> forall c, Still (dec_items f n c) i.
  Proof.
    intros H. induction n as [|n IH]; intros c; cbn [dec_items]; [left; eexists; reflexivity|].
    apply T_bind; [apply T_map_err, H | intros a; apply T_map, IH].
  Qed.
  Lemma T_fields conv fs i : Forall (fun f => Still f i) fs -> Still (dec_fields conv fs) i.
  Proof.
    induction 1 as [|f fs Hf Hfs IH]; cbn [dec_fields]; [left; eexists; reflexivity|].
    apply T_bind; [apply T_map_err, Hf | intros a; apply T_map, IH].
  Qed.

  Lemma no_octets_owned t : no_octets t = true -> owned t = t.
  Proof. destruct t; cbn [no_octets owned]; intros; try reflexivity; discriminate. Qed.
  Lemma no_octets_still i t : no_octets t = true -> Still (decode t) i.
  Proof.
    induction t using ty_ind_strong; cbn [no_octets]; intros Hq; try discriminate;
      try (left; eexists; reflexivity); cbn [decode]; try (apply T_map; auto; fail).
    - apply T_map, T_fields. clear - H Hq. induction H as [|t ts Ht Hts IH]; [constructor|]. cbn [forallb map] in *.
      apply andb_true_iff in Hq. destruct Hq. constructor; auto.
    - apply T_map. apply orb_true_iff in Hq. destruct Hq as [Hq|Hq]; [|apply T_items; auto].
      apply Nat.eqb_eq in Hq. subst n. left. eexists. reflexivity.
    - rewrite decode_owned, no_octets_owned by exact Hq. apply T_map. auto.
    - apply T_bind; [auto | intros a; apply T_map; auto].
    - apply T_bind; [auto | intros a; apply T_map; auto].
    - apply T_map, T_fields. clear - H Hq. induction H as [|t ts Ht Hts IH]; [constructor|]. cbn [forallb map] in *.
      apply andb_true_iff in Hq. destruct Hq. constructor; auto.
  Qed.

  Lemma silent_owned env t : (forall k, nominal (env k)) -> Silent defs t -> owned (inst env t) = inst env t.
  Proof. intros Hn H. destruct H; cbn [inst]; try reflexivity; [apply no_octets_owned; assumption | apply Hn]. Qed.
  Lemma enters_owned env t k : (forall k, nominal (env k)) -> Enters defs t k -> owned (inst env t) = inst env t.
  Proof. intros Hn H. destruct H; cbn [inst]; try reflexivity. apply Hn. Qed.

  (* the result of reading fields does not depend on how errors are converted *)
  Definition same_kind {A} (x y : input * res derr A) : Prop :=
    match snd x, snd y with
    | Ok a, Ok b => fst x = fst y /\ a = b | Err _, Err _ => True | Panic p, Panic q => p = q | _, _ => False
    end.
  Lemma fields_conv conv conv' fs : forall i, same_kind (dec_fields conv fs i) (dec_fields conv' fs i).
  Proof.
    induction fs as [|f fs IH]; intros i; cbn [dec_fields]; [split; reflexivity|].
    unfold same_kind, dbind, dmap, dmap_err, dbind. destruct (f i) as [i1 [a|e|p]]; cbn [snd]; try exact I; try reflexivity.
    specialize (IH i1). unfold same_kind in IH. destruct (dec_fields conv fs i1) as [i2 [b|e|p]], (dec_fields conv' fs i1) as [i3 [b'|e'|p']];
      cbn [fst snd dok] in *; try contradiction; try exact I; try assumption. destruct IH as [-> ->]. split; reflexivity.
  Qed.

  Lemma T_unmap {A B} (f : A -> B) m i : Still (dmap f m) i -> Still m i.
  Proof.
    unfold Still, dmap, dbind. destruct (m i) as [i1 [a|e|p]]; cbn [dok snd]; intros [[b H]|H]; try discriminate.
    - injection H as -> <-. left. eexists. reflexivity.
    - right. congruence.
  Qed.
  Lemma T_conv conv conv' fs i : Still (dec_fields conv fs) i -> Still (dec_fields conv' fs) i.
  Proof.
    pose proof (fields_conv conv conv' fs i) as H. unfold Still, same_kind in *.
    destruct (dec_fields conv fs i) as [i2 [b|e|p]], (dec_fields conv' fs i) as [i3 [b'|e'|p']]; cbn [fst snd] in *; try contradiction;
      intros [[x Hx]|Hx]; try discriminate.
    - destruct H as [<- <-]. injection Hx as -> _. left. eexists. reflexivity.
    - right. congruence.
  Qed.
  Lemma silent_inst env i : (forall k, nominal (env k)) -> (forall k, Silent defs (RVar k) -> Still (decode (env k)) i) ->
    forall t, Silent defs t -> Still (decode (inst env t)) i.
  Proof.
    intros Hn Hv t H. induction H; cbn [inst]; try (cbn [decode]; apply T_map; assumption).
    - apply no_octets_still. assumption.
    - apply Hv. econstructor; eassumption.
    - left. eexists. reflexivity.
    - cbn [decode map dec_fields] in *. apply T_map, T_bind; [apply T_map_err; assumption|]. intros a. apply T_map. apply T_unmap in IHSilent2. exact IHSilent2.
    - left. eexists. reflexivity.
    - cbn [decode]. apply T_map, T_items. assumption.
    - cbn [decode]. rewrite decode_owned, (@silent_owned env t Hn) by assumption. apply T_map. assumption.
    - cbn [decode]. apply T_bind; [assumption | intros a; apply T_map; assumption].
    - cbn [decode]. apply T_bind; [assumption | intros a; apply T_map; assumption].
  Qed.
  Lemma silent_unroll n i : forall k, Silent defs (RVar k) -> Still (decode (unroll defs n k)) i.
  Proof.
    induction n as [|n IH]; intros k H; [right; reflexivity|]. inversion H as [|? ts Hk Hts| | | | | | | | | | | | |]; subst. cbn [unroll]. rewrite Hk. cbn [inst_def decode].
    apply T_map. apply (T_conv (fun e => e)). pose proof (@silent_inst (unroll defs n) i (unroll_nominal defs n) IH _ Hts) as Hs.
    cbn [inst decode] in Hs. apply T_unmap in Hs. exact Hs.
  Qed.
  Lemma silent_still n t i : Silent defs t -> Still (decode (inst (unroll defs n) t)) i.
  Proof. apply silent_inst; [apply unroll_nominal | intros k; apply silent_unroll]. Qed.

  (* ---- a definition that is entered takes the decoder with it *)
  Definition Deep {A} (m : D A) (i : input) : Prop := snd (m i) = Panic PInfallible.
  Lemma P_bind {A B} (m : D A) (k : A -> D B) i : Deep m i -> Deep (dbind m k) i.
  Proof. unfold Deep, dbind. destruct (m i) as [i1 [a|e|p]]; cbn [snd]; congruence. Qed.
  Lemma P_map {A B} (f : A -> B) m i : Deep m i -> Deep (dmap f m) i.
  Proof. apply P_bind. Qed.
  Lemma P_map_err {A} f (m : D A) i : Deep m i -> Deep (dmap_err f m) i.
  Proof. unfold Deep, dmap_err. destruct (m i) as [i1 [a|e|p]]; cbn [snd]; congruence. Qed.
  Lemma P_unmap {A B} (f : A -> B) m i : Deep (dmap f m) i -> Deep m i.
  Proof. unfold Deep, dmap, dbind. destruct (m i) as [i1 [a|e|p]]; cbn [snd dok]; congruence. Qed.
  Lemma P_conv conv conv' fs i : Deep (dec_fields conv fs) i -> Deep (dec_fields conv' fs) i.
  Proof.
    pose proof (fields_conv conv conv' fs i) as H. unfold Deep, same_kind in *.
    destruct (dec_fields conv fs i) as [i2 [b|e|p]], (dec_fields conv' fs i) as [i3 [b'|e'|p']]; cbn [fst snd] in *; try contradiction; congruence.
  Qed.
  Lemma enters_deep n t k i : Enters defs t k -> Deep (decode (unroll defs n k)) i -> Deep (decode (inst (unroll defs n) t)) i.
  Proof.
    intros H Hd. induction H; cbn [inst decode]; try specialize (IHEnters Hd); try (apply P_map; assumption).
    - exact Hd.
    - cbn [map dec_fields]. apply P_map, P_bind, P_map_err. assumption.
    - cbn [map dec_fields inst decode] in *. apply P_map. apply P_unmap in IHEnters. destruct (@silent_still n _ i H) as [[a Ha]|Ha].
      + unfold Deep, dbind at 1, dmap_err at 1. rewrite Ha. apply P_map, IHEnters.
      + apply P_bind, P_map_err. exact Ha.
    - destruct n0 as [|n0]; [lia|]. cbn [dec_items]. apply P_map, P_bind, P_map_err. assumption.
    - rewrite decode_owned, (@enters_owned _ _ _ (unroll_nominal defs n) H). apply P_map. assumption.
    - apply P_bind. assumption.
    - apply P_bind. assumption.
  Qed.
  Lemma enters_suffices n k j i : enters defs k j -> depth_suffices defs k (S n) i -> depth_suffices defs j n i.
  Proof.
    intros (ts & Hk & He) Hs Hj. apply Hs. cbn [unroll]. rewrite Hk. cbn [inst_def decode]. apply P_map. apply (P_conv (fun e => e)).
    eapply P_unmap. apply (@enters_deep n _ _ i He Hj).
  Qed.
  Lemma suffices_acc i n : forall k, depth_suffices defs k n i -> Acc (fun j k => enters defs k j) k.
  Proof.
    induction n as [|n IH]; intros k Hs; [exfalso; apply Hs; reflexivity|]. constructor. intros j Hj. apply IH. apply (enters_suffices Hj Hs).
  Qed.
  Lemma leads_snoc k j l : leads defs k j -> enters defs j l -> leads defs k l.
  Proof.
    induction 1 as [k j Hk | k j m Hk Hj IH]; intros Hl; [apply (leads_more Hk); apply leads_one; exact Hl | apply (leads_more Hk); auto].
  Qed.
  Lemma leads_cycle k : Acc (fun j k => enters defs k j) k -> ~ leads defs k k.
  Proof.
    induction 1 as [k _ IH]. intros H. inversion H as [? ? Hk | ? j ? Hk Hj]; subst; [apply (IH k Hk H)|].
    apply (IH j Hk). apply (leads_snoc Hj Hk).
  Qed.
  Lemma cycle_never_returns k : leads defs k k -> forall n i, ~ depth_suffices defs k n i.
  Proof. intros H n i Hs. apply suffices_acc in Hs. apply (leads_cycle Hs H). Qed.

  (* ---- and without endless chains the depth suffices *)
  Lemma S_bind_quiet {A B} c (m : D A) (k : A -> D B) : Local m -> Safe (S c) m -> (forall a, Safe c (k a)) ->
    (Quiet m -> forall a, Safe (S c) (k a)) -> Safe (S c) (dbind m k).
  Proof.
    intros Hl Hm Hk Hq i Hw Hi. unfold dbind. pose proof (Hm i Hw Hi) as Hs. destruct (m i) as [i1 [a|e|p]] eqn:E; cbn [snd] in *; try congruence.
    destruct (local_forward Hl Hw E) as (Hb & Hp & Hw1). destruct (Nat.eq_dec (i_pos i1) (i_pos i)) as [He|He].
    - apply Hq; [exists i, i1, a; auto | exact Hw1|]. rewrite rest_length in *. rewrite Hb. lia.
    - apply Hk; [exact Hw1|]. rewrite rest_length in *. unfold wf_in in *. rewrite Hb in *. lia.
  Qed.

  Section Next.
    Variable env : nat -> ty.
    Hypothesis Hn : forall k, nominal (env k).
    Hypothesis Hq : forall k, Quiet (decode (env k)) -> Silent defs (RVar k).
    Variable c : nat.
    Hypothesis Hv : forall k, Safe c (decode (env k)).

    Lemma fields_next conv ts :
      Forall (fun t => inhabited_parts t = true -> (forall j, Enters defs t j -> Safe (S c) (decode (env j))) ->
        Safe (S c) (decode (inst env t)) /\ Safe (S c) (decode (owned (inst env t)))) ts ->
      forallb inhabited_parts ts = true -> (forall j, Enters defs (RTuple ts) j -> Safe (S c) (decode (env j))) ->
      Safe (S c) (dec_fields conv (map decode (map (inst env) ts))).
    Proof.
      induction 1 as [|t ts Ht Hts IH]; intros Hi He; cbn [map dec_fields forallb] in *; [apply S_ok|]. apply andb_true_iff in Hi. destruct Hi as [Hi1 Hi2].
      apply S_bind_quiet.
      - apply L_map_err, decode_local.
      - apply S_map_err, Ht; [exact Hi1|]. intros j Hj. apply He. apply En_first. exact Hj.
      - intros a. apply S_map; [apply L_fields, local_decode_all|]. apply S_fields; [apply local_decode_all|]. apply forall_map, forall_map.
        apply inhabited_all in Hi2. eapply Forall_impl; [|exact Hi2]. cbn beta. intros x Hx. apply (@inst_safe env Hn c x Hv Hx).
      - intros Hqt a. apply Q_map_err in Hqt. apply S_map; [apply L_fields, local_decode_all|]. apply IH; [exact Hi2|].
        intros j Hj. apply He. apply En_later; [apply (proj1 (@quiet_inst env t Hn Hq)); exact Hqt | exact Hj].
    Qed.

    Lemma inst_next t : inhabited_parts t = true -> (forall j, Enters defs t j -> Safe (S c) (decode (env j))) ->
      Safe (S c) (decode (inst env t)) /\ Safe (S c) (decode (owned (inst env t))).
    Proof.
      assert (Hc : forall u, inhabited_parts u = true -> Safe c (decode (inst env u))) by (intros u Hu; apply (@inst_safe env Hn c u Hv Hu)).
      pose proof decode_local as HL.
      induction t using rty_ind_strong; cbn [inhabited_parts inst]; intros Hi He;
        try (apply andb_true_iff in Hi; destruct Hi as [Hi1 Hi2]);
        try (match goal with |- ?P /\ _ => enough P by (split; assumption) end);
        try (assert (IH1 : Safe (S c) (decode (inst env t)) /\ Safe (S c) (decode (owned (inst env t)))) by
          (apply IHt; [exact Hi | intros j Hj; apply He; constructor; exact Hj]); destruct IH1 as [IH1 IH2]);
        cbn [decode]; try (apply S_map; auto; fail).
      - apply negb_true_iff, closed_panics in Hi. split; apply S_panics, Hi.
      - rewrite Hn. assert (Hk : Safe (S c) (decode (env k))) by (apply He; constructor). split; exact Hk.
      - apply S_option; auto.
      - apply S_map; [apply L_fields, local_decode_all|]. apply fields_next; assumption.
      - apply S_map; [apply L_items, HL|]. destruct n as [|n]; [apply S_ok|]. apply S_items; [apply HL|].
        apply IHt; [exact Hi|]. intros j Hj. apply He. apply En_array; [lia | exact Hj].
      - split; cbn [owned decode]; [apply S_panics, X_panic; discriminate | apply S_vec; auto].
      - apply S_vec; auto.
      - apply S_vec; auto.
      - apply S_sized_slice; auto.
      - rewrite decode_owned. apply S_map; auto.
      - apply S_bind; auto. intros a. apply S_map; auto.
      - apply S_bind; auto. intros a. apply S_map; auto.
      - apply S_bound; auto.
      - apply S_hash_map; auto.
      - apply S_hash_set; auto.
    Qed.

    Lemma def_next k : inhabited_def (defs k) = true -> (forall j, enters defs k j -> Safe (S c) (decode (env j))) ->
      Safe (S c) (decode (inst_def env (defs k))).
    Proof.
      intros Hi He. unfold enters in He. destruct (defs k) as [ts|r vs]; cbn [inst_def decode inhabited_def] in *.
      - apply S_map; [apply L_fields, local_decode_all|]. apply fields_next; [|exact Hi|].
        + apply Forall_forall. intros t _. apply inst_next.
        + intros j Hj. apply He. exists ts. auto.
      - apply S_enum; [apply variants_local|]. rewrite map_map. apply forall_map, Forall_forall. intros x Hx. cbn [snd]. apply forall_map, forall_map, Forall_forall.
        intros t Ht. apply (@inst_safe env Hn c t Hv). rewrite forallb_forall in Hi. specialize (Hi x Hx). rewrite forallb_forall in Hi. apply Hi, Ht.
    Qed.
  End Next.
End Defs.

(* ---- only the definitions that are mentioned matter *)
Fixpoint mentions (t : rty) : list nat :=
  match t with
  | RConst _ => []
  | RVar k => [k]
  | RTuple ts => flat_map mentions ts
  | RHashMap k v => mentions k ++ mentions v
  | ROption t | RArray t _ | RSlice t | RVec t | RLinked t | RSizedSlice t _ | RWrap _ t | RCow t | RRefCell t | RLock _ t
  | RRange t | RRangeInclusive t | RRangeFrom t | RRangeTo t | RRangeToInclusive t | RBound t | RHashSet t => mentions t
  end.
Definition mentions_def (d : rdef) : list nat :=
  match d with RStruct ts => flat_map mentions ts | REnum _ vs => flat_map (fun x => flat_map mentions (snd x)) vs end.

Lemma inst_ext env env' t : (forall k, In k (mentions t) -> env k = env' k) -> inst env t = inst env' t.
Proof.
  induction t using rty_ind_strong; cbn [mentions inst]; intros He; try (f_equal; auto; fail).
  - apply He. left. reflexivity.
  - f_equal. induction H as [|t ts Ht Hts IH]; [reflexivity|]. cbn [map flat_map] in *. rewrite Ht, IH; [reflexivity | |]; intros k Hk; apply He, in_or_app; auto.
  - rewrite IHt1, IHt2; [reflexivity | |]; intros k Hk; apply He, in_or_app; auto.
Qed.
Lemma insts_ext env env' ts : (forall k, In k (flat_map mentions ts) -> env k = env' k) -> map (inst env) ts = map (inst env') ts.
Proof.
  induction ts as [|t ts IH]; intros He; [reflexivity|]. cbn [map flat_map] in *. rewrite (@inst_ext env env' t), IH; [reflexivity | |]; intros k Hk; apply He, in_or_app; auto.
Qed.
Lemma inst_def_ext env env' d : (forall k, In k (mentions_def d) -> env k = env' k) -> inst_def env d = inst_def env' d.
Proof.
  destruct d as [ts|r vs]; cbn [mentions_def inst_def]; intros He; [f_equal; apply insts_ext, He|]. f_equal. induction vs as [|x vs IH]; [reflexivity|].
  cbn [map flat_map] in *. rewrite (@insts_ext env env' (snd x)), IH; [reflexivity | |]; intros k Hk; apply He, in_or_app; auto.
Qed.

Section Suffices.
  Variable defs : nat -> rdef.
  Hypothesis Hi : forall k, inhabited_def (defs k) = true.
  Hypothesis Hwf : well_founded (fun j k => enters defs k j).

  Lemma safe_more b k n m : Safe b (decode (unroll defs n k)) -> (n <= m)%nat -> Safe b (decode (unroll defs m k)).
  Proof. intros H Hm i Hw Hb. rewrite (@depth_decode defs k n m i); [apply H; assumption | apply H; assumption | exact Hm]. Qed.
  Lemma safe_list b ks : (forall k, exists n, Safe b (decode (unroll defs n k))) -> exists n, forall k, In k ks -> Safe b (decode (unroll defs n k)).
  Proof.
    intros H. induction ks as [|k ks [n IH]]; [exists 0%nat; intros k []|]. destruct (H k) as [m Hm]. exists (Nat.max n m). intros j [<-|Hj].
    - apply (safe_more _ Hm). lia.
    - apply (safe_more _ (IH j Hj)). lia.
  Qed.

  (* without endless chains, being silent and being entered are decidable *)
  Lemma silent_dec t : (forall j, Enters defs t j -> Silent defs (RVar j) \/ ~ Silent defs (RVar j)) -> Silent defs t \/ ~ Silent defs t.
  Proof.
    induction t using rty_ind_strong; intros Hd;
      try (right; intros HS; inversion HS; fail);
      try (destruct IHt as [Ht|Ht]; [intros j Hj; apply Hd; constructor; exact Hj | left; constructor; exact Ht |
        right; intros HS; apply Ht; inversion HS; assumption]).
    - destruct (no_octets t) eqn:E; [left; constructor; exact E | right; intros HS; inversion HS; congruence].
    - apply Hd. constructor.
    - induction H as [|t ts Ht Hts IH]; [left; constructor|].
      destruct Ht as [Ht|Ht]; [intros j Hj; apply Hd, En_first, Hj | | right; intros HS; apply Ht; inversion HS; assumption].
      destruct IH as [IH|IH]; [intros j Hj; apply Hd, En_later; assumption | left; constructor; assumption |
        right; intros HS; apply IH; inversion HS; assumption].
    - destruct n as [|n]; [left; apply Si_array_empty|].
      destruct IHt as [Ht|Ht]; [intros j Hj; apply Hd, En_array; [lia | exact Hj] | left; apply Si_array; exact Ht|].
      right. intros HS. apply Ht. inversion HS. assumption.
  Qed.
  Lemma silent_var_dec k : Silent defs (RVar k) \/ ~ Silent defs (RVar k).
  Proof.
    induction k as [k IH] using (well_founded_ind Hwf). destruct (defs k) as [ts|r vs] eqn:E.
    - destruct (@silent_dec (RTuple ts)) as [H|H].
      + intros j Hj. apply IH. exists ts. auto.
      + left. apply (@Si_struct defs k ts E H).
      + right. intros HS. inversion HS as [|? us Hk Hus| | | | | | | | | | | | |]; subst. apply H. congruence.
    - right. intros HS. inversion HS as [|? us Hk Hus| | | | | | | | | | | | |]; subst. congruence.
  Qed.
  Lemma enters_ty_dec t j : Enters defs t j \/ ~ Enters defs t j.
  Proof.
    induction t using rty_ind_strong;
      try (right; intros HE; inversion HE; fail);
      try (destruct IHt as [Ht|Ht]; [left; constructor; exact Ht | right; intros HE; apply Ht; inversion HE; assumption]).
    - destruct (Nat.eq_dec k j) as [->|Hne]; [left; constructor | right; intros HE; inversion HE; congruence].
    - induction H as [|t ts Ht Hts IH]; [right; intros HE; inversion HE|]. destruct Ht as [Ht|Ht]; [left; apply En_first, Ht|].
      destruct (@silent_dec t (fun j _ => silent_var_dec j)) as [Hs|Hs].
      + destruct IH as [IH|IH]; [left; apply En_later; assumption|]. right. intros HE. inversion HE; subst; auto.
      + right. intros HE. inversion HE; subst; auto.
    - destruct n as [|n]; [right; intros HE; inversion HE; lia|].
      destruct IHt as [Ht|Ht]; [left; apply En_array; [lia | exact Ht] | right; intros HE; apply Ht; inversion HE; assumption].
  Qed.
  Lemma enters_dec k j : enters defs k j \/ ~ enters defs k j.
  Proof.
    unfold enters. destruct (defs k) as [ts|r vs]; [|right; intros (ts & H & _); discriminate].
    destruct (enters_ty_dec (RTuple ts) j) as [H|H]; [left; exists ts; auto | right; intros (us & Hu & He); apply H; congruence].
  Qed.

  Lemma safe_list_some b k ks : (forall j, enters defs k j -> exists n, Safe b (decode (unroll defs n j))) ->
    exists n, forall j, In j ks -> enters defs k j -> Safe b (decode (unroll defs n j)).
  Proof.
    intros H. induction ks as [|j ks [n IH]]; [exists 0%nat; intros j []|]. destruct (enters_dec k j) as [Hj|Hj].
    - destruct (H j Hj) as [m Hm]. exists (Nat.max n m). intros l [<-|Hl] He.
      + apply (safe_more _ Hm). lia.
      + apply (safe_more _ (IH l Hl He)). lia.
    - exists n. intros l [<-|Hl] He; [contradiction | auto].
  Qed.

  Lemma enters_mentions_ty t j : Enters defs t j -> In j (mentions t).
  Proof. induction 1; cbn [mentions flat_map] in *; try assumption; try (apply in_or_app; auto). left. reflexivity. Qed.
  Lemma enters_mentions k j : enters defs k j -> In j (mentions_def (defs k)).
  Proof. intros (ts & -> & He). apply enters_mentions_ty in He. exact He. Qed.

  Lemma safe_all b : forall k, exists n, Safe b (decode (unroll defs n k)).
  Proof.
    induction b as [|c IHc]; [intros k; exists 0%nat; apply S_zero|].
    intros k. induction k as [k IHk] using (well_founded_ind Hwf).
    destruct (@safe_list c (mentions_def (defs k)) IHc) as [n1 H1].
    destruct (@safe_list_some (S c) k (mentions_def (defs k)) IHk) as [n2 H2].
    set (n := Nat.max n1 n2). exists (S n). cbn [unroll].
    set (env := fun j => if in_dec Nat.eq_dec j (mentions_def (defs k)) then unroll defs n j else TInt U8).
    assert (Hin : forall j, In j (mentions_def (defs k)) -> env j = unroll defs n j)
      by (intros j Hj; unfold env; destruct (in_dec Nat.eq_dec j (mentions_def (defs k))); [reflexivity | contradiction]).
    rewrite (@inst_def_ext (unroll defs n) env (defs k)) by (intros j Hj; symmetry; apply Hin, Hj).
    apply (@def_next defs env).
    - intros j. unfold env. destruct (in_dec Nat.eq_dec j (mentions_def (defs k))); [apply unroll_nominal | reflexivity].
    - intros j. unfold env. destruct (in_dec Nat.eq_dec j (mentions_def (defs k))); [apply quiet_unroll|].
      intros HQ. exfalso. revert HQ. apply Q_eats. apply (eats_sound (TInt U8)). reflexivity.
    - intros j. unfold env. destruct (in_dec Nat.eq_dec j (mentions_def (defs k))) as [Hj|Hj].
      + apply (safe_more _ (H1 j Hj)). lia.
      + apply S_panics. apply (closed_panics (TInt U8)). reflexivity.
    - apply Hi.
    - intros j Hj. pose proof (enters_mentions Hj) as Hm. rewrite (Hin j Hm). apply (safe_more _ (H2 j Hm Hj)). lia.
  Qed.
End Suffices.

Lemma returns_exactly defs : (forall k, inhabited_def (defs k) = true) ->
  ((forall k i, in_bounds i -> exists n, depth_suffices defs k n i) <-> well_founded (fun j k => enters defs k j)).
Proof.
  intros Hi. split.
  - intros H k. destruct (H k (input_new [])) as [n Hn]; [apply Nat.le_refl|]. apply (suffices_acc Hn).
  - intros Hwf k i Hw. destruct (@safe_all defs Hi Hwf (S (length (rest i))) k) as [n Hn]. exists n. apply Hn; [exact Hw | lia].
Qed.
