(* Recursive types: C92-C94. *)
From Coq Require Import Lia ZifyBool ZifyNat ZifyN.
From Verif Require Import Base BaseFacts Streams StreamFacts Utf8 Utf8Facts Types TypesFacts Traits Encode Decode Spec SpecCalls SpecDecode SpecValues
  StreamProofs DecodeFacts DecodeLocal AcceptFacts PanicProofs RoundTrip Recursive SpecRecursive RecursiveFacts.
Set Implicit Arguments.

(* ---- A successful decoder moved forward *)
Definition Eats {A} (m : D A) : Prop := forall i i' a, wf_in i -> m i = (i', Ok a) -> (i_pos i < i_pos i')%nat.

Lemma N_read n : (0 < n)%nat -> Eats (dread n).
Proof.
  intros Hn i i' a Hw Hm. destruct (Nat.leb_spec n (length (rest i))) as [H|H].
  - rewrite dread_ok in Hm by assumption. injection Hm as <- <-. cbn [i_pos]. lia.
  - rewrite dread_short in Hm by assumption. discriminate.
Qed.
Lemma N_read_into n : (0 < n)%nat -> Eats (dread_into n).
Proof. intros Hn i i' a Hw Hm. rewrite dread_into_read in Hm. apply (N_read Hn Hw Hm). Qed.
Lemma N_bind_l {A B} (m : D A) (k : A -> D B) : Eats m -> (forall a, Local (k a)) -> Local m -> Eats (dbind m k).
Proof.
  intros Hm Hk Hl i i' b Hw H. unfold dbind in H. destruct (m i) as [i1 [a|e|p]] eqn:E; try discriminate.
  destruct (local_forward Hl Hw E) as (_ & _ & Hw1). pose proof (Hm _ _ _ Hw E).
  destruct (local_forward (Hk a) Hw1 H) as (_ & ? & _). lia.
Qed.
Lemma N_bind_r {A B} (m : D A) (k : A -> D B) : Local m -> (forall a, Eats (k a)) -> Eats (dbind m k).
Proof.
  intros Hl Hk i i' b Hw H. unfold dbind in H. destruct (m i) as [i1 [a|e|p]] eqn:E; try discriminate.
  destruct (local_forward Hl Hw E) as (_ & ? & Hw1). pose proof (Hk _ _ _ _ Hw1 H). lia.
Qed.
Lemma N_map {A B} (f : A -> B) (m : D A) : Eats m -> Eats (dmap f m).
Proof.
  intros Hm i i' b Hw H. unfold dmap, dbind in H. destruct (m i) as [i1 [a|e|p]] eqn:E; try discriminate.
  injection H as <- <-. apply (Hm _ _ _ Hw E).
Qed.
Lemma N_map_err {A} f (m : D A) : Eats m -> Eats (dmap_err f m).
Proof.
  intros Hm i i' b Hw H. unfold dmap_err in H. destruct (m i) as [i1 [a|e|p]] eqn:E; try discriminate.
  injection H as <- <-. apply (Hm _ _ _ Hw E).
Qed.
Lemma N_panic {A} p : Eats (@dpanic A p).
Proof. intros i i' a _ H. discriminate. Qed.
Lemma N_unsigned w : (0 < w)%nat -> Eats (dec_unsigned w).
Proof. intros H. apply N_map, N_read_into, H. Qed.
Lemma N_signed w : (0 < w)%nat -> Eats (dec_signed w).
Proof. intros H. apply N_map, N_read_into, H. Qed.
Lemma N_int i : Eats (dec_int i).
Proof. destruct i; cbn [dec_int isigned iwidth]; first [apply N_unsigned | apply N_signed]; cbn [iwidth]; lia. Qed.
Lemma N_items {A} (f : D A) n i : (0 < n)%nat -> Local f -> Eats f -> Eats (dec_items f n i).
Proof.
  intros Hn Hl Hf. destruct n as [|n]; [lia|]. cbn [dec_items].
  apply N_bind_l; [apply N_map_err, Hf | intros a; apply L_map, L_items, Hl | apply L_map_err, Hl].
Qed.
Lemma N_fields conv fs : Forall Local fs -> Exists Eats fs -> Eats (dec_fields conv fs).
Proof.
  intros Hl H. induction H as [f fs Hf | f fs Hfs IH]; inversion Hl; subst; cbn [dec_fields].
  - apply N_bind_l; [apply N_map_err, Hf | intros a; apply L_map, L_fields; assumption | apply L_map_err; assumption].
  - apply N_bind_r; [apply L_map_err; assumption | intros a; apply N_map, IH; assumption].
Qed.

Ltac eatl := apply N_bind_l; [|intros ?; locald | locald].
Ltac eat :=
  lazymatch goal with
  | |- Eats (dmap _ _) => apply N_map; eat
  | |- Eats (dbind _ _) => eatl; eat
  | |- Eats (dec_unsigned _) => apply N_unsigned; lia
  | |- Eats (dec_signed _) => apply N_signed; lia
  | |- Eats dec_usize => apply N_unsigned; lia
  | |- Eats dec_u8 => apply N_unsigned; lia
  | |- Eats (dec_int _) => apply N_int
  | |- Eats dec_bool => unfold dec_bool; eat
  | |- Eats dec_ip4 => unfold dec_ip4; eat
  | |- Eats dec_ip6 => unfold dec_ip6; eat
  | |- Eats (dec_vec _) => unfold dec_vec; eat
  | |- Eats dec_string => unfold dec_string; eat
  | |- Eats (dec_sized_str _) => unfold dec_sized_str; eat
  | |- Eats dec_cstring => unfold dec_cstring; eat
  | |- Eats (dec_sized_slice _ _) => unfold dec_sized_slice; eat
  | |- Eats dec_char => unfold dec_char; eat
  | |- Eats (dec_nonzero _) => unfold dec_nonzero; eat
  | |- Eats (dec_option _) => unfold dec_option; eat
  | |- Eats (dec_result _ _) => unfold dec_result; eat
  | |- Eats (dec_sock4 _) => unfold dec_sock4; eat
  | |- Eats (dec_sock6 _) => unfold dec_sock6; eat
  | |- Eats dec_ip_addr => unfold dec_ip_addr; eat
  | |- Eats dec_sock_addr => unfold dec_sock_addr; eat
  | |- Eats (dec_bound _) => unfold dec_bound; eat
  | |- Eats dec_duration => unfold dec_duration; eat
  | |- Eats dec_time => unfold dec_time; eat
  | |- Eats (dec_map _ _) => unfold dec_map; eat
  | |- Eats (dec_set _) => unfold dec_set; eat
  | |- Eats _ => try assumption
  end.

Lemma N_enum r ds fss : Forall (Forall Local) fss -> Eats (dec_enum r ds fss).
Proof.
  intros H. unfold dec_enum. destruct ds as [ds|]; [|apply N_panic]. apply N_bind_l; [apply N_int | intros d | apply L_int].
  destruct (find_disc d ds 0) as [i|]; [|apply L_error]. destruct (nth_error fss i) as [fs|] eqn:E; [|apply L_panic].
  apply L_map, L_fields. rewrite Forall_forall in H. apply H. eapply nth_error_In. exact E.
Qed.
Lemma variants_local (vs : list (option Z * list ty)) : Forall (Forall Local) (map (fun x => map decode (snd x)) vs).
Proof. apply forall_map, Forall_forall. intros x _. apply local_decode_all. Qed.

Lemma exists_eats ts : Forall (fun t => (eats t = true -> Eats (decode t)) /\ (eats (TCow t) = true -> Eats (decode (owned t)))) ts ->
  existsb eats ts = true -> Exists Eats (map decode ts).
Proof.
  induction 1 as [|t ts [Ht _] Hts IH]; cbn [existsb map]; [discriminate|]. intros H. apply orb_true_iff in H.
  destruct H as [H|H]; [apply Exists_cons_hd, Ht, H | apply Exists_cons_tl, IH, H].
Qed.
Lemma eats_sound t : (eats t = true -> Eats (decode t)) /\ (eats (TCow t) = true -> Eats (decode (owned t))).
Proof.
  induction t using ty_ind_strong;
    try (match goal with |- ?P /\ _ => enough P by (split; assumption) end);
    repeat match goal with H : _ /\ _ |- _ => destruct H end;
    cbn [eats owned decode]; intros;
    try (split; [discriminate|]); try discriminate; try (intros _; eat; fail); try (eat; fail); try (eat; auto; fail).
  - apply N_map, N_fields; [apply local_decode_all | apply exists_eats; assumption].
  - apply andb_true_iff in H1. destruct H1 as [H1 H2]. apply N_map, N_items; [apply Nat.ltb_lt, H1 | apply decode_local | auto].
  - rewrite decode_owned. apply N_map. auto.
  - apply N_map, N_fields; [apply local_decode_all | apply exists_eats; assumption].
  - apply N_enum, variants_local.
Qed.

Lemma reats_sound env t : (forall k, nominal (env k)) ->
  (reats t = true -> Eats (decode (inst env t))) /\ (reats (RCow t) = true -> Eats (decode (owned (inst env t)))).
Proof.
  intros Hn.
  induction t using rty_ind_strong; cbn [inst];
    try (match goal with |- ?P /\ _ => enough P by (split; assumption) end);
    repeat match goal with H : _ /\ _ |- _ => destruct H end;
    cbn [reats owned decode]; intros;
    try (split; [discriminate|]); try discriminate; try (intros _; eat; fail); try (eat; fail); try (eat; auto; fail).
  - split; apply eats_sound.
  - apply N_map, N_fields; [apply local_decode_all|]. clear - H H0.
    induction H as [|t ts [Ht _] Hts IH]; cbn [existsb map] in *; [discriminate|]. apply orb_true_iff in H0.
    destruct H0 as [H|H]; [apply Exists_cons_hd, Ht, H | apply Exists_cons_tl, IH, H].
  - apply andb_true_iff in H1. destruct H1 as [H1 H2]. apply N_map, N_items; [apply Nat.ltb_lt, H1 | apply decode_local | auto].
  - rewrite decode_owned. apply N_map. auto.
Qed.

(* ---- With fewer than [b] octets left the decoder does not run out of depth *)
Definition Safe {A} (b : nat) (m : D A) : Prop :=
  forall i, wf_in i -> (length (rest i) < b)%nat -> snd (m i) <> Panic PInfallible.

Lemma forward_rest {A} (m : D A) i i' r : Local m -> wf_in i -> m i = (i', r) -> wf_in i' /\ (length (rest i') <= length (rest i))%nat.
Proof. intros Hl Hw H. destruct (local_forward Hl Hw H) as (Hb & Hp & Hw'). split; [exact Hw'|]. rewrite !rest_length, Hb. lia. Qed.

Lemma S_mono {A} b b' (m : D A) : (b' <= b)%nat -> Safe b m -> Safe b' m.
Proof. intros Hb H i Hw Hi. apply H; [exact Hw | lia]. Qed.
Lemma S_zero {A} (m : D A) : Safe 0 m.
Proof. intros i _ H. lia. Qed.
Lemma S_panics {A} b (m : D A) : Panics m (fun _ p => p <> PInfallible) -> Safe b m.
Proof. intros H i Hw _ E. destruct (m i) as [i' r] eqn:Em. cbn [snd] in E. subst r. apply (H _ _ _ Hw Em). reflexivity. Qed.
Lemma S_ok {A} b (a : A) : Safe b (dok a).
Proof. intros i _ _ H. discriminate. Qed.
Lemma S_error {A} b e : Safe b (@derror A e).
Proof. intros i _ _ H. discriminate. Qed.
Lemma S_bind {A B} b (m : D A) (k : A -> D B) : Local m -> Safe b m -> (forall a, Safe b (k a)) -> Safe b (dbind m k).
Proof.
  intros Hl Hm Hk i Hw Hi. unfold dbind. pose proof (Hm i Hw Hi) as Hs. destruct (m i) as [i1 [a|e|p]] eqn:E; cbn [snd] in *; try congruence.
  destruct (forward_rest Hl Hw E) as [Hw1 Hr]. apply Hk; [exact Hw1 | lia].
Qed.
Lemma S_bind_eat {A B} c (m : D A) (k : A -> D B) : Local m -> Eats m -> Safe (S c) m -> (forall a, Safe c (k a)) -> Safe (S c) (dbind m k).
Proof.
  intros Hl He Hm Hk i Hw Hi. unfold dbind. pose proof (Hm i Hw Hi) as Hs. destruct (m i) as [i1 [a|e|p]] eqn:E; cbn [snd] in *; try congruence.
  destruct (local_forward Hl Hw E) as (Hb & _ & Hw1). pose proof (He _ _ _ Hw E) as Hp.
  apply Hk; [exact Hw1|]. rewrite rest_length in *. unfold wf_in in *. rewrite Hb in *. lia.
Qed.
Lemma S_map {A B} b (f : A -> B) m : Local m -> Safe b m -> Safe b (dmap f m).
Proof. intros Hl H. apply S_bind; [exact Hl | exact H | intros a; apply S_ok]. Qed.
Lemma S_map_err {A} b f (m : D A) : Safe b m -> Safe b (dmap_err f m).
Proof.
  intros H i Hw Hi. pose proof (H i Hw Hi) as Hs. unfold dmap_err. destruct (m i) as [i1 [a|e|p]]; cbn [snd] in *; congruence.
Qed.
Lemma S_items {A} b (f : D A) n : Local f -> Safe b f -> forall i, Safe b (dec_items f n i).
Proof.
  intros Hl Hf. induction n as [|n IH]; intros i; cbn [dec_items]; [apply S_ok|].
  apply S_bind; [apply L_map_err, Hl | apply S_map_err, Hf | intros a; apply S_map; [apply L_items, Hl | apply IH]].
Qed.
Lemma S_fields b conv fs : Forall Local fs -> Forall (Safe b) fs -> Safe b (dec_fields conv fs).
Proof.
  intros Hl H. induction H as [|f fs Hf Hfs IH]; cbn [dec_fields]; [apply S_ok|]. inversion Hl; subst.
  apply S_bind; [apply L_map_err; assumption | apply S_map_err, Hf | intros a; apply S_map; [apply L_fields; assumption | apply IH; assumption]].
Qed.
Lemma S_entries b fk fv n : Local fk -> Local fv -> Safe b fk -> Safe b fv -> forall i acc, Safe b (dec_entries fk fv n i acc).
Proof.
  intros Lk Lv Hk Hv. induction n as [|n IH]; intros i acc; cbn [dec_entries]; [apply S_ok|].
  apply S_bind; [apply L_map_err, Lk | apply S_map_err, Hk | intros k].
  apply S_bind; [apply L_map_err, Lv | apply S_map_err, Hv | intros v; apply IH].
Qed.
Lemma S_keys b fk n : Local fk -> Safe b fk -> forall i acc, Safe b (dec_keys fk n i acc).
Proof.
  intros Lk Hk. induction n as [|n IH]; intros i acc; cbn [dec_keys]; [apply S_ok|].
  apply S_bind; [apply L_map_err, Lk | apply S_map_err, Hk | intros k; apply IH].
Qed.

Definition no_bottom : nat -> panic -> Prop := fun _ p => p <> PInfallible.
Lemma no_bottom_short c p : too_short c p -> no_bottom c p.
Proof. intros (e & -> & _) H. discriminate. Qed.

(* a number of at least one octet, then the rest *)
Lemma S_usize {A} c (k : Z -> D A) : (forall z, Safe c (k z)) -> Safe (S c) (dbind dec_usize k).
Proof.
  intros H. apply S_bind_eat; [local | eat | apply S_panics; apply X_unsigned; exact no_bottom_short | exact H].
Qed.
Lemma S_u8 {A} c (k : Z -> D A) : (forall z, Safe c (k z)) -> Safe (S c) (dbind dec_u8 k).
Proof.
  intros H. apply S_bind_eat; [local | eat | apply S_panics; apply X_unsigned; exact no_bottom_short | exact H].
Qed.
Lemma S_disc {A} r c (k : Z -> D A) : (forall z, Safe c (k z)) -> Safe (S c) (dbind (dec_int r) k).
Proof.
  intros H. apply S_bind_eat; [local | eat | apply S_panics; apply X_int; exact no_bottom_short | exact H].
Qed.
Lemma S_vec c f : Local f -> Safe c f -> Safe (S c) (dec_vec f).
Proof. intros Hl H. apply S_usize. intros z. apply S_map; [apply L_items, Hl | apply S_items; assumption]. Qed.
Lemma S_sized_slice c f n : Local f -> Safe c f -> Safe (S c) (dec_sized_slice f n).
Proof.
  intros Hl H. apply S_usize. intros z. destruct (n <? Z.to_nat z)%nat; [apply S_error|].
  apply S_map; [apply L_items, Hl | apply S_items; assumption].
Qed.
Lemma S_option c f : Local f -> Safe c f -> Safe (S c) (dec_option f).
Proof.
  intros Hl H. unfold dec_option. apply S_bind_eat; [local | eat | |].
  - apply S_panics. apply X_map; [local | apply X_unsigned; exact no_bottom_short].
  - intros z. destruct z; [apply S_map; assumption | apply S_ok].
Qed.
Lemma S_bound c f : Local f -> Safe c f -> Safe (S c) (dec_bound f).
Proof.
  intros Hl H. apply S_u8. intros d.
  repeat match goal with |- Safe _ (if ?b then _ else _) => destruct b end;
    first [apply S_ok | apply S_error | apply S_map; [apply L_map_err, Hl | apply S_map_err, H]].
Qed.
Lemma S_hash_map c fk fv : Local fk -> Local fv -> Safe c fk -> Safe c fv -> Safe (S c) (dec_map fk fv).
Proof. intros Lk Lv Hk Hv. apply S_usize. intros z. apply S_map; [apply L_entries; assumption | apply S_entries; assumption]. Qed.
Lemma S_hash_set c fk : Local fk -> Safe c fk -> Safe (S c) (dec_set fk).
Proof. intros Lk Hk. apply S_usize. intros z. apply S_map; [apply L_keys; assumption | apply S_keys; assumption]. Qed.
Lemma S_enum r c ds fss : Forall (Forall Local) fss -> Forall (Forall (Safe c)) fss -> Safe (S c) (dec_enum r ds fss).
Proof.
  intros Hl H. unfold dec_enum. destruct ds as [ds|]; [|apply S_panics, X_panic; discriminate]. apply S_disc. intros d.
  destruct (find_disc d ds 0) as [i|]; [|apply S_error]. destruct (nth_error fss i) as [fs|] eqn:E; [|apply S_panics, X_panic; discriminate].
  rewrite Forall_forall in H, Hl. apply nth_error_In in E. apply S_map; [apply L_fields, Hl, E | apply S_fields; [apply Hl, E | apply H, E]].
Qed.

(* a closed type without Infallible *)
Lemma closed_panics t : contains is_infallible t = false ->
  Panics (decode t) no_bottom /\ Panics (decode (owned t)) no_bottom.
Proof.
  pose proof no_bottom_short as HS.
  induction t using ty_ind_strong; cbn [contains is_infallible orb]; intros Hc;
    try (apply orb_false_iff in Hc; destruct Hc as [Hc1 Hc2]);
    repeat match goal with H : _ = false, H' : _ = false -> _ |- _ => specialize (H' H) end;
    repeat match goal with H : _ /\ _ |- _ => destruct H end;
    try (match goal with |- Panics (decode ?t) _ /\ Panics (decode (owned ?t)) _ => 
      enough (Panics (decode t) no_bottom) by (split; assumption) end);
    try (cbn [decode]; panics; fail); try discriminate.
  - cbn [decode]. apply X_map; [apply L_fields, local_decode_all|]. apply X_fields; [apply local_decode_all|]. apply forall_map.
    rewrite Forall_forall in *. intros t Ht. apply H; [exact Ht|]. destruct (contains is_infallible t) eqn:E; [|reflexivity].
    rewrite <- Hc. symmetry. apply existsb_exists. eauto.
  - split; cbn [owned decode]; [apply X_panic; discriminate | panics].
  - split; cbn [owned decode]; [apply X_panic; discriminate | panics].
  - split; cbn [owned decode]; [apply X_panic; discriminate | panics].
  - cbn [decode]. rewrite decode_owned. panics.
  - cbn [decode]. unfold dec_duration. apply X_bind; [local | panics | intros s]. apply X_bind; [local | panics | intros n].
    apply X_lift. intros c p Hp. unfold duration_new in Hp. destruct (n <? 1000000000)%Z; [discriminate|].
    destruct (s + n / 1000000000 <? 2 ^ 64)%Z; [discriminate|]. injection Hp as <-. discriminate.
  - cbn [decode]. apply X_map; [apply L_fields, local_decode_all|]. apply X_fields; [apply local_decode_all|]. apply forall_map.
    rewrite Forall_forall in *. intros t Ht. apply H; [exact Ht|]. destruct (contains is_infallible t) eqn:E; [|reflexivity].
    rewrite <- Hc. symmetry. apply existsb_exists. eauto.
  - cbn [decode]. unfold dec_enum. destruct (discriminants (map fst vs)) as [ds|]; [|apply X_panic; discriminate].
    apply X_bind; [local | panics|]. intros d. destruct (find_disc d ds 0) as [i|]; [|apply X_error].
    rewrite nth_error_map. destruct (nth_error vs i) as [x|] eqn:E; cbn [option_map]; [|apply X_panic; discriminate].
    apply X_map; [apply L_fields, local_decode_all|]. apply X_fields; [apply local_decode_all|]. apply forall_map.
    rewrite Forall_forall in *. intros t Ht. apply nth_error_In in E. specialize (H x E). rewrite Forall_forall in H. apply H; [exact Ht|].
    destruct (contains is_infallible t) eqn:Et; [|reflexivity]. rewrite <- Hc. symmetry. apply existsb_exists. exists x. split; [exact E|].
    apply existsb_exists. eauto.
Qed.

Lemma inhabited_all ts : forallb inhabited_parts ts = true -> Forall (fun t => inhabited_parts t = true) ts.
Proof. intros H. apply Forall_forall. rewrite forallb_forall in H. exact H. Qed.

Section InstSafe.
  Variable env : nat -> ty.
  Hypothesis Hn : forall k, nominal (env k).

  Lemma insts_local ts : Forall Local (map decode (map (inst env) ts)).
  Proof. apply local_decode_all. Qed.

  (* whatever is read first *)
  Lemma inst_safe b t : (forall k, Safe b (decode (env k))) -> inhabited_parts t = true ->
    Safe b (decode (inst env t)) /\ Safe b (decode (owned (inst env t))).
  Proof.
    intros Hv. destruct b as [|c]; [intros _; split; apply S_zero|].
    assert (Hc : forall A (m : D A), Safe (S c) m -> Safe c m) by (intros A m; apply S_mono; lia).
    pose proof decode_local as HL.
    induction t using rty_ind_strong; cbn [inhabited_parts inst]; intros Hi;
      try (apply andb_true_iff in Hi; destruct Hi as [Hi1 Hi2]);
      repeat match goal with H : _ = true, H' : _ = true -> _ |- _ => specialize (H' H) end;
      repeat match goal with H : _ /\ _ |- _ => destruct H end;
      try (match goal with |- ?P /\ _ => enough P by (split; assumption) end);
      cbn [decode].
    - apply negb_true_iff, closed_panics in Hi. split; apply S_panics, Hi.
    - rewrite Hn. split; apply Hv.
    - apply S_option; auto.
    - apply S_map; [apply L_fields, insts_local|]. apply S_fields; [apply insts_local|]. apply forall_map, forall_map.
      apply inhabited_all in Hi. eapply forall_mp; [|exact Hi]. eapply Forall_impl; [|exact H]. cbn beta. intros x Hx Hy. apply Hx, Hy.
    - apply S_map; [apply L_items, HL|]. apply S_items; auto.
    - split; cbn [owned decode]; [apply S_panics, X_panic; discriminate | apply S_vec; auto].
    - apply S_vec; auto.
    - apply S_vec; auto.
    - apply S_sized_slice; auto.
    - apply S_map; auto.
    - rewrite decode_owned. apply S_map; auto.
    - apply S_map; auto.
    - apply S_map; auto.
    - apply S_bind; auto. intros a. apply S_map; auto.
    - apply S_bind; auto. intros a. apply S_map; auto.
    - apply S_map; auto.
    - apply S_map; auto.
    - apply S_map; auto.
    - apply S_bound; auto.
    - apply S_hash_map; auto.
    - apply S_hash_set; auto.
  Qed.

  (* one octet more, if the definitions that come before an octet allow it *)
  Variable c : nat.
  Hypothesis Hv : forall k, Safe c (decode (env k)).

  Lemma before_safe conv ts :
    Forall (fun t => inhabited_parts t = true -> (forall j, In j (unguarded t) -> Safe (S c) (decode (env j))) -> Safe (S c) (decode (inst env t))) ts ->
    forallb inhabited_parts ts = true -> (forall j, In j (before unguarded ts) -> Safe (S c) (decode (env j))) ->
    Safe (S c) (dec_fields conv (map decode (map (inst env) ts))).
  Proof.
    induction 1 as [|t ts Ht Hts IH]; cbn [forallb before map dec_fields]; intros Hi Hj; [apply S_ok|].
    apply andb_true_iff in Hi. destruct Hi as [Hi1 Hi2].
    assert (H1 : Safe (S c) (decode (inst env t))) by (apply Ht; [exact Hi1 | intros j H; apply Hj, in_or_app; auto]).
    destruct (reats t) eqn:Er.
    - apply S_bind_eat; [apply L_map_err, decode_local | apply N_map_err, reats_sound; assumption | apply S_map_err, H1|].
      intros a. apply S_map; [apply L_fields, insts_local|]. apply S_fields; [apply insts_local|]. apply forall_map, forall_map.
      apply inhabited_all in Hi2. eapply Forall_impl; [|exact Hi2]. intros x Hx. apply inst_safe; assumption.
    - apply S_bind; [apply L_map_err, decode_local | apply S_map_err, H1|].
      intros a. apply S_map; [apply L_fields, insts_local|]. apply IH; [exact Hi2|]. intros j H. apply Hj, in_or_app. auto.
  Qed.

  Lemma inst_safe_next t : inhabited_parts t = true ->
    ((forall j, In j (unguarded t) -> Safe (S c) (decode (env j))) -> Safe (S c) (decode (inst env t))) /\
    ((forall j, In j (unguarded (RCow t)) -> Safe (S c) (decode (env j))) -> Safe (S c) (decode (owned (inst env t)))).
  Proof.
    pose proof decode_local as HL.
    assert (Hi0 : forall t, inhabited_parts t = true -> Safe c (decode (inst env t))) by (intros x Hx; apply inst_safe; assumption).
    induction t using rty_ind_strong; cbn [inhabited_parts inst]; intros Hi;
      try (apply andb_true_iff in Hi; destruct Hi as [Hi1 Hi2]);
      repeat match goal with H : _ = true, H' : _ = true -> _ |- _ => specialize (H' H) end;
      repeat match goal with H : _ /\ _ |- _ => destruct H end;
      try (match goal with |- ?P /\ _ => enough P by (split; assumption) end);
      cbn [decode unguarded].
    - apply negb_true_iff, closed_panics in Hi. split; intros _; apply S_panics, Hi.
    - rewrite Hn. split; intros H; apply H; left; reflexivity.
    - intros Hj. apply S_option; auto.
    - intros Hj. apply S_map; [apply L_fields, insts_local|]. apply before_safe; [|exact Hi | exact Hj].
      eapply Forall_impl; [|exact H]. cbn beta. intros x Hx Hy. apply Hx, Hy.
    - intros Hj. apply S_map; [apply L_items, HL|]. apply S_items; auto.
    - split; intros Hj; cbn [owned decode]; [apply S_panics, X_panic; discriminate | apply S_vec; auto].
    - intros Hj. apply S_vec; auto.
    - intros Hj. apply S_vec; auto.
    - intros Hj. apply S_sized_slice; auto.
    - intros Hj. apply S_map; auto.
    - intros Hj. rewrite decode_owned. apply S_map; auto.
    - intros Hj. apply S_map; auto.
    - intros Hj. apply S_map; auto.
    - intros Hj. apply S_bind; auto. intros a. apply S_map; auto.
    - intros Hj. apply S_bind; auto. intros a. apply S_map; auto.
    - intros Hj. apply S_map; auto.
    - intros Hj. apply S_map; auto.
    - intros Hj. apply S_map; auto.
    - intros Hj. apply S_bound; auto.
    - intros Hj. apply S_hash_map; auto.
    - intros Hj. apply S_hash_set; auto.
  Qed.

  Lemma inst_def_safe d : inhabited_def d = true -> (forall j, In j (unguarded_def d) -> Safe (S c) (decode (env j))) ->
    Safe (S c) (decode (inst_def env d)).
  Proof.
    destruct d as [ts|r vs]; cbn [inhabited_def unguarded_def inst_def decode]; intros Hi Hj.
    - apply S_map; [apply L_fields, insts_local|]. apply before_safe; [|exact Hi | exact Hj].
      apply Forall_forall. intros t _ Ht. apply inst_safe_next, Ht.
    - apply S_enum; [apply variants_local|]. apply forall_map, forall_map. rewrite forallb_forall in Hi.
      apply Forall_forall. intros x Hx. cbn [snd]. apply forall_map, forall_map. specialize (Hi x Hx). apply inhabited_all in Hi.
      eapply Forall_impl; [|exact Hi]. intros t Ht. apply inst_safe; assumption.
  Qed.
End InstSafe.

Lemma unroll_safe defs rank top : grounded defs rank top -> (forall k, inhabited_def (defs k) = true) ->
  forall n b k, (b * S top + rank k < n + S top)%nat -> Safe b (decode (unroll defs n k)).
Proof.
  intros Hg Hi. induction n as [|n IH]; intros b k Hb; (destruct b as [|c]; [apply S_zero|]); [cbn [Nat.mul] in Hb; lia|].
  cbn [unroll]. destruct (Hg k) as [Hr Hj]. apply inst_def_safe; [apply unroll_nominal | | apply Hi |].
  - intros j. destruct (Hg j) as [Hrj _]. apply IH. cbn [Nat.mul] in Hb. lia.
  - intros j Hin. specialize (Hj j Hin). apply IH. cbn [Nat.mul] in *. lia.
Qed.
