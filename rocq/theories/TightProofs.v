(* MAX_ENCODED_SIZE is attained, and types whose encodings all have that size: C78, C79. *)
From Coq Require Import Lia.
From Verif Require Import Base Streams Utf8 Types Encode Decode Sized Spec SpecCalls SpecDecode SpecSize SpecDerive
  BaseFacts TypesFacts Utf8Facts WireFacts AcceptFacts ValueProofs DecodeProofs DeriveProofs SizeProofs EncodeProofs EncodeFacts.
Set Implicit Arguments.
Local Open Scope N_scope.

(* ---- attained *)

Definition Has ch t n := exists v bs, wt t v /\ Wire ch t v bs /\ N.of_nat (length bs) = n.

Lemma has_attains ch t n : Has ch t n -> Attains ch t n.
Proof. intros (v & bs & Hv & Hw & Hl). exists v, bs. split; [exact Hv|]. split; [apply succeeds_appends, wire_succeeds; assumption | exact Hl]. Qed.
Lemma attains_has ch t n : Attains ch t n -> Has ch t n.
Proof. intros (v & bs & Hv & Ha & Hl). exists v, bs. split; [exact Hv|]. split; [apply appends_wire; assumption | exact Hl]. Qed.

Lemma has_int ch i : Has ch (TInt i) (int_size i) /\ Has ch (TNonZero i) (int_size i).
Proof.
  assert (H : WireInt i 1 (le_bytes (N.to_nat (int_size i)) 1)).
  { destruct i; try (apply WI_fixed; [discriminate | discriminate | apply le_repr_le_bytes]).
    - apply WI_usize; [lia | apply le_repr_le_bytes]. - apply WI_isize; [lia | apply le_repr_le_bytes]. }
  assert (Hin : in_ity i 1) by (unfold in_ity; destruct i; cbn; lia).
  split; exists (VInt 1), (le_bytes (N.to_nat (int_size i)) 1); (split; [cbn [wt]; try split; try assumption; lia|]);
    (split; [constructor; exact H | rewrite le_bytes_length; lia]).
Qed.

Lemma valid_ascii n : valid_utf8 (repeat x61 n).
Proof. exists (repeat 97%Z n). induction n as [|n [H1 H2]]; [split; [constructor | reflexivity]|]. cbn [repeat]. split; [constructor; [reflexivity | exact H1]|]. cbn [flat_map]. rewrite <- H2. reflexivity. Qed.

Lemma wire_repeat ch t v bs n : Wire ch t v bs -> WireItems ch t (repeat v n) (concat (repeat bs n)).
Proof. intros H. induction n as [|n IH]; cbn [repeat concat]; constructor; assumption. Qed.
Lemma concat_repeat_length {A} (x : list A) n : length (concat (repeat x n)) = (length x * n)%nat.
Proof. induction n as [|n IH]; cbn [repeat concat]; [cbn; lia|]. rewrite app_length, IH. lia. Qed.

Lemma exact_fields so ch ts ns : Forall (fun t => Exact so t -> forall n, max_size so t = Some n -> Has ch t n) ts -> Forall (Exact so) ts ->
  Forall2 (fun t m => max_size so t = Some m) ts ns -> Forall2 (Attains ch) ts ns.
Proof.
  intros IH Hx H. induction H as [|t n ts ns H1 H2 IH2]; [constructor|]. inversion IH; inversion Hx; subst.
  constructor; [apply has_attains; auto | apply IH2; assumption].
Qed.

Ltac from_part H := let v := fresh "v" in let bs := fresh "bs" in let Hv := fresh "Hv" in let Hw := fresh "Hw" in let Hl := fresh "Hl" in
  destruct H as (v & bs & Hv & Hw & Hl).

Ltac part IHt := match goal with
  | Hx : Exact _ ?t, H : context [max_size ?so ?t] |- _ =>
      let m := fresh "m" in destruct (max_size so t) as [m|]; [|discriminate]; cbn [option_map] in H; apply some_inj in H; subst;
      specialize (IHt Hx _ eq_refl); from_part IHt
  end.

Lemma exact_has so ch t : Exact so t -> forall n, max_size so t = Some n -> Has ch t n.
Proof.
  induction t using ty_ind_strong; cbn [Exact max_size]; intros Hx m Hm; try discriminate; try contradiction.
  - apply some_inj in Hm. subst. apply has_int.
  - apply some_inj in Hm. subst. exists (VInt 0), (le_bytes 4 0). repeat split; try (cbn; lia). constructor. apply le_repr_le_bytes.
  - apply some_inj in Hm. subst. exists (VInt 0), (le_bytes 8 0). repeat split; try (cbn; lia). constructor. apply le_repr_le_bytes.
  - apply some_inj in Hm. subst. exists (VBool true), [x01]. repeat split. constructor.
  - apply some_inj in Hm. subst. exists (VChar 97), (le_bytes 4 97). repeat split. constructor. apply le_repr_le_bytes.
  - apply some_inj in Hm. subst. exists VUnit, []. repeat split. constructor.
  - apply some_inj in Hm. subst. apply has_int.
  - part IHt. exists (VSome v), (x01 :: bs). repeat split; [exact Hv | constructor; exact Hw | cbn [length]; lia].
  - destruct Hx as (Ha & Hb & Hs).
    destruct (max_size so t1) as [x|]; [|discriminate]. destruct (max_size so t2) as [y|]; [|discriminate]. apply some_inj in Hm. subst.
    specialize (Hs _ _ eq_refl eq_refl). specialize (IHt1 Ha _ eq_refl). specialize (IHt2 Hb _ eq_refl).
    assert (E : (1 + (if so t2 <? so t1 then so t1 else so t2)) = 1 + N.max x y) by (destruct (N.ltb_spec (so t2) (so t1)); lia). rewrite E.
    destruct (N.le_ge_cases x y).
    + from_part IHt2. exists (VErr v), (x01 :: bs). repeat split; [exact Hv | constructor; exact Hw | cbn [length]; lia].
    + from_part IHt1. exists (VOk v), (x00 :: bs). repeat split; [exact Hv | constructor; exact Hw | cbn [length]; lia].
  - change (max_size so (TStruct ts) = Some m) in Hm. apply C40_struct_lemma in Hm. destruct Hm as (ns & Hn & ->). apply fold_and in Hx.
    pose proof (attains_has (C40_struct_attained_lemma (@exact_fields so ch ts ns H Hx Hn))) as (v & bs & Hv & Hw & Hl).
    inversion Hw; subst. eexists (VTuple _), bs. split; [exact Hv|]. split; [constructor; eassumption | exact Hl].
  - part IHt. exists (VSeq (repeat v n)), (concat (repeat bs n)). split; [|split].
    + cbn [wt]. split; [apply repeat_length|]. apply Forall_forall. intros y Hy. apply repeat_spec in Hy. subst. exact Hv.
    + constructor; [apply repeat_length | apply wire_repeat; exact Hw].
    + rewrite concat_repeat_length. lia.
  - apply some_inj in Hm. subst. exists (VStr (repeat x61 n)), (le_bytes 2 (Z.of_nat n) ++ repeat x61 n). split; [|split].
    + cbn [wt]. rewrite repeat_length. split; [lia | apply valid_ascii].
    + constructor; rewrite repeat_length; [lia|]. split; [exact Hx | apply le_repr_le_bytes].
    + rewrite app_length, repeat_length, le_bytes_length. lia.
  - part IHt. exists (VWrap v), bs. repeat split; [exact Hv | constructor; exact Hw | exact Hl].
  - part IHt. exists (VCow true v), bs. repeat split; [exact Hv | constructor; exact Hw | exact Hl].
  - part IHt. exists (VRefCell false v), bs. repeat split; [exact Hv | constructor; exact Hw | exact Hl].
  - part IHt. exists (VLock false v), bs. repeat split; [exact Hv | constructor; exact Hw | exact Hl].
  - apply some_inj in Hm. subst. exists (VDuration 0 0), (le_bytes 8 0 ++ le_bytes 4 0). repeat split; try (cbn; lia). constructor; apply le_repr_le_bytes.
  - apply some_inj in Hm. subst. exists (VTime 0 0), (le_bytes 8 0). repeat split; try (cbn; lia). constructor; [discriminate | apply le_repr_le_bytes].
  - apply some_inj in Hm. subst. exists (VIp4 (repeat x00 4)), (rev (repeat x00 4)). repeat split. constructor. reflexivity.
  - apply some_inj in Hm. subst. exists (VIp6 (repeat x00 16)), (rev (repeat x00 16)). repeat split. constructor. reflexivity.
  - apply some_inj in Hm. subst. exists (VIpV6 (repeat x00 16)), (x06 :: rev (repeat x00 16)). repeat split. constructor. reflexivity.
  - apply some_inj in Hm. subst. exists (VSock4 (repeat x00 4) 0), (rev (repeat x00 4) ++ le_bytes 2 0). repeat split; try (cbn; lia). constructor; [reflexivity | apply le_repr_le_bytes].
  - apply some_inj in Hm. subst. exists (VSock6 (repeat x00 16) 0 0 0), (rev (repeat x00 16) ++ le_bytes 2 0 ++ le_bytes 4 0 ++ le_bytes 4 0).
    repeat split; try (cbn; lia). constructor; [reflexivity | apply le_repr_le_bytes ..].
  - apply some_inj in Hm. subst. exists (VSockV6 (repeat x00 16) 0 0 0), (x06 :: rev (repeat x00 16) ++ le_bytes 2 0 ++ le_bytes 4 0 ++ le_bytes 4 0).
    repeat split; try (cbn; lia). constructor; [reflexivity | apply le_repr_le_bytes ..].
  - part IHt. exists (VRange v v), (bs ++ bs). repeat split; [exact Hv | exact Hv | constructor; exact Hw | rewrite app_length; lia].
  - part IHt. exists (VHalfRange v), bs. repeat split; [exact Hv | constructor; exact Hw | exact Hl].
  - apply some_inj in Hm. subst. exists VUnit, []. repeat split. constructor.
  - part IHt. exists (VRangeInclusive v v false), (bs ++ bs). repeat split; [exact Hv | exact Hv | constructor; exact Hw | rewrite app_length; lia].
  - part IHt. exists (VHalfRange v), bs. repeat split; [exact Hv | constructor; exact Hw | exact Hl].
  - part IHt. exists (VHalfRange v), bs. repeat split; [exact Hv | constructor; exact Hw | exact Hl].
  - part IHt. exists (VIncluded v), (x00 :: bs). repeat split; [exact Hv | constructor; exact Hw | cbn [length]; lia].
  - apply some_inj in Hm. subst. exists VUnit, []. repeat split. constructor.
  - change (max_size so (TStruct ts) = Some m) in Hm. apply C40_struct_lemma in Hm. destruct Hm as (ns & Hn & ->). apply fold_and in Hx.
    exact (attains_has (C40_struct_attained_lemma (@exact_fields so ch ts ns H Hx Hn))).
  - destruct Hx as (Hok & Hne & Hfit & Hx). change (max_size so (TEnum r vs) = Some m) in Hm. apply C40_enum_lemma in Hm. destruct Hm as (nss & Hn & ->).
    destruct vs as [|p vs]; [congruence|]. apply attains_has, C40_enum_attained_lemma; try assumption.
    clear - H Hx Hn. apply fold_and in Hx. remember (p :: vs) as l eqn:El. clear El. revert H Hx. induction Hn as [|x ns l nss H1 H2 IH]; intros HH Hx; constructor.
    + inversion HH; inversion Hx; subst. eapply exact_fields; [eassumption | apply fold_and; assumption | exact H1].
    + inversion HH; inversion Hx; subst. apply IH; assumption.
Qed.

Lemma C78_lemma so ch t n : max_size so t = Some n -> Exact so t -> Attains ch t n.
Proof. intros Hm Hx. apply has_attains, (@exact_has so); assumption. Qed.

(* ---- equal sizes *)

Ltac sizes := intros; try exact I; cbn [Uniform max_size] in *; try discriminate; try contradiction;
    repeat match goal with
      | H : le_repr _ _ _ |- _ => apply le_repr_len in H
      | H : WireInt _ _ _ |- _ => apply wireint_len in H
      | H : WireLen _ _ |- _ => destruct H as [? H]
      | H : Some _ = Some _ |- _ => apply some_inj in H; subst
      end; try optn; cbn [length] in *; rewrite ?app_length, ?rev_length; cbn [length] in *; rewrite ?app_length, ?rev_length; try lia;
    try (match goal with IH : Uniform _ _ -> forall n, Some ?k = Some n -> _, Hs : Uniform _ _ |- _ => specialize (IH Hs _ eq_refl); lia end);
    try (match goal with IH : Uniform _ _ -> forall n, ?x = Some n -> _, Hs : Uniform _ _, Hn : ?x = Some _ |- _ => specialize (IH Hs _ Hn); lia end).

(* the size of an enum whose variants are of equal size *)
Lemma uniform_enum so r (vs : list (option Z * list ty)) i e ts n : nth_error vs i = Some (e, ts) ->
  (forall x y, In x vs -> In y vs -> sum_opt (map (max_size so) (snd x)) = sum_opt (map (max_size so) (snd y))) ->
  max_opt (map (fun x => option_map (N.add (int_size r)) (sum_opt (map (max_size so) (snd x)))) vs) = Some n ->
  exists k, sum_opt (map (max_size so) ts) = Some k /\ n = int_size r + k.
Proof.
  intros Hi Heq Hm. pose proof (nth_error_In _ _ Hi) as Hin.
  pose proof (nth_error_map_some (fun x => option_map (N.add (int_size r)) (sum_opt (map (max_size so) (snd x)))) _ _ Hi) as Ey.
  destruct (max_opt_le _ Hm _ Ey) as (m & Hs & Hle). cbn [snd] in Hs.
  destruct (sum_opt (map (max_size so) ts)) as [k|] eqn:Ek; [|discriminate]. cbn [option_map] in Hs. apply some_inj in Hs. subst m.
  exists k. split; [reflexivity|].
  assert (Hall : Forall (fun x => sum_opt (map (max_size so) (snd x)) = Some k) vs).
  { apply Forall_forall. intros x Hx. rewrite (Heq x (e, ts) Hx Hin). exact Ek. }
  assert (Hup : n <= int_size r + k).
  { clear - Hall Hm. revert n Hm. induction Hall as [|x vs Hx Hall IH]; intros n Hm; cbn [map max_opt] in Hm.
    - apply some_inj in Hm. lia.
    - rewrite Hx in Hm. cbn [option_map] in Hm. destruct (max_opt _) as [m|]; [|discriminate]. apply some_inj in Hm. specialize (IH _ eq_refl). lia. }
  lia.
Qed.

Lemma wire_size so ch :
  (forall t v bs, Wire ch t v bs -> Uniform so t -> forall n, max_size so t = Some n -> N.of_nat (length bs) = n) /\
  (forall ts vs bs, WireFields ch ts vs bs -> Forall (Uniform so) ts -> forall n, sum_opt (map (max_size so) ts) = Some n -> N.of_nat (length bs) = n) /\
  (forall t vs bs, WireItems ch t vs bs -> Uniform so t -> forall n, max_size so t = Some n -> N.of_nat (length bs) = n * N.of_nat (length vs)) /\
  (forall k v l bs, WireEntries ch k v l bs -> True).
Proof.
  apply (@Wire_mutind ch
    (fun t v bs _ => Uniform so t -> forall n, max_size so t = Some n -> N.of_nat (length bs) = n)
    (fun ts vs bs _ => Forall (Uniform so) ts -> forall n, sum_opt (map (max_size so) ts) = Some n -> N.of_nat (length bs) = n)
    (fun t vs bs _ => Uniform so t -> forall n, max_size so t = Some n -> N.of_nat (length bs) = n * N.of_nat (length vs))
    (fun k v l bs _ => True)); sizes.
  - apply fold_and in H0. auto.
  - apply fold_and in H0. auto.
  - specialize (H H1 _ eq_refl). specialize (H0 H1 _ eq_refl). lia.
  - specialize (H H1 _ eq_refl). specialize (H0 H1 _ eq_refl). lia.
  - destruct H0 as [Heq Hu]. match goal with Hn : nth_error _ _ = Some (_, _) |- _ => destruct (@uniform_enum _ _ _ _ _ _ _ Hn Heq H1) as (k & Hk & ->); pose proof (nth_error_In _ _ Hn) as Hin end.
    apply fold_and in Hu. rewrite Forall_forall in Hu. specialize (Hu _ Hin). cbn [snd] in Hu. apply fold_and in Hu.
    specialize (H Hu _ Hk). lia.
  - cbn [map sum_opt] in *. match goal with H : Some _ = Some _ |- _ => apply some_inj in H; subst end. reflexivity.
  - cbn [map sum_opt] in H2. inversion H1; subst.
    destruct (max_size so t) as [x'|]; [|discriminate]. destruct (sum_opt (map (max_size so) ts)) as [k|]; [|discriminate].
    apply some_inj in H2. subst. specialize (H H5 _ eq_refl). specialize (H0 H6 _ eq_refl). lia.
  - specialize (H H1 _ H2). specialize (H0 H1 _ H2). lia.
Qed.

Lemma accept_size so :
  (forall t bs v, Accepts t bs v -> Uniform so t -> forall n, max_size so t = Some n -> N.of_nat (length bs) = n) /\
  (forall ts bs vs, AcceptsFields ts bs vs -> Forall (Uniform so) ts -> forall n, sum_opt (map (max_size so) ts) = Some n -> N.of_nat (length bs) = n) /\
  (forall t bs vs, AcceptsItems t bs vs -> Uniform so t -> forall n, max_size so t = Some n -> N.of_nat (length bs) = n * N.of_nat (length vs)) /\
  (forall k v bs l, AcceptsEntries k v bs l -> True).
Proof.
  apply (@Accepts_mutind
    (fun t bs v _ => Uniform so t -> forall n, max_size so t = Some n -> N.of_nat (length bs) = n)
    (fun ts bs vs _ => Forall (Uniform so) ts -> forall n, sum_opt (map (max_size so) ts) = Some n -> N.of_nat (length bs) = n)
    (fun t bs vs _ => Uniform so t -> forall n, max_size so t = Some n -> N.of_nat (length bs) = n * N.of_nat (length vs))
    (fun k v bs l _ => True)); sizes.
  - apply fold_and in H0. auto.
  - apply fold_and in H0. auto.
  - specialize (H H1 _ eq_refl). specialize (H0 H1 _ eq_refl). lia.
  - specialize (H H1 _ eq_refl). specialize (H0 H1 _ eq_refl). lia.
  - destruct H0 as [Heq Hu]. match goal with Hn : nth_error _ _ = Some (_, _) |- _ => destruct (@uniform_enum _ _ _ _ _ _ _ Hn Heq H1) as (k & Hk & ->); pose proof (nth_error_In _ _ Hn) as Hin end.
    apply fold_and in Hu. rewrite Forall_forall in Hu. specialize (Hu _ Hin). cbn [snd] in Hu. apply fold_and in Hu.
    specialize (H Hu _ Hk). lia.
  - apply H; destruct t; cbn [owned max_size] in *; try assumption; discriminate.
  - cbn [map sum_opt] in *. match goal with H : Some _ = Some _ |- _ => apply some_inj in H; subst end. reflexivity.
  - cbn [map sum_opt] in H2. inversion H1; subst.
    destruct (max_size so t) as [x'|]; [|discriminate]. destruct (sum_opt (map (max_size so) ts)) as [k|]; [|discriminate].
    apply some_inj in H2. subst. specialize (H H5 _ eq_refl). specialize (H0 H6 _ eq_refl). lia.
  - specialize (H H1 _ H2). specialize (H0 H1 _ H2). lia.
Qed.

Lemma C79_encode_lemma so ch t n v bs : max_size so t = Some n -> Uniform so t -> wt t v -> Appends (encode ch t v) bs (Ok tt) ->
  N.of_nat (length bs) = n.
Proof. intros Hm Hu Hv Ha. eapply (proj1 (wire_size so ch)); [apply appends_wire; eassumption | assumption | assumption]. Qed.

Lemma C79_decode_lemma so t n i i' v : max_size so t = Some n -> Uniform so t -> EnumsOk t -> in_bounds i ->
  decode t i = (i', Ok v) -> N.of_nat (input_position i') = N.of_nat (input_position i) + n.
Proof.
  intros Hm Hu He Hw Hd. destruct (@decode_exact t i i' v He Hw Hd) as (bs & post & Hun & Hi & Ha).
  pose proof (proj1 (accept_size so) _ _ _ Ha Hu _ Hm) as H. subst i'. unfold input_position. cbn [i_pos]. lia.
Qed.

Lemma wire_item so ch t n vs bs : WireItems ch t vs bs -> max_size so t = Some n -> Uniform so t ->
  forall k v, nth_error vs k = Some v -> Wire ch t v (firstn (N.to_nat n) (skipn (k * N.to_nat n) bs)).
Proof.
  intros H Hm Hu. induction H as [|t v vs x y H1 H2 IH]; intros k w Hk; [destruct k; discriminate|].
  pose proof (proj1 (wire_size so ch) _ _ _ H1 Hu _ Hm) as Hx. assert (Hl : length x = N.to_nat n) by lia.
  destruct k as [|k]; cbn [nth_error] in Hk.
  - injection Hk as <-. cbn [Nat.mul]. cbn [skipn]. rewrite <- Hl, firstn_app, Nat.sub_diag, firstn_all. cbn [firstn]. rewrite app_nil_r. exact H1.
  - replace (S k * N.to_nat n)%nat with (length x + k * N.to_nat n)%nat by lia. rewrite skipn_app, skipn_all2 by lia.
    replace (length x + k * N.to_nat n - length x)%nat with (k * N.to_nat n)%nat by lia. cbn [app]. apply IH; assumption.
Qed.

Lemma C79_array_lemma so ch t n m vs bs k v : max_size so t = Some n -> Uniform so t -> wt (TArray t m) (VSeq vs) ->
  Appends (encode ch (TArray t m) (VSeq vs)) bs (Ok tt) -> nth_error vs k = Some v ->
  Appends (encode ch t v) (firstn (N.to_nat n) (skipn (k * N.to_nat n) bs)) (Ok tt).
Proof.
  intros Hm Hu Hv Ha Hk. apply appends_wire in Ha; [|exact Hv]. inversion Ha; subst. cbn [wt] in Hv. destruct Hv as [_ Hv].
  rewrite Forall_forall in Hv. apply succeeds_appends, wire_succeeds; [|apply Hv; eapply nth_error_In; exact Hk].
  eapply wire_item; eassumption.
Qed.

Lemma C79_vec_lemma so ch t n vs bs k v : max_size so t = Some n -> Uniform so t -> wt (TVec t) (VSeq vs) ->
  Appends (encode ch (TVec t) (VSeq vs)) bs (Ok tt) -> nth_error vs k = Some v ->
  Appends (encode ch t v) (firstn (N.to_nat n) (skipn (2 + k * N.to_nat n) bs)) (Ok tt).
Proof.
  intros Hm Hu Hv Ha Hk. apply appends_wire in Ha; [|exact Hv]. inversion Ha; subst. cbn [wt] in Hv.
  match goal with H : WireLen _ ?l |- _ => destruct H as [_ Hl]; rename l into lb end.
  rewrite Forall_forall in Hv. apply succeeds_appends, wire_succeeds; [|apply Hv; eapply nth_error_In; exact Hk].
  apply le_repr_len in Hl. rewrite skipn_app, skipn_all2 by lia. replace (2 + k * N.to_nat n - length lb)%nat with (k * N.to_nat n)%nat by lia.
  eapply wire_item; eassumption.
Qed.

(* ---- not attained *)

Lemma C78_refutation so : so (TOption (TInt U32)) = 8 -> so TUnit = 0 ->
  (exists t n, t = TResult (TOption (TInt U32)) TUnit /\ max_size so t = Some n /\ (exists v, wt t v) /\ forall checks, ~ Attains checks t n) /\
  (exists t n, t = TEnum U8 [(None, []); (None, [TInt U64; TInfallible])] /\ max_size so t = Some n /\ (exists v, wt t v) /\
     forall checks, ~ Attains checks t n) /\
  (exists n, max_size so (TSizedStr n) = Some (2 + N.of_nat n) /\ forall checks, ~ Attains checks (TSizedStr n) (2 + N.of_nat n)).
Proof.
  intros H1 H2. split; [|split].
  - exists (TResult (TOption (TInt U32)) TUnit), 9. split; [reflexivity|]. split; [cbn [max_size]; rewrite H1, H2; reflexivity|]. split; [exists (VErr VUnit); exact I|].
    intros ch Ha. apply attains_has in Ha. destruct Ha as (v & bs & _ & Hw & Hl).
    inversion Hw; subst; match goal with H : Wire _ _ _ _ |- _ => inversion H; subst end; cbn [length] in Hl; try lia.
    match goal with H : Wire _ _ _ _ |- _ => inversion H; subst end.
    match goal with H : WireInt _ _ _ |- _ => apply wireint_len in H; cbn in H; lia end.
  - exists (TEnum U8 [(None, []); (None, [TInt U64; TInfallible])]), 9. split; [reflexivity|]. split; [reflexivity|].
    split. { exists (VEnum 0 []). cbn. split; [|exact I]. split; [repeat constructor; cbn; lia|]. repeat constructor; cbn; intuition discriminate. }
    intros ch Ha. apply attains_has in Ha. destruct Ha as (v & bs & _ & Hw & Hl). inversion Hw; subst.
    match goal with H : WireInt _ _ _ |- _ => apply wireint_len in H; cbn in H; rename H into Hd end.
    match goal with H : nth_error _ ?i = Some _ |- _ => destruct i as [|[|i]]; cbn in H; [| |destruct i; discriminate]; injection H as <- <- end.
    + match goal with H : WireFields _ [] _ _ |- _ => inversion H; subst end. rewrite app_nil_r in Hl. lia.
    + match goal with H : WireFields _ _ _ _ |- _ => inversion H; subst; clear H end.
      match goal with H : WireFields _ [TInfallible] _ _ |- _ => inversion H; subst; clear H end.
      match goal with H : Wire _ TInfallible _ _ |- _ => inversion H end.
  - exists (Z.to_nat 65536). split; [cbn [max_size]; f_equal; lia|]. intros ch Ha. apply attains_has in Ha. destruct Ha as (v & bs & _ & Hw & Hl).
    inversion Hw; subst. match goal with H : WireLen _ _ |- _ => destruct H as [H Hb]; apply le_repr_len in Hb end.
    rewrite app_length in Hl. lia.
Qed.
