(* What the largest encoding of a type is: C35, C78. *)
From Coq Require Import Lia ZifyBool ZifyNat ZifyN.
From Verif Require Import Base Streams Utf8 Types Encode Decode Sized Spec SpecCalls SpecDecode SpecSize SpecPeak SpecValues SpecDerive
  BaseFacts TypesFacts Utf8Facts WireFacts AcceptFacts ValueProofs DecodeProofs DeriveProofs SizeProofs EncodeProofs EncodeFacts EncodeCases TightProofs.
Set Implicit Arguments.
Local Open Scope N_scope.

(* ---- discriminants *)

Definition starting (prev : option Z) : Z := match prev with Some p => (p + 1)%Z | None => 0%Z end.

Lemma assigned_from_inv prev e vs i d : AssignedFrom prev (e :: vs) i d ->
  let d0 := match e with Some d => d | None => starting prev end in
  match i with O => d = d0 | S i => AssignedFrom (Some d0) vs i d end.
Proof.
  intros H. induction H as [i d H | Hp H | p Hp H | i d H Hi IH].
  - destruct i; cbn in H; [injection H as ->; reflexivity|]. constructor. exact H.
  - cbn in H. injection H as ->. subst prev. reflexivity.
  - cbn in H. injection H as ->. subst prev. reflexivity.
  - destruct i as [|i].
    + cbn in H. cbv zeta in IH |- *. rewrite IH. eapply AF_prev; [reflexivity | exact H].
    + apply AF_next; [exact H | exact IH].
Qed.

Lemma can_encode_fits r d : can_encode r d = true <-> int_fits r d.
Proof. destruct r; cbn [can_encode int_fits]; try tauto; lia. Qed.

Lemma variant_le r l : forall prev i e n d, nth_error l i = Some (e, Some n) -> AssignedFrom prev (map fst l) i d -> int_fits r d ->
  exists m, largest_variant r (starting prev) l = Some m /\ int_size r + n <= m.
Proof.
  induction l as [|[e0 s] l IH]; intros prev i e n d Hi Ha Hf; [destruct i; discriminate|].
  cbn [map fst] in Ha. apply assigned_from_inv in Ha. cbv zeta in Ha. cbn [largest_variant]. cbv zeta.
  set (d0 := match e0 with Some d => d | None => starting prev end) in *.
  destruct i as [|i]; cbn [nth_error] in Hi.
  - injection Hi as -> ->. subst d. apply can_encode_fits in Hf. rewrite Hf. cbn [option_map larger].
    destruct (largest_variant r (d0 + 1) l) as [k|]; eexists; (split; [reflexivity | lia]).
  - destruct (IH (Some d0) i e n d Hi Ha Hf) as (m & Hm & Hle). cbn [starting] in Hm. rewrite Hm.
    destruct (if can_encode r d0 then _ else _) as [k|]; cbn [larger]; eexists; (split; [reflexivity | lia]).
Qed.
Lemma variant_from r l : forall next m, largest_variant r next l = Some m ->
  exists i e n, nth_error l i = Some (e, Some n) /\ int_size r + n = m /\
    forall prev d, starting prev = next -> AssignedFrom prev (map fst l) i d -> int_fits r d.
Proof.
  induction l as [|[e0 s] l IH]; intros next m Hm; cbn [largest_variant] in Hm; [discriminate|]. cbv zeta in Hm.
  set (d0 := match e0 with Some d => d | None => next end) in *.
  destruct (largest_variant r (d0 + 1) l) as [k|] eqn:El.
  - destruct (IH _ _ El) as (i & e & n & Hi & Hn & Hf).
    assert (Hk : m = k -> exists i e n, nth_error ((e0, s) :: l) i = Some (e, Some n) /\ int_size r + n = m /\
      forall prev d, starting prev = next -> AssignedFrom prev (map fst ((e0, s) :: l)) i d -> int_fits r d).
    { intros ->. exists (S i), e, n. split; [exact Hi|]. split; [exact Hn|]. intros prev d Hs Ha. cbn [map fst] in Ha. apply assigned_from_inv in Ha. cbv zeta in Ha.
      rewrite Hs in Ha. fold d0 in Ha. eapply Hf; [|exact Ha]. reflexivity. }
    destruct (can_encode r d0) eqn:Ec; [|cbn [larger] in Hm; apply some_inj in Hm; auto].
    destruct s as [s|]; cbn [option_map larger] in Hm; apply some_inj in Hm; [|auto].
    destruct (N.max_spec (int_size r + s) k) as [[_ E]|[_ E]]; rewrite E in Hm; [auto|].
    exists 0%nat, e0, s. split; [reflexivity|]. split; [exact Hm|]. intros prev d Hs Ha. cbn [map fst] in Ha. apply assigned_from_inv in Ha. cbv zeta in Ha.
    rewrite Hs in Ha. fold d0 in Ha. subst d. apply can_encode_fits. exact Ec.
  - destruct (can_encode r d0) eqn:Ec; [|discriminate]. destruct s as [s|]; [|discriminate]. cbn [option_map larger] in Hm. apply some_inj in Hm.
    exists 0%nat, e0, s. split; [reflexivity|]. split; [exact Hm|]. intros prev d Hs Ha. cbn [map fst] in Ha. apply assigned_from_inv in Ha. cbv zeta in Ha.
    rewrite Hs in Ha. fold d0 in Ha. subst d. apply can_encode_fits. exact Ec.
Qed.

(* ---- no encoding is larger *)

Lemma wireint_fits r d bs : WireInt r d bs -> int_fits r d.
Proof. intros H. inversion H; subst; cbn [int_fits]; try lia. destruct r; cbn [int_fits]; try exact I; congruence. Qed.

Definition Small (p : option N) (bs : list byte) := exists n, p = Some n /\ N.of_nat (length bs) <= n.

Ltac small := intros; cbn [contains is_hash orb peak] in *; try discriminate;
    repeat match goal with
      | H : le_repr _ _ _ |- _ => apply le_repr_len in H
      | H : WireInt _ _ _ |- _ => pose proof (wireint_fits H); apply wireint_len in H
      | H : WireLen _ _ |- _ => destruct H as [? H]
      | H : (_ || _)%bool = false |- _ => apply orb_false_iff in H; destruct H
      end;
    repeat match goal with
      | IH : ?a = false -> Small _ _, H : ?a = false |- _ => specialize (IH H)
      end;
    repeat match goal with H : Small _ _ |- _ => let n := fresh "n" in let Hn := fresh "Hn" in destruct H as (n & Hn & ?); rewrite ?Hn end;
    try (eexists; split; [reflexivity|]; cbn [length or_zero larger option_map]; rewrite ?app_length, ?rev_length; cbn [length]; rewrite ?app_length, ?rev_length; lia).

Lemma wire_small ch :
  (forall t v bs, Wire ch t v bs -> contains is_hash t = false -> Small (peak t) bs) /\
  (forall ts vs bs, WireFields ch ts vs bs -> existsb (contains is_hash) ts = false -> Small (total (map peak ts)) bs) /\
  (forall t vs bs, WireItems ch t vs bs -> contains is_hash t = false ->
     N.of_nat (length bs) <= N.of_nat (length vs) * or_zero (peak t) /\ (vs <> [] -> peak t <> None)) /\
  (forall k v l bs, WireEntries ch k v l bs -> True).
Proof.
  apply (@Wire_mutind ch
    (fun t v bs _ => contains is_hash t = false -> Small (peak t) bs)
    (fun ts vs bs _ => existsb (contains is_hash) ts = false -> Small (total (map peak ts)) bs)
    (fun t vs bs _ => contains is_hash t = false -> N.of_nat (length bs) <= N.of_nat (length vs) * or_zero (peak t) /\ (vs <> [] -> peak t <> None))
    (fun k v l bs _ => True)); small.

  - destruct (peak e) as [m|]; (eexists; split; [reflexivity|]; cbn [length]; lia).
  - destruct (peak t) as [m|]; (eexists; split; [reflexivity|]; cbn [length]; lia).
  - eexists. split; [reflexivity|]. assert (n = n0) by congruence. subst. rewrite app_length. lia.
  - eexists. split; [reflexivity|]. assert (n = n0) by congruence. subst. rewrite app_length. lia.
  - match goal with Hv : nth_error vs i = Some (e, ts) |- _ =>
      pose proof (existsb_forall _ _ H0) as Hx; rewrite Forall_forall in Hx; specialize (Hx _ (nth_error_In _ _ Hv)); cbn [snd] in Hx;
      pose proof (nth_error_map_some (fun x => (fst x, total (map peak (snd x)))) _ _ Hv) as Hm end. cbn [fst snd] in Hm.
    destruct (H Hx) as (n & Hn & Hle). rewrite Hn in Hm.
    match goal with Ha : Assigned _ _ _ |- _ => apply assigned_from_none in Ha; rename Ha into Ha' end.
    assert (Em : map fst vs = map fst (map (fun x => (fst x, total (map peak (snd x)))) vs)) by (rewrite map_map; apply map_ext; reflexivity).
    rewrite Em in Ha'. match goal with Hf : int_fits r d |- _ => destruct (@variant_le r _ None i e n d Hm Ha' Hf) as (m & Hl & Hle') end.
    exists m. split; [exact Hl|]. rewrite app_length. lia.
  - destruct (H H0) as [Hle Hne]. subst n. destruct vs as [|v vs]; [exists 0; split; [reflexivity | cbn [length] in Hle; lia]|].
    destruct (peak t) as [m|]; [|destruct (Hne ltac:(discriminate) eq_refl)]. eexists. split; [reflexivity|]. cbn [or_zero] in Hle. exact Hle.
  - destruct (H H0) as [Hle Hne]. eexists. split; [reflexivity|]. rewrite app_length. nia.
  - destruct (H H0) as [Hle Hne]. eexists. split; [reflexivity|]. rewrite app_length. nia.
  - destruct (H H0) as [Hle Hne]. eexists. split; [reflexivity|]. rewrite app_length. nia.
  - destruct (H H0) as [Hle Hne]. eexists. split; [reflexivity|]. rewrite app_length. unfold up_to_65535. nia.
  - eexists. split; [reflexivity|]. rewrite app_length. unfold up_to_65535. lia.
  - cbn [map total fold_right]. change (fold_right _ (Some 0) (map peak ts)) with (total (map peak ts)). cbn [existsb] in H1. apply orb_false_iff in H1. destruct H1 as [H1 H2].
    destruct (H H1) as (n & -> & Hn). destruct (H0 H2) as (m & -> & Hm). eexists. split; [reflexivity|]. rewrite app_length. lia.
  - split; [cbn; lia | congruence].
  - destruct (H0 H1) as [Hle _]. rewrite Hn in Hle. cbn [or_zero] in *. split; [|discriminate]. rewrite app_length. cbn [length]. nia.
  - exact I.
  - exact I.
Qed.

(* ---- and one is as large *)

Lemma total_forall2 l n : total l = Some n -> exists ns, Forall2 (fun a k => a = Some k) l ns /\ sum ns = n.
Proof.
  revert n. induction l as [|a l IH]; intros n H.
  - injection H as <-. exists []. split; [constructor | reflexivity].
  - cbn [total fold_right] in H. change (fold_right _ (Some 0) l) with (total l) in H. destruct a as [a|]; [|discriminate].
    destruct (total l) as [k|]; [|discriminate]. injection H as <-. destruct (IH k eq_refl) as (ns & Hf & <-). exists (a :: ns).
    split; [constructor; [reflexivity | exact Hf] | reflexivity].
Qed.
Lemma peak_fields ch ts n : Forall (fun t => EnumsOk t -> forall n, peak t = Some n -> Has ch t n) ts -> Forall EnumsOk ts ->
  total (map peak ts) = Some n -> exists ns, Forall2 (Attains ch) ts ns /\ sum ns = n.
Proof.
  intros IH Hok Ht. destruct (total_forall2 _ Ht) as (ns & Hf & Hs). exists ns. split; [|exact Hs]. clear Ht Hs n.
  revert ns Hf. induction ts as [|t ts IHt]; intros ns Hf; cbn [map] in Hf; inversion Hf; subst; [constructor|].
  inversion IH; inversion Hok; subst. constructor; [apply has_attains; auto | apply IHt; assumption].
Qed.

Lemma has_nil_or ch t n k : (forall m, peak t = Some m -> Has ch t m) -> n = or_zero (peak t) ->
  exists vs bs, (length vs <= k)%nat /\ Forall (wt t) vs /\ WireItems ch t vs bs /\ N.of_nat (length bs) = N.of_nat k * n.
Proof.
  intros H ->. destruct (peak t) as [m|].
  - destruct (H m eq_refl) as (v & bs & Hv & Hw & Hl). exists (repeat v k), (concat (repeat bs k)). rewrite repeat_length. split; [lia|].
    split; [apply Forall_forall; intros y Hy; apply repeat_spec in Hy; subst; exact Hv|]. split; [apply wire_repeat; exact Hw|].
    rewrite concat_repeat_length. cbn [or_zero]. lia.
  - exists [], []. split; [cbn; lia|]. split; [constructor|]. split; [constructor|]. cbn. lia.
Qed.

Lemma attains_variant ch r vs i e ts n d : enum_ok r vs -> nth_error vs i = Some (e, ts) -> Assigned (map fst vs) i d -> int_fits r d ->
  (exists ns, Forall2 (Attains ch) ts ns /\ sum ns = n) -> Has ch (TEnum r vs) (int_size r + n).
Proof.
  intros Hok Hi Ha Hf (ns & Hat & Hn). destruct (attains_fields Hat) as (fs & bss & Hw & Hb & Hl).
  pose proof Hok as Hok'. unfold enum_ok in Hok'. destruct (discriminants (map fst vs)) as [ds|] eqn:Hd; [|contradiction]. destruct Hok' as [Hin' _].
  pose proof (proj2 (@discriminants_assigned _ _ _ _ Hd) Ha) as Ek. rewrite Forall_forall in Hin'. specialize (Hin' _ (nth_error_In _ _ Ek)).
  destruct (@Good_int ch r d Hin') as [db _ Hwi _ | ? ? Hx _ | ? _ Hlow _]; [|contradiction|discriminate].
  apply attains_has. exists (VEnum i fs), (db ++ concat bss). split; [|split].
  - cbn [wt]. split; [exact Hok|]. rewrite (nth_error_map_some (fun x => map wt (snd x)) _ _ Hi). cbn [snd]. apply all2_forall2. exact Hw.
  - apply C39_encode_lemma; [exact Hok|]. exists e, ts, d, db, bss. repeat split; assumption.
  - rewrite app_length. pose proof (wireint_len Hwi). unfold sum in *. lia.
Qed.

Lemma assigned_exists vs : forall i x, nth_error vs i = Some x -> exists d, Assigned vs i d.
Proof.
  intros i. induction i as [|i IH]; intros [d|] H; try (exists d; apply A_explicit; exact H).
  - exists 0%Z. apply A_first. exact H.
  - destruct (nth_error vs i) as [y|] eqn:E; [|apply nth_error_None in E; assert (nth_error vs (S i) <> None) by congruence; apply nth_error_Some in H0; lia].
    destruct (IH y eq_refl) as (d & Hd). exists (d + 1)%Z. apply A_next; assumption.
Qed.

Lemma wire_len n : (Z.of_nat n <= 65535)%Z -> WireLen n (le_bytes 2 (Z.of_nat n)).
Proof. intros H. split; [exact H | apply le_repr_le_bytes]. Qed.
Lemma full_exists : exists full, Z.of_nat full = 65535%Z.
Proof. exists (Z.to_nat 65535). rewrite Z2Nat.id; [reflexivity | discriminate]. Qed.

Ltac whole H := apply some_inj in H; subst.

Lemma peak_has ch t : EnumsOk t -> forall n, peak t = Some n -> Has ch t n.
Proof.
  destruct full_exists as (full & Hfull).
  induction t using ty_ind_strong; cbn [EnumsOk peak]; intros Hx m Hm; try discriminate.
  - whole Hm. apply has_int.
  - whole Hm. exists (VInt 0), (le_bytes 4 0). repeat split; try (cbn; lia). constructor. apply le_repr_le_bytes.
  - whole Hm. exists (VInt 0), (le_bytes 8 0). repeat split; try (cbn; lia). constructor. apply le_repr_le_bytes.
  - whole Hm. exists (VBool true), [x01]. repeat split. constructor.
  - whole Hm. exists (VChar 97), (le_bytes 4 97). repeat split. constructor. apply le_repr_le_bytes.
  - whole Hm. exists VUnit, []. repeat split. constructor.
  - whole Hm. apply has_int.
  - whole Hm. destruct (peak t) as [k|]; [|exists VNone, [x00]; repeat split; constructor].
    destruct (IHt Hx _ eq_refl) as (v & bs & Hv & Hw & Hl). exists (VSome v), (x01 :: bs). repeat split; [exact Hv | constructor; exact Hw | cbn [length or_zero]; lia].
  - destruct Hx as [Ha Hb]. specialize (IHt1 Ha). specialize (IHt2 Hb).
    assert (Ho : forall x, peak t1 = Some x -> Has ch (TResult t1 t2) (1 + x)).
    { intros x E. destruct (IHt1 _ E) as (v & bs & Hv & Hw & Hl). exists (VOk v), (x00 :: bs). repeat split; [exact Hv | constructor; exact Hw | cbn [length]; lia]. }
    assert (He : forall x, peak t2 = Some x -> Has ch (TResult t1 t2) (1 + x)).
    { intros x E. destruct (IHt2 _ E) as (v & bs & Hv & Hw & Hl). exists (VErr v), (x01 :: bs). repeat split; [exact Hv | constructor; exact Hw | cbn [length]; lia]. }
    destruct (peak t1) as [x|], (peak t2) as [y|]; cbn [larger option_map] in Hm; try discriminate; whole Hm; auto.
    destruct (N.max_spec x y) as [[_ ->]|[_ ->]]; auto.
  - apply fold_and in Hx. destruct (peak_fields H Hx Hm) as (ns & Hn & <-).
    pose proof (attains_has (C40_struct_attained_lemma Hn)) as (v & bs & Hv & Hw & Hl).
    inversion Hw; subst. eexists (VTuple _), bs. split; [exact Hv|]. split; [constructor; eassumption | exact Hl].
  - destruct n as [|n].
    + whole Hm. exists (VSeq []), []. split; [cbn; repeat constructor|]. split; [constructor; [reflexivity | constructor] | reflexivity].
    + destruct (peak t) as [k|]; [|discriminate]. cbn [option_map] in Hm. whole Hm. destruct (IHt Hx _ eq_refl) as (v & bs & Hv & Hw & Hl).
      exists (VSeq (repeat v (S n))), (concat (repeat bs (S n))). split; [|split].
      * cbn [wt]. split; [apply repeat_length|]. apply Forall_forall. intros y Hy. apply repeat_spec in Hy. subst. exact Hv.
      * constructor; [apply repeat_length | apply wire_repeat; exact Hw].
      * rewrite concat_repeat_length. lia.
  - whole Hm. destruct (@has_nil_or ch t _ full (IHt Hx) eq_refl) as (vs & bs & Hl & Hv & Hw & Hb).
    exists (VSeq vs), (le_bytes 2 (Z.of_nat (length vs)) ++ bs). split; [exact Hv|]. split; [constructor; [apply wire_len; lia | exact Hw]|].
    rewrite app_length, le_bytes_length. lia.
  - whole Hm. destruct (@has_nil_or ch t _ full (IHt Hx) eq_refl) as (vs & bs & Hl & Hv & Hw & Hb).
    exists (VSeq vs), (le_bytes 2 (Z.of_nat (length vs)) ++ bs). split; [exact Hv|]. split; [constructor; [apply wire_len; lia | exact Hw]|].
    rewrite app_length, le_bytes_length. lia.
  - whole Hm. destruct (@has_nil_or ch t _ full (IHt Hx) eq_refl) as (vs & bs & Hl & Hv & Hw & Hb).
    exists (VSeq vs), (le_bytes 2 (Z.of_nat (length vs)) ++ bs). split; [exact Hv|]. split; [constructor; [apply wire_len; lia | exact Hw]|].
    rewrite app_length, le_bytes_length. lia.
  - whole Hm. destruct (@has_nil_or ch t _ (Nat.min n full) (IHt Hx) eq_refl) as (vs & bs & Hl & Hv & Hw & Hb).
    exists (VSeq vs), (le_bytes 2 (Z.of_nat (length vs)) ++ bs). split; [cbn [wt]; split; [lia | exact Hv]|].
    split; [constructor; [lia | apply wire_len; lia | exact Hw]|]. rewrite app_length, le_bytes_length. unfold up_to_65535. nia.
  - whole Hm. exists (VStr (repeat x61 full)), (le_bytes 2 (Z.of_nat full) ++ repeat x61 full). split; [apply valid_ascii|].
    split; [constructor; rewrite repeat_length; apply wire_len; lia|]. rewrite app_length, repeat_length, le_bytes_length. lia.
  - whole Hm. exists (VStr (repeat x61 full)), (le_bytes 2 (Z.of_nat full) ++ repeat x61 full). split; [apply valid_ascii|].
    split; [constructor; rewrite repeat_length; apply wire_len; lia|]. rewrite app_length, repeat_length, le_bytes_length. lia.
  - whole Hm. exists (VStr (repeat x61 (Nat.min n full))), (le_bytes 2 (Z.of_nat (Nat.min n full)) ++ repeat x61 (Nat.min n full)). split; [|split].
    + cbn [wt]. rewrite repeat_length. split; [lia | apply valid_ascii].
    + constructor; rewrite repeat_length; [lia|]. apply wire_len; lia.
    + rewrite app_length, repeat_length, le_bytes_length. unfold up_to_65535. lia.
  - whole Hm. exists (VStr (repeat x61 full)), (le_bytes 2 (Z.of_nat full) ++ repeat x61 full). split; [cbn [wt]; intros Hi; apply repeat_spec in Hi; discriminate|].
    split; [constructor; rewrite repeat_length; apply wire_len; lia|]. rewrite app_length, repeat_length, le_bytes_length. lia.
  - whole Hm. exists (VStr (repeat x61 full)), (le_bytes 2 (Z.of_nat full) ++ repeat x61 full). split; [cbn [wt]; intros Hi; apply repeat_spec in Hi; discriminate|].
    split; [constructor; rewrite repeat_length; apply wire_len; lia|]. rewrite app_length, repeat_length, le_bytes_length. lia.
  - destruct (IHt Hx _ Hm) as (v & bs & Hv & Hw & Hl). exists (VWrap v), bs. repeat split; [exact Hv | constructor; exact Hw | exact Hl].
  - destruct (IHt Hx _ Hm) as (v & bs & Hv & Hw & Hl). exists (VCow true v), bs. repeat split; [exact Hv | constructor; exact Hw | exact Hl].
  - destruct (IHt Hx _ Hm) as (v & bs & Hv & Hw & Hl). exists (VRefCell false v), bs. repeat split; [exact Hv | constructor; exact Hw | exact Hl].
  - destruct (IHt Hx _ Hm) as (v & bs & Hv & Hw & Hl). exists (VLock false v), bs. repeat split; [exact Hv | constructor; exact Hw | exact Hl].
  - whole Hm. exists (VDuration 0 0), (le_bytes 8 0 ++ le_bytes 4 0). repeat split; try (cbn; lia). constructor; apply le_repr_le_bytes.
  - whole Hm. exists (VTime 0 0), (le_bytes 8 0). repeat split; try (cbn; lia). constructor; [discriminate | apply le_repr_le_bytes].
  - whole Hm. exists (VIp4 (repeat x00 4)), (rev (repeat x00 4)). repeat split. constructor. reflexivity.
  - whole Hm. exists (VIp6 (repeat x00 16)), (rev (repeat x00 16)). repeat split. constructor. reflexivity.
  - whole Hm. exists (VIpV6 (repeat x00 16)), (x06 :: rev (repeat x00 16)). repeat split. constructor. reflexivity.
  - whole Hm. exists (VSock4 (repeat x00 4) 0), (rev (repeat x00 4) ++ le_bytes 2 0). repeat split; try (cbn; lia). constructor; [reflexivity | apply le_repr_le_bytes].
  - whole Hm. exists (VSock6 (repeat x00 16) 0 0 0), (rev (repeat x00 16) ++ le_bytes 2 0 ++ le_bytes 4 0 ++ le_bytes 4 0).
    repeat split; try (cbn; lia). constructor; [reflexivity | apply le_repr_le_bytes ..].
  - whole Hm. exists (VSockV6 (repeat x00 16) 0 0 0), (x06 :: rev (repeat x00 16) ++ le_bytes 2 0 ++ le_bytes 4 0 ++ le_bytes 4 0).
    repeat split; try (cbn; lia). constructor; [reflexivity | apply le_repr_le_bytes ..].
  - destruct (peak t) as [k|]; [|discriminate]. cbn [option_map] in Hm. whole Hm. destruct (IHt Hx _ eq_refl) as (v & bs & Hv & Hw & Hl).
    exists (VRange v v), (bs ++ bs). repeat split; [exact Hv | exact Hv | constructor; exact Hw | rewrite app_length; lia].
  - destruct (IHt Hx _ Hm) as (v & bs & Hv & Hw & Hl). exists (VHalfRange v), bs. repeat split; [exact Hv | constructor; exact Hw | exact Hl].
  - whole Hm. exists VUnit, []. repeat split. constructor.
  - destruct (peak t) as [k|]; [|discriminate]. cbn [option_map] in Hm. whole Hm. destruct (IHt Hx _ eq_refl) as (v & bs & Hv & Hw & Hl).
    exists (VRangeInclusive v v false), (bs ++ bs). repeat split; [exact Hv | exact Hv | constructor; exact Hw | rewrite app_length; lia].
  - destruct (IHt Hx _ Hm) as (v & bs & Hv & Hw & Hl). exists (VHalfRange v), bs. repeat split; [exact Hv | constructor; exact Hw | exact Hl].
  - destruct (IHt Hx _ Hm) as (v & bs & Hv & Hw & Hl). exists (VHalfRange v), bs. repeat split; [exact Hv | constructor; exact Hw | exact Hl].
  - whole Hm. destruct (peak t) as [k|]; [|exists VUnbounded, [x02]; repeat split; constructor].
    destruct (IHt Hx _ eq_refl) as (v & bs & Hv & Hw & Hl). exists (VIncluded v), (x00 :: bs). repeat split; [exact Hv | constructor; exact Hw | cbn [length or_zero]; lia].
  - whole Hm. exists VUnit, []. repeat split. constructor.
  - whole Hm. exists VUnit, []. repeat split. constructor.
  - apply fold_and in Hx. destruct (peak_fields H Hx Hm) as (ns & Hn & <-). exact (attains_has (C40_struct_attained_lemma Hn)).
  - destruct Hx as [Hok Hx]. apply fold_and in Hx. destruct (variant_from _ _ _ Hm) as (i & e & n & Hi & <- & Hf).
    apply nth_error_map_inv in Hi. destruct Hi as ([e' ts] & Hi & E). cbn [fst snd] in E. injection E as <- Et. symmetry in Et.
    destruct (@assigned_exists (map fst vs) i e (nth_error_map_some fst _ _ Hi)) as (d & Hd).
    eapply attains_variant; [exact Hok | exact Hi | exact Hd | |].
    + apply (Hf None d eq_refl). rewrite map_map. apply assigned_from_none. exact Hd.
    + rewrite Forall_forall in H, Hx. pose proof (nth_error_In _ _ Hi) as Hin. specialize (H _ Hin). specialize (Hx _ Hin). cbn [snd] in H, Hx. apply fold_and in Hx.
      eapply peak_fields; eassumption.
Qed.

Lemma C78_largest_lemma ch t : contains is_hash t = false -> EnumsOk t ->
  match peak t with
  | Some n => Attains ch t n /\ Bounded ch t n
  | None => forall v bs, wt t v -> ~ Appends (encode ch t v) bs (Ok tt)
  end.
Proof.
  intros Hh He. assert (Hs : forall v bs, wt t v -> Appends (encode ch t v) bs (Ok tt) -> Small (peak t) bs).
  { intros v bs Hv Ha. eapply (proj1 (wire_small ch)); [apply appends_wire; eassumption | exact Hh]. }
  destruct (peak t) as [n|] eqn:E.
  - split; [apply has_attains, peak_has; assumption|]. intros v bs Hv Ha. destruct (Hs _ _ Hv Ha) as (k & Hk & Hle). injection Hk as <-. exact Hle.
  - intros v bs Hv Ha. destruct (Hs _ _ Hv Ha) as (k & Hk & _). discriminate.
Qed.

Lemma sum_opt_all (P : ty -> Prop) so ts n : Forall (fun t => forall n, max_size so t = Some n -> P t) ts -> sum_opt (map (max_size so) ts) = Some n -> Forall P ts.
Proof.
  intros H. revert n. induction H as [|t ts Ht Hts IH]; intros n Hn; [constructor|]. cbn [map sum_opt] in Hn.
  destruct (max_size so t) as [a|]; [|discriminate]. destruct (sum_opt (map (max_size so) ts)) as [b|]; [|discriminate].
  constructor; [apply (Ht _ eq_refl) | apply (IH _ eq_refl)].
Qed.
Lemma forall_existsb {A} (p : A -> bool) l : Forall (fun x => p x = false) l -> existsb p l = false.
Proof. induction 1 as [|x l Hx Hl IH]; cbn [existsb]; [reflexivity|]. rewrite Hx. exact IH. Qed.
Lemma max_size_hash so t : forall n, max_size so t = Some n -> contains is_hash t = false.
Proof.
  induction t using ty_ind_strong; intros m Hm; cbn [max_size contains is_hash orb] in *; try reflexivity; try discriminate; try (eapply IHt; exact Hm);
    try (match goal with H : option_map _ (max_size ?so ?t) = Some _ |- _ => destruct (max_size so t); [eapply IHt; reflexivity | discriminate] end).
  - destruct (max_size so t1) as [a|]; [|discriminate]. destruct (max_size so t2) as [b|]; [|discriminate].
    rewrite (IHt1 _ eq_refl), (IHt2 _ eq_refl). reflexivity.
  - apply forall_existsb. exact (@sum_opt_all (fun t => contains is_hash t = false) so ts m H Hm).
  - apply forall_existsb. exact (@sum_opt_all (fun t => contains is_hash t = false) so ts m H Hm).
  - apply forall_existsb. apply Forall_forall. intros x Hx. rewrite Forall_forall in H. specialize (H _ Hx).
    destruct (In_nth_error _ _ Hx) as (i & Hi).
    pose proof (nth_error_map_some (fun x => option_map (N.add (int_size r)) (sum_opt (map (max_size so) (snd x)))) _ _ Hi) as Ey.
    destruct (max_opt_le _ Hm _ Ey) as (n & Hn & _). destruct (sum_opt (map (max_size so) (snd x))) as [k|] eqn:E; [|discriminate].
    apply forall_existsb. exact (@sum_opt_all (fun t => contains is_hash t = false) so (snd x) k H E).
Qed.

Lemma C35_exact_lemma so ch t n : max_size so t = Some n -> EnumsOk t -> (Bounded ch t n <-> or_zero (peak t) <= n).
Proof.
  intros Hm He. pose proof (@C78_largest_lemma ch t (max_size_hash _ _ Hm) He) as H. destruct (peak t) as [k|]; cbn [or_zero].
  - destruct H as [(v & bs & Hv & Ha & Hl) Hb]. split; [intros HB; rewrite <- Hl; eapply HB; eassumption|].
    intros Hle v' bs' Hv' Ha'. specialize (Hb _ _ Hv' Ha'). lia.
  - split; [lia|]. intros _ v bs Hv Ha. destruct (H v bs Hv Ha).
Qed.
Lemma C78_exact_lemma so ch t n : max_size so t = Some n -> EnumsOk t -> (Attains ch t n /\ Bounded ch t n <-> peak t = Some n).
Proof.
  intros Hm He. pose proof (@C78_largest_lemma ch t (max_size_hash _ _ Hm) He) as H. split.
  - intros [(v & bs & Hv & Ha & Hl) HB]. destruct (peak t) as [k|]; [|destruct (H _ _ Hv Ha)].
    destruct H as [(v' & bs' & Hv' & Ha' & Hl') Hb]. specialize (Hb _ _ Hv Ha). specialize (HB _ _ Hv' Ha'). f_equal. lia.
  - intros E. rewrite E in H. exact H.
Qed.
