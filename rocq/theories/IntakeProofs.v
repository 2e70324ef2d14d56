(* What decoding takes at most: C36. *)
From Coq Require Import Lia ZifyBool ZifyNat ZifyN.
From Verif Require Import Base Streams Utf8 Types Encode Decode Sized Spec SpecCalls SpecDecode SpecSize SpecPeak SpecValues SpecDerive
  BaseFacts TypesFacts Utf8Facts WireFacts AcceptFacts ValueProofs DecodeFacts DecodeProofs DeriveProofs SizeProofs EncodeProofs EncodeFacts EncodeCases TightProofs PeakProofs.
Set Implicit Arguments.
Local Open Scope N_scope.

Lemma intake_owned t : intake (TCow t) = intake (owned t).
Proof. destruct t; reflexivity. Qed.

(* ---- no more *)

Ltac few := intros; try (rewrite intake_owned; assumption); cbn [intake] in *; try discriminate;
    repeat match goal with
      | H : le_repr _ _ _ |- _ => apply le_repr_len in H
      | H : WireInt _ _ _ |- _ => pose proof (wireint_fits H); apply wireint_len in H
      | H : WireLen _ _ |- _ => destruct H as [? H]
      end;
    repeat match goal with H : Small _ _ |- _ => let n := fresh "n" in let Hn := fresh "Hn" in destruct H as (n & Hn & ?); rewrite ?Hn end;
    try (eexists; split; [reflexivity|]; cbn [length or_zero larger option_map]; rewrite ?app_length, ?rev_length; cbn [length]; rewrite ?app_length, ?rev_length; lia).

Definition SmallItems (p : option N) (bs : list byte) (n : nat) := N.of_nat (length bs) <= N.of_nat n * or_zero p /\ (n <> 0%nat -> p <> None).

Lemma accepts_small :
  (forall t bs v, Accepts t bs v -> Small (intake t) bs) /\
  (forall ts bs vs, AcceptsFields ts bs vs -> Small (total (map intake ts)) bs) /\
  (forall t bs vs, AcceptsItems t bs vs -> SmallItems (intake t) bs (length vs)) /\
  (forall k v bs l, AcceptsEntries k v bs l -> SmallItems (total [intake k; intake v]) bs (length l)).
Proof.
  apply (@Accepts_mutind
    (fun t bs v _ => Small (intake t) bs)
    (fun ts bs vs _ => Small (total (map intake ts)) bs)
    (fun t bs vs _ => SmallItems (intake t) bs (length vs))
    (fun k v bs l _ => SmallItems (total [intake k; intake v]) bs (length l))); few.
  - destruct (intake e) as [m|]; (eexists; split; [reflexivity|]; cbn [length]; lia).
  - destruct (intake t) as [m|]; (eexists; split; [reflexivity|]; cbn [length]; lia).
  - eexists. split; [reflexivity|]. assert (n = n0) by congruence. subst. rewrite app_length. lia.
  - eexists. split; [reflexivity|]. assert (n = n0) by congruence. subst. rewrite app_length. lia.
  - match goal with Hv : nth_error vs i = Some (e, ts) |- _ =>
      pose proof (nth_error_map_some (fun x => (fst x, total (map intake (snd x)))) _ _ Hv) as Hm end. cbn [fst snd] in Hm. rewrite Hn in Hm.
    match goal with Ha : Assigned _ _ _ |- _ => apply assigned_from_none in Ha; rename Ha into Ha' end.
    assert (Em : map fst vs = map fst (map (fun x => (fst x, total (map intake (snd x)))) vs)) by (rewrite map_map; apply map_ext; reflexivity).
    rewrite Em in Ha'. match goal with Hf : int_fits r d |- _ => destruct (@variant_le r _ None i e n d Hm Ha' Hf) as (m & Hl & Hle') end.
    exists m. split; [exact Hl|]. rewrite app_length. lia.
  - destruct H as [Hle Hne]. subst n. destruct vs as [|v vs]; [exists 0; split; [reflexivity | cbn [length] in Hle; lia]|].
    destruct (intake t) as [m|]; [|destruct (Hne ltac:(discriminate) eq_refl)]. eexists. split; [reflexivity|]. cbn [or_zero] in Hle. exact Hle.
  - destruct H as [Hle Hne]. eexists. split; [reflexivity|]. rewrite app_length. nia.
  - destruct H as [Hle Hne]. eexists. split; [reflexivity|]. rewrite app_length. nia.
  - destruct H as [Hle Hne]. subst n. destruct vs as [|v vs]; [eexists; split; [reflexivity | rewrite app_length; cbn [length] in Hle; lia]|].
    destruct (intake t) as [m|]; [|destruct (Hne ltac:(discriminate) eq_refl)]. cbn [length or_zero option_map] in *. eexists. split; [reflexivity|]. rewrite app_length. lia.
  - eexists. split; [reflexivity|]. rewrite app_length. unfold up_to_65535. lia.
  - destruct H as [Hle Hne]. eexists. split; [reflexivity|]. rewrite app_length. nia.
  - destruct H as [Hle Hne]. eexists. split; [reflexivity|]. rewrite app_length. nia.
  - cbn [map total fold_right]. change (fold_right _ (Some 0) (map intake ts)) with (total (map intake ts)).
    rewrite Hn, Hn0. eexists. split; [reflexivity|]. rewrite app_length. lia.
  - split; [cbn; lia | cbn; congruence].
  - destruct H0 as [Hle _]. rewrite Hn in Hle. split; [|discriminate]. rewrite app_length. cbn [length or_zero] in *. nia.
  - split; [cbn; lia | cbn; congruence].
  - destruct H1 as [Hle _]. rewrite Hn, Hn0 in Hle. split; [|discriminate]. rewrite !app_length. cbn [length or_zero total fold_right] in *. nia.
Qed.

(* ---- and so many *)

Definition May (t : ty) (n : N) := exists bs v, Accepts t bs v /\ N.of_nat (length bs) = n.

Lemma accepts_repeat t bs v n : Accepts t bs v -> AcceptsItems t (concat (repeat bs n)) (repeat v n).
Proof. intros H. induction n as [|n IH]; cbn [repeat concat]; constructor; assumption. Qed.
Lemma entries_repeat k v x y a b n : Accepts k x a -> Accepts v y b -> AcceptsEntries k v (concat (repeat (x ++ y) n)) (repeat (a, b) n).
Proof. intros H1 H2. induction n as [|n IH]; cbn [repeat concat]; [constructor|]. rewrite <- app_assoc. constructor; assumption. Qed.
Lemma put_repeat {K V} (k : K) (v : V) n : exists m, PutAll [] (repeat (k, v) n) m.
Proof.
  destruct n as [|n]; [exists []; constructor|]. exists [(k, v)]. cbn [repeat]. eapply PutAll_cons; [apply (@Put_new _ _ k v []); intros []|]. cbn [app].
  induction n as [|n IH]; cbn [repeat]; [constructor|]. eapply PutAll_cons; [|exact IH]. apply (@Put_old _ _ k v [] v []). intros [].
Qed.
Lemma add_repeat {K} (k : K) n : exists s, AddAll [] (repeat k n) s.
Proof.
  destruct n as [|n]; [exists []; constructor|]. exists [k]. cbn [repeat]. apply AddAll_new; [intros []|]. cbn [app].
  induction n as [|n IH]; cbn [repeat]; [constructor|]. apply AddAll_old; [left; reflexivity | exact IH].
Qed.

Lemma may_items t k : (forall m, intake t = Some m -> May t m) ->
  exists bs v n, (n <= k)%nat /\ AcceptsItems t bs (repeat v n) /\ N.of_nat (length bs) = N.of_nat k * or_zero (intake t).
Proof.
  intros H. destruct (intake t) as [m|].
  - destruct (H m eq_refl) as (bs & v & Hw & Hl). exists (concat (repeat bs k)), v, k. split; [lia|]. split; [apply accepts_repeat; exact Hw|].
    rewrite concat_repeat_length. cbn [or_zero]. lia.
  - exists [], VUnit, 0%nat. split; [lia|]. split; [constructor|]. cbn. lia.
Qed.
Lemma may_entries k v n : (forall m, intake k = Some m -> May k m) -> (forall m, intake v = Some m -> May v m) ->
  exists bs a b j, (j <= n)%nat /\ AcceptsEntries k v bs (repeat (a, b) j) /\ N.of_nat (length bs) = N.of_nat n * or_zero (total [intake k; intake v]).
Proof.
  intros Hk Hv. assert (Hz : exists bs a b j, (j <= n)%nat /\ AcceptsEntries k v bs (repeat (a, b) j) /\ length bs = 0%nat).
  { exists [], VUnit, VUnit, 0%nat. split; [lia|]. split; [constructor | reflexivity]. }
  destruct Hz as (bs0 & a0 & b0 & j0 & Hj & Hz & Hl0).
  destruct (intake k) as [x|]; [|exists bs0, a0, b0, j0; split; [exact Hj|]; split; [exact Hz | cbn; lia]].
  destruct (intake v) as [y|]; [|exists bs0, a0, b0, j0; split; [exact Hj|]; split; [exact Hz | cbn; lia]].
  destruct (Hk _ eq_refl) as (bx & vx & Hx & Hlx). destruct (Hv _ eq_refl) as (by' & vy & Hy & Hly).
  exists (concat (repeat (bx ++ by') n)), vx, vy, n. split; [lia|]. split; [apply entries_repeat; assumption|].
  rewrite concat_repeat_length, app_length. cbn [total fold_right or_zero]. lia.
Qed.
Lemma may_fields ts : Forall (fun t => EnumsOk t -> forall n, intake t = Some n -> May t n) ts -> Forall EnumsOk ts ->
  forall n, total (map intake ts) = Some n -> exists bs vs, AcceptsFields ts bs vs /\ N.of_nat (length bs) = n.
Proof.
  intros IH Hok. induction Hok as [|t ts Ht Hts IHt]; intros n Hn.
  - injection Hn as <-. exists [], []. split; [constructor | reflexivity].
  - cbn [map total fold_right] in Hn. change (fold_right _ (Some 0) (map intake ts)) with (total (map intake ts)) in Hn.
    inversion IH as [|? ? H1 H2]; subst. destruct (intake t) as [a|]; [|discriminate]. destruct (total (map intake ts)) as [b|]; [|discriminate]. injection Hn as <-.
    destruct (H1 Ht _ eq_refl) as (x & v & Hx & Hlx). destruct (IHt H2 _ eq_refl) as (y & vs & Hy & Hly).
    exists (x ++ y), (v :: vs). split; [constructor; assumption|]. rewrite app_length. lia.
Qed.

Lemma fields_main ts : Forall (fun t => EnumsOk t -> (forall n, intake t = Some n -> May t n) /\ (forall n, intake (owned t) = Some n -> May (owned t) n)) ts ->
  Forall (fun t => EnumsOk t -> forall n, intake t = Some n -> May t n) ts.
Proof. apply Forall_impl. intros t H He. exact (proj1 (H He)). Qed.

Lemma owned_ok t : EnumsOk t -> EnumsOk (owned t).
Proof. destruct t; cbn [owned]; auto. Qed.

Ltac text1 full := exists (le_bytes 2 (Z.of_nat full) ++ repeat x61 full), (VStr (repeat x61 full)).

Lemma intake_may t : EnumsOk t -> (forall n, intake t = Some n -> May t n) /\ (forall n, intake (owned t) = Some n -> May (owned t) n).
Proof.
  destruct full_exists as (full & Hfull).
  assert (Hstr : forall n, intake TString = Some n -> May TString n).
  { intros m Hm. cbn [intake] in Hm. whole Hm. text1 full. split; [constructor; [rewrite repeat_length; apply wire_len; lia | apply valid_ascii]|].
    rewrite app_length, repeat_length, le_bytes_length. lia. }
  assert (Hcstr : forall n, intake TCString = Some n -> May TCString n).
  { intros m Hm. cbn [intake] in Hm. whole Hm. text1 full. split; [constructor; [rewrite repeat_length; apply wire_len; lia | intros Hi; apply repeat_spec in Hi; discriminate]|].
    rewrite app_length, repeat_length, le_bytes_length. lia. }
  assert (Hvec : forall u, (forall n, intake u = Some n -> May u n) -> forall n, intake (TVec u) = Some n -> May (TVec u) n).
  { intros u IH m Hm. cbn [intake] in Hm. whole Hm. destruct (@may_items u full IH) as (bs & v & n & Hn & Ha & Hl).
    exists (le_bytes 2 (Z.of_nat n) ++ bs), (VSeq (repeat v n)). split; [constructor; [rewrite repeat_length; apply wire_len; lia | exact Ha]|].
    rewrite app_length, le_bytes_length. lia. }
  induction t using ty_ind_strong; cbn [EnumsOk]; intros Hx;
    (match goal with |- (forall n, intake ?u = Some n -> _) /\ _ => enough (Hmain : forall m, intake u = Some m -> May u m) end;
     [split; [exact Hmain | first [exact Hmain | exact Hstr | exact Hcstr | apply Hvec; apply (proj1 (IHt Hx))]]|]);
    intros m Hm; try rewrite intake_owned in Hm; cbn [intake] in Hm; try discriminate.
  - whole Hm. assert (H : WireInt i 1 (le_bytes (N.to_nat (int_size i)) 1)).
    { destruct i; try (apply WI_fixed; [discriminate | discriminate | apply le_repr_le_bytes]).
      - apply WI_usize; [lia | apply le_repr_le_bytes]. - apply WI_isize; [lia | apply le_repr_le_bytes]. }
    assert (Hin : in_ity i 1) by (unfold in_ity; destruct i; cbn; lia).
    eexists _, (VInt 1). split; [constructor; eassumption | rewrite le_bytes_length; lia].
  - whole Hm. exists (le_bytes 4 0), (VInt 0). split; [constructor; [lia | apply le_repr_le_bytes] | reflexivity].
  - whole Hm. exists (le_bytes 8 0), (VInt 0). split; [constructor; [lia | apply le_repr_le_bytes] | reflexivity].
  - whole Hm. exists [x00], (VBool false). split; [constructor | reflexivity].
  - whole Hm. exists (le_bytes 4 97), (VChar 97). split; [constructor; [lia | apply le_repr_le_bytes] | reflexivity].
  - whole Hm. exists [], VUnit. split; [constructor | reflexivity].
  - whole Hm. assert (H : WireInt i 1 (le_bytes (N.to_nat (int_size i)) 1)).
    { destruct i; try (apply WI_fixed; [discriminate | discriminate | apply le_repr_le_bytes]).
      - apply WI_usize; [lia | apply le_repr_le_bytes]. - apply WI_isize; [lia | apply le_repr_le_bytes]. }
    assert (Hin : in_ity i 1) by (unfold in_ity; destruct i; cbn; lia).
    eexists _, (VInt 1). split; [constructor; [exact Hin | discriminate | exact H] | rewrite le_bytes_length; lia].
  - whole Hm. destruct (intake t) as [k|] eqn:E; [|exists [x00], VNone; split; [constructor | reflexivity]].
    destruct (proj1 (IHt Hx) _ eq_refl) as (bs & v & Ha & Hl). exists (x01 :: bs), (VSome v). split; [constructor; [discriminate | exact Ha] | cbn [length or_zero]; lia].
  - destruct Hx as [Hx1 Hx2].
    assert (Ho : forall x, intake t1 = Some x -> May (TResult t1 t2) (1 + x)).
    { intros x E. destruct (proj1 (IHt1 Hx1) _ E) as (bs & v & Ha & Hl). exists (x00 :: bs), (VOk v). split; [constructor; exact Ha | cbn [length]; lia]. }
    assert (He : forall x, intake t2 = Some x -> May (TResult t1 t2) (1 + x)).
    { intros x E. destruct (proj1 (IHt2 Hx2) _ E) as (bs & v & Ha & Hl). exists (x01 :: bs), (VErr v). split; [constructor; [discriminate | exact Ha] | cbn [length]; lia]. }
    destruct (intake t1) as [x|], (intake t2) as [y|]; cbn [larger option_map] in Hm; try discriminate; whole Hm; auto.
    destruct (N.max_spec x y) as [[_ ->]|[_ ->]]; auto.
  - apply fold_and in Hx. destruct (@may_fields ts (fields_main H) Hx _ Hm) as (bs & vs & Ha & Hl). exists bs, (VTuple vs). split; [constructor; exact Ha | exact Hl].
  - destruct n as [|n].
    + whole Hm. exists [], (VSeq []). split; [constructor; [reflexivity | constructor] | reflexivity].
    + destruct (intake t) as [k|]; [|discriminate]. cbn [option_map] in Hm. whole Hm. destruct (proj1 (IHt Hx) _ eq_refl) as (bs & v & Ha & Hl).
      exists (concat (repeat bs (S n))), (VSeq (repeat v (S n))). split; [constructor; [apply repeat_length | apply accepts_repeat; exact Ha]|].
      rewrite concat_repeat_length. lia.
  - apply Hvec; [apply (proj1 (IHt Hx)) | exact Hm].
  - whole Hm. destruct (@may_items t full (proj1 (IHt Hx))) as (bs & v & n & Hn & Ha & Hl).
    exists (le_bytes 2 (Z.of_nat n) ++ bs), (VSeq (repeat v n)). split; [constructor; [rewrite repeat_length; apply wire_len; lia | exact Ha]|].
    rewrite app_length, le_bytes_length. lia.
  - assert (Hk : exists bs v, AcceptsItems t bs (repeat v n) /\ 2 + N.of_nat (length bs) = m).
    { destruct n as [|n]; [whole Hm; exists [], VUnit; split; [constructor | reflexivity]|].
      destruct (intake t) as [k|]; [|discriminate]. cbn [option_map] in Hm. whole Hm. destruct (proj1 (IHt Hx) _ eq_refl) as (bs & v & Ha & Hl).
      exists (concat (repeat bs (S n))), v. split; [apply accepts_repeat; exact Ha|]. rewrite concat_repeat_length. lia. }
    destruct Hk as (bs & v & Ha & Hl). exists (le_bytes 2 (Z.of_nat 0) ++ bs), (VSeq (firstn 0 (repeat v n))).
    split; [apply A_sized_slice; [lia | apply wire_len; lia | apply repeat_length | exact Ha]|]. rewrite app_length, le_bytes_length. lia.
  - apply Hstr. exact Hm.
  - whole Hm. exists (le_bytes 2 (Z.of_nat (Nat.min n full)) ++ repeat x61 (Nat.min n full)), (VStr (repeat x61 (Nat.min n full))).
    split; [constructor; rewrite ?repeat_length; [lia | apply wire_len; lia | apply valid_ascii]|].
    rewrite app_length, repeat_length, le_bytes_length. unfold up_to_65535. lia.
  - apply Hcstr. exact Hm.
  - destruct (proj1 (IHt Hx) _ Hm) as (bs & v & Ha & Hl). exists bs, (VWrap v). split; [constructor; exact Ha | exact Hl].
  - destruct (proj2 (IHt Hx) _ Hm) as (bs & v & Ha & Hl). exists bs, (VCow true v). split; [constructor; exact Ha | exact Hl].
  - destruct (proj1 (IHt Hx) _ Hm) as (bs & v & Ha & Hl). exists bs, (VRefCell false v). split; [constructor; exact Ha | exact Hl].
  - destruct (proj1 (IHt Hx) _ Hm) as (bs & v & Ha & Hl). exists bs, (VLock false v). split; [constructor; exact Ha | exact Hl].
  - whole Hm. exists (le_bytes 8 0 ++ le_bytes 4 0). eexists. split; [apply A_duration with (s := 0%Z) (n := 0%Z); try apply le_repr_le_bytes; cbn; lia | reflexivity].
  - whole Hm. exists (le_bytes 8 0), (VTime 0 0). split; [constructor; [lia | apply le_repr_le_bytes] | reflexivity].
  - whole Hm. exists (rev (repeat x00 4)), (VIp4 (repeat x00 4)). split; [constructor; reflexivity | reflexivity].
  - whole Hm. exists (rev (repeat x00 16)), (VIp6 (repeat x00 16)). split; [constructor; reflexivity | reflexivity].
  - whole Hm. exists (x06 :: rev (repeat x00 16)), (VIpV6 (repeat x00 16)). split; [constructor; reflexivity | reflexivity].
  - whole Hm. exists (rev (repeat x00 4) ++ le_bytes 2 0), (VSock4 (repeat x00 4) 0). split; [constructor; [reflexivity | unfold in_u16; lia | apply le_repr_le_bytes] | reflexivity].
  - whole Hm. exists (rev (repeat x00 16) ++ le_bytes 2 0 ++ le_bytes 4 0 ++ le_bytes 4 0), (VSock6 (repeat x00 16) 0 0 0).
    split; [constructor; first [reflexivity | apply le_repr_le_bytes | unfold in_u16, in_u32; lia] | reflexivity].
  - whole Hm. exists (x06 :: rev (repeat x00 16) ++ le_bytes 2 0 ++ le_bytes 4 0 ++ le_bytes 4 0), (VSockV6 (repeat x00 16) 0 0 0).
    split; [constructor; first [reflexivity | apply le_repr_le_bytes | unfold in_u16, in_u32; lia] | reflexivity].
  - destruct (intake t) as [k|]; [|discriminate]. cbn [option_map] in Hm. whole Hm. destruct (proj1 (IHt Hx) _ eq_refl) as (bs & v & Ha & Hl).
    exists (bs ++ bs), (VRange v v). split; [constructor; exact Ha | rewrite app_length; lia].
  - destruct (proj1 (IHt Hx) _ Hm) as (bs & v & Ha & Hl). exists bs, (VHalfRange v). split; [constructor; exact Ha | exact Hl].
  - whole Hm. exists [], VUnit. split; [constructor | reflexivity].
  - destruct (intake t) as [k|]; [|discriminate]. cbn [option_map] in Hm. whole Hm. destruct (proj1 (IHt Hx) _ eq_refl) as (bs & v & Ha & Hl).
    exists (bs ++ bs), (VRangeInclusive v v false). split; [constructor; exact Ha | rewrite app_length; lia].
  - destruct (proj1 (IHt Hx) _ Hm) as (bs & v & Ha & Hl). exists bs, (VHalfRange v). split; [constructor; exact Ha | exact Hl].
  - destruct (proj1 (IHt Hx) _ Hm) as (bs & v & Ha & Hl). exists bs, (VHalfRange v). split; [constructor; exact Ha | exact Hl].
  - whole Hm. destruct (intake t) as [k|] eqn:E; [|exists [x02], VUnbounded; split; [constructor | reflexivity]].
    destruct (proj1 (IHt Hx) _ eq_refl) as (bs & v & Ha & Hl). exists (x00 :: bs), (VIncluded v). split; [constructor; exact Ha | cbn [length or_zero]; lia].
  - whole Hm. exists [], VUnit. split; [constructor | reflexivity].
  - whole Hm. exists [], VUnit. split; [constructor | reflexivity].
  - destruct Hx as [Hx1 Hx2]. whole Hm. destruct (@may_entries t1 t2 full (proj1 (IHt1 Hx1)) (proj1 (IHt2 Hx2))) as (bs & a & b & n & Hn & Ha & Hl).
    destruct (put_repeat a b n) as (m & Hm). exists (le_bytes 2 (Z.of_nat n) ++ bs), (VMap m).
    split; [econstructor; [rewrite repeat_length; apply wire_len; lia | exact Ha | exact Hm]|]. rewrite app_length, le_bytes_length. lia.
  - whole Hm. destruct (@may_items t full (proj1 (IHt Hx))) as (bs & v & n & Hn & Ha & Hl).
    destruct (add_repeat v n) as (m & Hm). exists (le_bytes 2 (Z.of_nat n) ++ bs), (VSet m).
    split; [econstructor; [rewrite repeat_length; apply wire_len; lia | exact Ha | exact Hm]|]. rewrite app_length, le_bytes_length. lia.
  - apply fold_and in Hx. destruct (@may_fields ts (fields_main H) Hx _ Hm) as (bs & vs & Ha & Hl). exists bs, (VTuple vs). split; [constructor; exact Ha | exact Hl].
  - destruct Hx as [Hok Hx]. apply fold_and in Hx. destruct (variant_from _ _ _ Hm) as (i & e & n & Hi & <- & Hf).
    apply nth_error_map_inv in Hi. destruct Hi as ([e' ts] & Hi & E). cbn [fst snd] in E. injection E as <- Et. symmetry in Et.
    destruct (@assigned_exists (map fst vs) i e (nth_error_map_some fst _ _ Hi)) as (d & Hd).
    assert (Hfit : int_fits r d) by (apply (Hf None d eq_refl); rewrite map_map; apply assigned_from_none; exact Hd).
    pose proof Hok as Hok'. unfold enum_ok in Hok'. destruct (discriminants (map fst vs)) as [ds|] eqn:Hds; [|contradiction]. destruct Hok' as [Hin' _].
    pose proof (proj2 (@discriminants_assigned _ _ _ _ Hds) Hd) as Ek. rewrite Forall_forall in Hin'. specialize (Hin' _ (nth_error_In _ _ Ek)).
    destruct (@Good_int true r d Hin') as [db _ Hwi _ | ? ? Hn _ | ? _ Hlow _]; [|contradiction|discriminate].
    rewrite Forall_forall in H, Hx. pose proof (nth_error_In _ _ Hi) as Hin. specialize (H _ Hin). specialize (Hx _ Hin). cbn [snd] in H, Hx. apply fold_and in Hx.
    destruct (@may_fields ts (fields_main H) Hx _ Et) as (bs & fs & Ha & Hl). exists (db ++ bs), (VEnum i fs).
    split; [eapply A_enum; eassumption|]. rewrite app_length. pose proof (wireint_len Hwi). lia.
Qed.

Lemma C36_largest_lemma t : EnumsOk t ->
  match intake t with
  | Some n => Takes t n /\ TakesAtMost t n
  | None => forall i i' v, in_bounds i -> decode t i <> (i', Ok v)
  end.
Proof.
  intros He. assert (Hs : forall i i' v, in_bounds i -> decode t i = (i', Ok v) -> exists n, intake t = Some n /\ N.of_nat (input_position i') <= N.of_nat (input_position i) + n).
  { intros i i' v Hw Hd. destruct (@decode_exact t i i' v He Hw Hd) as (bs & post & Hun & Hi & Ha).
    destruct (proj1 accepts_small _ _ _ Ha) as (n & Hn & Hle). exists n. split; [exact Hn|]. subst i'. unfold input_position. cbn [i_pos]. lia. }
  destruct (intake t) as [n|] eqn:E.
  - split.
    + destruct (proj1 (@intake_may t He) _ E) as (bs & v & Ha & Hl). pose proof (accepts_parses Ha) as Hp.
      specialize (Hp [] []). cbn [app length Nat.add] in Hp. rewrite app_nil_r in Hp. exists (Input bs 0), (Input bs (length bs)), v.
      split; [unfold in_bounds, input_position, input_capacity; cbn; lia|]. split; [exact Hp | unfold input_position; cbn [i_pos]; lia].
    + intros i i' v Hw Hd. destruct (Hs _ _ _ Hw Hd) as (k & Hk & Hle). injection Hk as <-. exact Hle.
  - intros i i' v Hw Hd. destruct (Hs _ _ _ Hw Hd) as (k & Hk & _). discriminate.
Qed.

Lemma C36_exact_lemma so t n : max_size so t = Some n -> EnumsOk t -> (TakesAtMost t n <-> or_zero (intake t) <= n).
Proof.
  intros _ He. pose proof (@C36_largest_lemma t He) as H. destruct (intake t) as [k|]; cbn [or_zero].
  - destruct H as [(i & i' & v & Hw & Hd & Hl) Hb]. split; [intros HB; specialize (HB _ _ _ Hw Hd); lia|].
    intros Hle j j' w Hj Hd'. specialize (Hb _ _ _ Hj Hd'). lia.
  - split; [lia|]. intros _ i i' v Hw Hd. destruct (H _ _ _ Hw Hd).
Qed.
