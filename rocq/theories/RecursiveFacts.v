(* Recursive types: growing the depth of the unrolling. *)
From Coq Require Import Lia ZifyBool ZifyNat ZifyN.
From Verif Require Import Base BaseFacts Streams StreamFacts Utf8 Types TypesFacts Traits Encode Decode SpecDecode AcceptFacts Recursive.
Set Implicit Arguments.

Section RtyInd.
  Variable P : rty -> Prop.
  Hypothesis HConst : forall t, P (RConst t).
  Hypothesis HVar : forall k, P (RVar k).
  Hypothesis HOption : forall t, P t -> P (ROption t).
  Hypothesis HTuple : forall ts, Forall P ts -> P (RTuple ts).
  Hypothesis HArray : forall t n, P t -> P (RArray t n).
  Hypothesis HSlice : forall t, P t -> P (RSlice t).
  Hypothesis HVec : forall t, P t -> P (RVec t).
  Hypothesis HLinked : forall t, P t -> P (RLinked t).
  Hypothesis HSizedSlice : forall t n, P t -> P (RSizedSlice t n).
  Hypothesis HWrap : forall w t, P t -> P (RWrap w t).
  Hypothesis HCow : forall t, P t -> P (RCow t).
  Hypothesis HRefCell : forall t, P t -> P (RRefCell t).
  Hypothesis HLock : forall l t, P t -> P (RLock l t).
  Hypothesis HRange : forall t, P t -> P (RRange t).
  Hypothesis HRangeInclusive : forall t, P t -> P (RRangeInclusive t).
  Hypothesis HRangeFrom : forall t, P t -> P (RRangeFrom t).
  Hypothesis HRangeTo : forall t, P t -> P (RRangeTo t).
  Hypothesis HRangeToInclusive : forall t, P t -> P (RRangeToInclusive t).
  Hypothesis HBound : forall t, P t -> P (RBound t).
  Hypothesis HHashMap : forall k v, P k -> P v -> P (RHashMap k v).
  Hypothesis HHashSet : forall k, P k -> P (RHashSet k).
  Fixpoint rty_ind_strong (t : rty) : P t :=
    match t with
    | RConst t => HConst t
    | RVar k => HVar k
    | ROption t => HOption (rty_ind_strong t)
    | RTuple ts =>
      HTuple ((fix all (ts : list rty) : Forall P ts :=
        match ts with [] => Forall_nil P | t :: ts' => Forall_cons t (rty_ind_strong t) (all ts') end) ts)
    | RArray t n => HArray n (rty_ind_strong t)
    | RSlice t => HSlice (rty_ind_strong t)
    | RVec t => HVec (rty_ind_strong t)
    | RLinked t => HLinked (rty_ind_strong t)
    | RSizedSlice t n => HSizedSlice n (rty_ind_strong t)
    | RWrap w t => HWrap w (rty_ind_strong t)
    | RCow t => HCow (rty_ind_strong t)
    | RRefCell t => HRefCell (rty_ind_strong t)
    | RLock l t => HLock l (rty_ind_strong t)
    | RRange t => HRange (rty_ind_strong t)
    | RRangeInclusive t => HRangeInclusive (rty_ind_strong t)
    | RRangeFrom t => HRangeFrom (rty_ind_strong t)
    | RRangeTo t => HRangeTo (rty_ind_strong t)
    | RRangeToInclusive t => HRangeToInclusive (rty_ind_strong t)
    | RBound t => HBound (rty_ind_strong t)
    | RHashMap k v => HHashMap (rty_ind_strong k) (rty_ind_strong v)
    | RHashSet k => HHashSet (rty_ind_strong k)
    end.
End RtyInd.

(* ---- Decoders that agree except where the first runs out of depth *)
Definition dle {A} (m m' : D A) : Prop := forall i, m i = m' i \/ exists i', m i = (i', Panic PInfallible).

Lemma dle_refl {A} (m : D A) : dle m m.
Proof. intros i. left. reflexivity. Qed.
Lemma dle_trans {A} (m1 m2 m3 : D A) : dle m1 m2 -> dle m2 m3 -> dle m1 m3.
Proof. intros H1 H2 i. destruct (H1 i) as [->|H]; [apply H2 | right; exact H]. Qed.
Lemma dle_bind {A B} (m m' : D A) (k k' : A -> D B) : dle m m' -> (forall a, dle (k a) (k' a)) -> dle (dbind m k) (dbind m' k').
Proof.
  intros Hm Hk i. unfold dbind. destruct (Hm i) as [->|(i' & ->)]; [|right; eauto].
  destruct (m' i) as [i1 [a|e|p]]; [apply Hk | left; reflexivity | left; reflexivity].
Qed.
Lemma dle_map {A B} (f : A -> B) m m' : dle m m' -> dle (dmap f m) (dmap f m').
Proof. intros H. apply dle_bind; [exact H | intros a; apply dle_refl]. Qed.
Lemma dle_map_err {A} f (m m' : D A) : dle m m' -> dle (dmap_err f m) (dmap_err f m').
Proof. intros H i. unfold dmap_err. destruct (H i) as [->|(i' & ->)]; [left; reflexivity | right; eauto]. Qed.
Lemma dle_items {A} (f f' : D A) n : dle f f' -> forall i, dle (dec_items f n i) (dec_items f' n i).
Proof.
  intros H. induction n as [|n IH]; intros i; cbn [dec_items]; [apply dle_refl|].
  apply dle_bind; [apply dle_map_err, H | intros a; apply dle_map, IH].
Qed.
Lemma dle_fields conv fs fs' : Forall2 dle fs fs' -> dle (dec_fields conv fs) (dec_fields conv fs').
Proof.
  induction 1 as [|f f' fs fs' Hf Hfs IH]; cbn [dec_fields]; [apply dle_refl|].
  apply dle_bind; [apply dle_map_err, Hf | intros a; apply dle_map, IH].
Qed.
Lemma dle_entries fk fk' fv fv' n : dle fk fk' -> dle fv fv' -> forall i acc, dle (dec_entries fk fv n i acc) (dec_entries fk' fv' n i acc).
Proof.
  intros Hk Hv. induction n as [|n IH]; intros i acc; cbn [dec_entries]; [apply dle_refl|].
  apply dle_bind; [apply dle_map_err, Hk | intros k]. apply dle_bind; [apply dle_map_err, Hv | intros v; apply IH].
Qed.
Lemma dle_keys fk fk' n : dle fk fk' -> forall i acc, dle (dec_keys fk n i acc) (dec_keys fk' n i acc).
Proof.
  intros Hk. induction n as [|n IH]; intros i acc; cbn [dec_keys]; [apply dle_refl|].
  apply dle_bind; [apply dle_map_err, Hk | intros k; apply IH].
Qed.

Ltac dles :=
  lazymatch goal with
  | |- dle ?m ?m => apply dle_refl
  | |- dle (dmap _ _) _ => apply dle_map; dles
  | |- dle (dmap_err _ _) _ => apply dle_map_err; dles
  | |- dle (dbind _ _) _ => apply dle_bind; [dles | intros ?; dles]
  | |- dle (dec_items _ _ _) _ => apply dle_items; dles
  | |- dle (dec_entries _ _ _ _ _) _ => apply dle_entries; dles
  | |- dle (dec_keys _ _ _ _) _ => apply dle_keys; dles
  | |- dle (dec_vec _) _ => unfold dec_vec; dles
  | |- dle (dec_sized_slice _ _) _ => unfold dec_sized_slice; dles
  | |- dle (dec_option _) _ => unfold dec_option; dles
  | |- dle (dec_bound _) _ => unfold dec_bound; dles
  | |- dle (dec_map _ _) _ => unfold dec_map; dles
  | |- dle (dec_set _) _ => unfold dec_set; dles
  | |- dle (if ?b then _ else _) _ => destruct b; dles
  | |- dle _ _ => try assumption
  end.

(* ---- Types that agree except where the first runs out of depth *)
Definition vle (t t' : ty) : Prop := forall v, wt t v -> wt t' v.
Definition ele (t t' : ty) : Prop := forall ch v o, wt t v -> encode ch t' v o = encode ch t v o.

Definition tle (t t' : ty) : Prop := vle t t' /\ ele t t' /\ dle (decode t) (decode t').
Lemma tle_refl t : tle t t.
Proof. split; [intros v H; exact H | split; [intros ch v o _; reflexivity | apply dle_refl]]. Qed.
Lemma tle_trans t1 t2 t3 : tle t1 t2 -> tle t2 t3 -> tle t1 t3.
Proof.
  intros (V1 & E1 & D1) (V2 & E2 & D2). split; [|split].
  - intros v H. apply V2, V1, H.
  - intros ch v o H. rewrite (E2 ch v o (V1 v H)). apply E1, H.
  - apply dle_trans with (m2 := decode t2); assumption.
Qed.
Lemma tle_bottom t : tle TInfallible t.
Proof.
  split; [intros v H; destruct v; destruct H | split; [intros ch v o H; destruct v; destruct H|]].
  intros i. right. exists i. reflexivity.
Qed.

(* encoders of the same values *)
Lemma eseq_ext (a a' b b' : E) : (forall o, a' o = a o) -> (forall o, b' o = b o) -> forall o, eseq a' b' o = eseq a b o.
Proof. intros Ha Hb o. unfold eseq. rewrite Ha. destruct (a o) as [o1 [u|e|p]]; [apply Hb | reflexivity | reflexivity]. Qed.
Lemma emap_err_ext f (a a' : E) : (forall o, a' o = a o) -> forall o, emap_err f a' o = emap_err f a o.
Proof. intros Ha o. unfold emap_err. rewrite Ha. reflexivity. Qed.
Lemma enc_items_ext {A} (f f' : A -> E) wrap l : Forall (fun x => forall o, f' x o = f x o) l ->
  forall i o, enc_items f' wrap i l o = enc_items f wrap i l o.
Proof.
  induction 1 as [|x l Hx Hl IH]; intros i o; cbn [enc_items]; [reflexivity|].
  apply eseq_ext; [apply emap_err_ext, Hx | apply IH].
Qed.
Lemma enc_slice_ext {A} (f f' : A -> E) wrap l : Forall (fun x => forall o, f' x o = f x o) l ->
  forall o, enc_slice f' wrap l o = enc_slice f wrap l o.
Proof. intros H o. unfold enc_slice. apply eseq_ext; [reflexivity | apply enc_items_ext, H]. Qed.

Definition tles (ts ts' : list ty) := Forall2 tle ts ts'.

Lemma all2_le ts ts' : tles ts ts' -> forall vs, all2 (map wt ts) vs -> all2 (map wt ts') vs.
Proof.
  induction 1 as [|t t' ts ts' Ht Hts IH]; intros vs; cbn [map all2]; [auto|]. destruct vs as [|v vs]; [auto|].
  intros [H1 H2]. split; [apply Ht, H1 | apply IH, H2].
Qed.
Lemma enc_fields_le ch ts ts' conv : tles ts ts' -> forall vs o, all2 (map wt ts) vs ->
  enc_fields (map (encode ch) ts') conv vs o = enc_fields (map (encode ch) ts) conv vs o.
Proof.
  induction 1 as [|t t' ts ts' Ht Hts IH]; intros vs o; cbn [map all2 enc_fields]; [destruct vs; reflexivity|].
  destruct vs as [|v vs]; [intros []|]. intros [H1 H2].
  apply eseq_ext; [apply emap_err_ext; intros o'; apply Ht, H1 | intros o'; apply IH, H2].
Qed.
Lemma dec_fields_le conv ts ts' : tles ts ts' -> dle (dec_fields conv (map decode ts)) (dec_fields conv (map decode ts')).
Proof.
  intros H. apply dle_fields. induction H as [|t t' ts ts' Ht Hts IH]; cbn [map]; constructor; [apply Ht | exact IH].
Qed.

(* the containers, one by one *)
Lemma forall_wt_le t t' vs : tle t t' -> Forall (wt t) vs -> Forall (wt t') vs.
Proof. intros H. apply Forall_impl. apply H. Qed.
Lemma forall_enc_le t t' ch vs : tle t t' -> Forall (wt t) vs -> Forall (fun x => forall o, encode ch t' x o = encode ch t x o) vs.
Proof. intros H. apply Forall_impl. intros v Hv o. apply H, Hv. Qed.

Ltac tle3 := match goal with H : tle _ _ |- _ => pose proof H as (?V & ?Ee & ?Dd) end.

Lemma tle_option t t' : tle t t' -> tle (TOption t) (TOption t').
Proof.
  intros H. tle3. split; [|split].
  - intros v. destruct v; cbn [wt]; auto.
  - intros ch v o. destruct v; cbn [wt]; try contradiction; intros Hw; cbn [encode]; [reflexivity|]. apply eseq_ext; [reflexivity|]. auto.
  - cbn [decode]. dles.
Qed.
Lemma tle_tuple ts ts' : tles ts ts' -> tle (TTuple ts) (TTuple ts').
Proof.
  intros H. split; [|split].
  - intros v. destruct v; cbn [wt]; auto. apply all2_le, H.
  - intros ch v o. destruct v; cbn [wt]; try contradiction. intros Hw. cbn [encode]. apply enc_fields_le; assumption.
  - cbn [decode]. apply dle_map, dec_fields_le, H.
Qed.
Lemma tle_struct ts ts' : tles ts ts' -> tle (TStruct ts) (TStruct ts').
Proof.
  intros H. split; [|split].
  - intros v. destruct v; cbn [wt]; auto. apply all2_le, H.
  - intros ch v o. destruct v; cbn [wt]; try contradiction. intros Hw. cbn [encode]. apply enc_fields_le; assumption.
  - cbn [decode]. apply dle_map, dec_fields_le, H.
Qed.
Lemma tle_array t t' n : tle t t' -> tle (TArray t n) (TArray t' n).
Proof.
  intros H. tle3. split; [|split].
  - intros v. destruct v; cbn [wt]; auto. intros [Hl Hf]. split; [exact Hl | eapply forall_wt_le; eassumption].
  - intros ch v o. destruct v; cbn [wt]; try contradiction. intros [? Hf]. cbn [encode]. apply enc_items_ext. eapply forall_enc_le; eassumption.
  - cbn [decode]. dles.
Qed.
Lemma tle_slice t t' : tle t t' -> tle (TSlice t) (TSlice t').
Proof.
  intros H. tle3. split; [|split].
  - intros v. destruct v; cbn [wt]; auto. intros Hf. eapply forall_wt_le; eassumption.
  - intros ch v o. destruct v; cbn [wt]; try contradiction. intros Hf. cbn [encode]. apply enc_slice_ext. eapply forall_enc_le; eassumption.
  - cbn [decode]. dles.
Qed.
Lemma tle_vec t t' : tle t t' -> tle (TVec t) (TVec t').
Proof.
  intros H. tle3. split; [|split].
  - intros v. destruct v; cbn [wt]; auto. intros Hf. eapply forall_wt_le; eassumption.
  - intros ch v o. destruct v; cbn [wt]; try contradiction. intros Hf. cbn [encode]. apply enc_slice_ext. eapply forall_enc_le; eassumption.
  - cbn [decode]. dles.
Qed.
Lemma tle_linked t t' : tle t t' -> tle (TLinked t) (TLinked t').
Proof.
  intros H. tle3. split; [|split].
  - intros v. destruct v; cbn [wt]; auto. intros Hf. eapply forall_wt_le; eassumption.
  - intros ch v o. destruct v; cbn [wt]; try contradiction. intros Hf. cbn [encode]. apply enc_slice_ext. eapply forall_enc_le; eassumption.
  - cbn [decode]. dles.
Qed.
Lemma tle_sized_slice t t' n : tle t t' -> tle (TSizedSlice t n) (TSizedSlice t' n).
Proof.
  intros H. tle3. split; [|split].
  - intros v. destruct v; cbn [wt]; auto. intros [Hl Hf]. split; [exact Hl | eapply forall_wt_le; eassumption].
  - intros ch v o. destruct v; cbn [wt]; try contradiction. intros [? Hf]. cbn [encode]. apply enc_slice_ext. eapply forall_enc_le; eassumption.
  - cbn [decode]. dles.
Qed.
Lemma tle_wrap w t t' : tle t t' -> tle (TWrap w t) (TWrap w t').
Proof.
  intros H. tle3. split; [|split].
  - intros v. destruct v; cbn [wt]; auto.
  - intros ch v o. destruct v; cbn [wt]; try contradiction. intros Hw. cbn [encode]. auto.
  - cbn [decode]. dles.
Qed.
Lemma tle_cow t t' : tle t t' -> tle (owned t) (owned t') -> tle (TCow t) (TCow t').
Proof.
  intros (V & Ee & _) Ho. split; [|split].
  - intros v. destruct v; cbn [wt]; auto.
  - intros ch v o. destruct v; cbn [wt]; try contradiction. intros Hw. cbn [encode]. auto.
  - cbn [decode]. rewrite !decode_owned. apply dle_map, Ho.
Qed.
Lemma tle_refcell t t' : tle t t' -> tle (TRefCell t) (TRefCell t').
Proof.
  intros H. tle3. split; [|split].
  - intros v. destruct v; cbn [wt]; auto.
  - intros ch v o. destruct v; cbn [wt]; try contradiction. intros Hw. cbn [encode]. unfold enc_refcell.
    destruct mut_borrowed; [reflexivity|]. apply emap_err_ext. auto.
  - cbn [decode]. dles.
Qed.
Lemma tle_lock l t t' : tle t t' -> tle (TLock l t) (TLock l t').
Proof.
  intros H. tle3. split; [|split].
  - intros v. destruct v; cbn [wt]; auto.
  - intros ch v o. destruct v; cbn [wt]; try contradiction. intros Hw. cbn [encode]. auto.
  - cbn [decode]. dles.
Qed.
Lemma tle_range t t' : tle t t' -> tle (TRange t) (TRange t').
Proof.
  intros H. tle3. split; [|split].
  - intros v. destruct v; cbn [wt]; auto. intros []. auto.
  - intros ch v o. destruct v; cbn [wt]; try contradiction. intros []. cbn [encode]. apply eseq_ext; auto.
  - cbn [decode]. dles.
Qed.
Lemma tle_range_inclusive t t' : tle t t' -> tle (TRangeInclusive t) (TRangeInclusive t').
Proof.
  intros H. tle3. split; [|split].
  - intros v. destruct v; cbn [wt]; auto. intros []. auto.
  - intros ch v o. destruct v; cbn [wt]; try contradiction. intros []. cbn [encode]. apply eseq_ext; auto.
  - cbn [decode]. dles.
Qed.
Lemma tle_range_from t t' : tle t t' -> tle (TRangeFrom t) (TRangeFrom t').
Proof.
  intros H. tle3. split; [|split].
  - intros v. destruct v; cbn [wt]; auto.
  - intros ch v o. destruct v; cbn [wt]; try contradiction. intros Hw. cbn [encode]. auto.
  - cbn [decode]. dles.
Qed.
Lemma tle_range_to t t' : tle t t' -> tle (TRangeTo t) (TRangeTo t').
Proof.
  intros H. tle3. split; [|split].
  - intros v. destruct v; cbn [wt]; auto.
  - intros ch v o. destruct v; cbn [wt]; try contradiction. intros Hw. cbn [encode]. auto.
  - cbn [decode]. dles.
Qed.
Lemma tle_range_to_inclusive t t' : tle t t' -> tle (TRangeToInclusive t) (TRangeToInclusive t').
Proof.
  intros H. tle3. split; [|split].
  - intros v. destruct v; cbn [wt]; auto.
  - intros ch v o. destruct v; cbn [wt]; try contradiction. intros Hw. cbn [encode]. auto.
  - cbn [decode]. dles.
Qed.
Lemma tle_bound t t' : tle t t' -> tle (TBound t) (TBound t').
Proof.
  intros H. tle3. split; [|split].
  - intros v. destruct v; cbn [wt]; auto.
  - intros ch v o. destruct v; cbn [wt]; try contradiction; intros Hw; cbn [encode]; try reflexivity;
      (apply eseq_ext; [reflexivity | apply emap_err_ext; auto]).
  - cbn [decode]. dles.
Qed.
Lemma tle_map k k' v v' : tle k k' -> tle v v' -> tle (THashMap k v) (THashMap k' v').
Proof.
  intros (Vk & Ek & Dk) (Vv & Ev & Dv). split; [|split].
  - intros x. destruct x; cbn [wt]; auto. intros [Hn Hf]. split; [exact Hn|]. eapply Forall_impl; [|exact Hf]. cbn beta. intros p []. auto.
  - intros ch x o. destruct x; cbn [wt]; try contradiction. intros [_ Hf]. cbn [encode]. revert o.
    induction Hf as [|[a b] l [Ha Hb] Hl IH]; intros o; cbn [enc_entries]; [reflexivity|].
    cbn [fst snd] in *. apply eseq_ext; [auto|]. apply eseq_ext; auto.
  - cbn [decode]. dles.
Qed.
Lemma tle_set k k' : tle k k' -> tle (THashSet k) (THashSet k').
Proof.
  intros (Vk & Ek & Dk). split; [|split].
  - intros x. destruct x; cbn [wt]; auto. intros [Hn Hf]. split; [exact Hn|]. eapply Forall_impl; [|exact Hf]. exact Vk.
  - intros ch x o. destruct x; cbn [wt]; try contradiction. intros [_ Hf]. cbn [encode]. revert o.
    induction Hf as [|a l Ha Hl IH]; intros o; cbn [enc_keys]; [reflexivity|]. apply eseq_ext; auto.
  - cbn [decode]. dles.
Qed.

(* variants: the same discriminants, and fields that agree *)
Definition vles (vs vs' : list (option Z * list ty)) := Forall2 (fun x x' => fst x = fst x' /\ tles (snd x) (snd x')) vs vs'.
Lemma vles_fst vs vs' : vles vs vs' -> map fst vs = map fst vs'.
Proof. induction 1 as [|x x' vs vs' [H _] _ IH]; cbn [map]; congruence. Qed.
Lemma vles_nth vs vs' : vles vs vs' -> forall i,
  match nth_error vs i, nth_error vs' i with Some x, Some x' => tles (snd x) (snd x') | None, None => True | _, _ => False end.
Proof.
  induction 1 as [|x x' vs vs' [_ H] _ IH]; intros i; destruct i as [|i]; cbn [nth_error]; auto. apply IH.
Qed.
Lemma tle_enum r vs vs' : vles vs vs' -> tle (TEnum r vs) (TEnum r vs').
Proof.
  intros H. pose proof (vles_fst H) as Hd. pose proof (vles_nth H) as Hn. split; [|split].
  - intros v. destruct v; cbn [wt]; auto. intros [Ho Hf]. split.
    + unfold enum_ok in *. rewrite <- Hd. exact Ho.
    + rewrite nth_error_map in *. specialize (Hn i).
      destruct (nth_error vs i), (nth_error vs' i); cbn [option_map] in *; try contradiction. eapply all2_le; eassumption.
  - intros ch v o. destruct v; cbn [wt]; try contradiction. intros [Ho Hf]. cbn [encode]. rewrite <- Hd. unfold enc_enum.
    destruct (discriminants (map fst vs)) as [ds|]; [|reflexivity]. rewrite !nth_error_map in *. specialize (Hn i).
    destruct (nth_error ds i); [|reflexivity].
    destruct (nth_error vs i), (nth_error vs' i); cbn [option_map] in *; try contradiction.
    apply eseq_ext; [reflexivity|]. intros o'. apply enc_fields_le; assumption.
  - cbn [decode]. rewrite <- Hd. unfold dec_enum. destruct (discriminants (map fst vs)) as [ds|]; [|apply dle_refl].
    apply dle_bind; [apply dle_refl | intros d]. destruct (find_disc d ds 0) as [i|]; [|apply dle_refl].
    rewrite !nth_error_map. specialize (Hn i). destruct (nth_error vs i), (nth_error vs' i); cbn [option_map]; try contradiction; [|apply dle_refl].
    apply dle_map, dec_fields_le, Hn.
Qed.

(* ---- Instances *)
Definition nominal (t : ty) : Prop := owned t = t.

Section Inst.
  Variable env env' : nat -> ty.
  Hypothesis Hle : forall k, tle (env k) (env' k).
  Hypothesis Hn : forall k, nominal (env k).
  Hypothesis Hn' : forall k, nominal (env' k).

  Lemma inst_le t : tle (inst env t) (inst env' t).
  Proof.
    assert (H : tle (inst env t) (inst env' t) /\ tle (owned (inst env t)) (owned (inst env' t))); [|apply H].
    induction t using rty_ind_strong; cbn [inst];
      repeat match goal with H : _ /\ _ |- _ => destruct H end;
      try (match goal with |- ?P /\ _ => enough P by (split; assumption) end).
    - split; apply tle_refl.
    - rewrite Hn, Hn'. split; apply Hle.
    - apply tle_option; assumption.
    - apply tle_tuple. induction H as [|x l Hx Hl IH]; cbn [map]; constructor; [apply Hx | exact IH].
    - apply tle_array; assumption.
    - split; [apply tle_slice; assumption | cbn [owned]; apply tle_vec; assumption].
    - apply tle_vec; assumption.
    - apply tle_linked; assumption.
    - apply tle_sized_slice; assumption.
    - apply tle_wrap; assumption.
    - apply tle_cow; assumption.
    - apply tle_refcell; assumption.
    - apply tle_lock; assumption.
    - apply tle_range; assumption.
    - apply tle_range_inclusive; assumption.
    - apply tle_range_from; assumption.
    - apply tle_range_to; assumption.
    - apply tle_range_to_inclusive; assumption.
    - apply tle_bound; assumption.
    - apply tle_map; assumption.
    - apply tle_set; assumption.
  Qed.
  Lemma insts_le ts : tles (map (inst env) ts) (map (inst env') ts).
  Proof. induction ts; cbn [map]; constructor; [apply inst_le | assumption]. Qed.
  Lemma inst_def_le d : tle (inst_def env d) (inst_def env' d).
  Proof.
    destruct d as [ts|r vs]; cbn [inst_def]; [apply tle_struct, insts_le|]. apply tle_enum.
    induction vs as [|x vs IH]; cbn [map]; constructor; [|exact IH]. split; [reflexivity | apply insts_le].
  Qed.
End Inst.

Lemma unroll_nominal defs n k : nominal (unroll defs n k).
Proof. destruct n as [|n]; cbn [unroll]; [reflexivity|]. destruct (defs k); reflexivity. Qed.

Lemma unroll_step defs n : forall k, tle (unroll defs n k) (unroll defs (S n) k).
Proof.
  induction n as [|n IH]; intros k; [apply tle_bottom|].
  cbn [unroll]. apply inst_def_le; [exact IH | apply unroll_nominal | intros j; apply (unroll_nominal defs (S n))].
Qed.
Lemma unroll_le defs n m k : (n <= m)%nat -> tle (unroll defs n k) (unroll defs m k).
Proof.
  induction 1 as [|m Hm IH]; [apply tle_refl|]. apply tle_trans with (t2 := unroll defs m k); [exact IH | apply unroll_step].
Qed.
