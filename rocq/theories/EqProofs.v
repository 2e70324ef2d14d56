(* Equal values encode alike: C81. *)
From Coq Require Import Lia Permutation.
From Verif Require Import Base Streams Utf8 Types Traits Encode Decode Spec SpecCalls SpecDecode SpecValues SpecEq
  BaseFacts TypesFacts WireFacts AcceptFacts SizeProofs EvolveProofs ComputeFacts.
Set Implicit Arguments.

Lemma same_items2 {A} (f : A -> E) wrap l m : Forall2 (fun x y => Same (f x) (f y)) l m -> forall i, Same (enc_items f wrap i l) (enc_items f wrap i m).
Proof. induction 1; intros i; cbn [enc_items]; [apply same_refl|]. apply same_seq; [apply same_map_err; auto | auto]. Qed.
Lemma same_slice2 {A} (f : A -> E) wrap l m : Forall2 (fun x y => Same (f x) (f y)) l m -> Same (enc_slice f wrap l) (enc_slice f wrap m).
Proof.
  intros H. unfold enc_slice. apply same_seq; [|apply same_items2; exact H].
  replace (length m) with (length l) by (clear - H; induction H; cbn [length]; congruence). apply same_refl.
Qed.

Lemma forall2_impl {A} (P Q : A -> A -> Prop) l m : (forall x y, P x y -> Q x y) -> Forall2 P l m -> Forall2 Q l m.
Proof. intros H. induction 1; constructor; auto. Qed.

Definition plain t := contains is_float t = false /\ contains is_hash t = false.

Lemma same_fields ch conv ts :
  Forall (fun t => contains is_float t = false -> contains is_hash t = false -> forall v w, RustEq t v w -> Same (encode ch t v) (encode ch t w)) ts ->
  existsb (contains is_float) ts = false -> existsb (contains is_hash) ts = false ->
  forall vs ws, all3 (map RustEq ts) vs ws -> Same (enc_fields (map (encode ch) ts) conv vs) (enc_fields (map (encode ch) ts) conv ws).
Proof.
  induction 1 as [|t ts H1 H IH]; intros Hf Hh [|v vs] [|w ws] He; cbn [map all3] in He; try contradiction; [apply same_refl|].
  cbn [existsb] in *. apply orb_false_iff in Hf, Hh. destruct He as [He1 He2]. cbn [map enc_fields].
  apply same_seq; [apply same_map_err; [reflexivity|]; apply H1; tauto | apply IH; tauto].
Qed.

Lemma equal_same ch t : contains is_float t = false -> contains is_hash t = false -> forall v w, RustEq t v w -> Same (encode ch t v) (encode ch t w).
Proof.
  induction t using ty_ind_strong; intros Hf Hh v v2 He; cbn [contains is_float is_hash orb] in Hf, Hh; try discriminate;
    repeat match goal with H : _ || _ = false |- _ => apply orb_false_iff in H; destruct H end;
    try (match goal with w' : wrapper |- _ => destruct w' end);
    destruct v; try (cbn [RustEq] in He; contradiction); match type of He with RustEq _ _ ?x => destruct x end; cbn [RustEq] in He; try contradiction;
    try (rewrite He; apply same_refl); cbn [encode]; try apply same_refl.
  all: repeat (first [apply same_seq; [apply same_refl|] | apply same_map_err; [reflexivity|]]).
  all: try (apply IHt; assumption); try (apply IHt1; assumption); try (apply IHt2; assumption);
    try (apply same_slice2; eapply forall2_impl; [|exact He]; auto; fail);
    try (apply same_items2; eapply forall2_impl; [|exact He]; auto; fail);
    try (apply same_fields; assumption);
    try (apply same_seq; apply IHt; tauto).
  - destruct He as (-> & -> & He). unfold enc_refcell. apply same_map_err; [reflexivity | auto].
  - destruct He as [<- He]. destruct (nth_error (map (fun x => map RustEq (snd x)) vs) i) as [ps|] eqn:E; [|contradiction].
    apply nth_error_map_inv in E. destruct E as (x & Ex & ->). unfold enc_enum.
    destruct (discriminants (map fst vs)) as [ds|]; [|apply same_refl]. destruct (nth_error ds i); [|apply same_refl].
    rewrite (nth_error_map_some (fun x => map (encode ch) (snd x)) _ _ Ex). apply same_seq; [apply same_refl|].
    pose proof (nth_error_In _ _ Ex) as Hin. rewrite Forall_forall in H.
    apply existsb_forall in Hf, Hh. rewrite Forall_forall in Hf, Hh.
    apply same_fields; [apply (H _ Hin) | apply (Hf _ Hin) | apply (Hh _ Hin) | exact He].
Qed.

Lemma C81_lemma ch t v w o : contains is_float t = false -> contains is_hash t = false -> RustEq t v w -> encode ch t v o = encode ch t w o.
Proof. intros Hf Hh He. apply equal_same; assumption. Qed.

(* -0.0 == 0.0; and a set that yields its two members in another order *)
Lemma C81_refutation ch :
  (exists v w b c, RustEq TF32 v w /\ wt TF32 v /\ wt TF32 w /\ Appends (encode ch TF32 v) b (Ok tt) /\ Appends (encode ch TF32 w) c (Ok tt) /\ b <> c) /\
  (exists v w b c, RustEq (THashSet (TInt U8)) v w /\ wt (THashSet (TInt U8)) v /\ wt (THashSet (TInt U8)) w /\
     Appends (encode ch (THashSet (TInt U8)) v) b (Ok tt) /\ Appends (encode ch (THashSet (TInt U8)) w) c (Ok tt) /\ b <> c).
Proof.
  split.
  - exists (VInt 0), (VInt (2 ^ 31)), [x00; x00; x00; x00], [x00; x00; x00; x80].
    split; [|split; [|split; [|split; [|split]]]]; try (cbn [wt]; lia); try discriminate.
    + cbn [RustEq]. unfold float_eq, is_nan, is_zero. cbn. intuition lia.
    + destruct ch; apply (appends_by_run _ 4); vm_compute; reflexivity.
    + destruct ch; apply (appends_by_run _ 4); vm_compute; reflexivity.
  - exists (VSet [VInt 1; VInt 2]), (VSet [VInt 2; VInt 1]), [x01; x02], [x02; x01].
    split; [|split; [|split; [|split; [|split]]]]; try discriminate.
    + exists [VInt 2; VInt 1]. split; [constructor|]. repeat constructor.
    + cbn [wt]. split; [repeat constructor; cbn; intuition discriminate | repeat constructor; cbn; lia].
    + cbn [wt]. split; [repeat constructor; cbn; intuition discriminate | repeat constructor; cbn; lia].
    + destruct ch; apply (appends_by_run _ 4); vm_compute; reflexivity.
    + destruct ch; apply (appends_by_run _ 4); vm_compute; reflexivity.
Qed.
