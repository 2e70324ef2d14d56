(* The front end of the derive macros: C82-C84. *)
From Coq Require Import Lia.
From Verif Require Import Base Types Spec Macro SpecMacro SpecDecode SpecSize Sized BaseFacts WireFacts SizeProofs DeriveProofs.
Set Implicit Arguments.
Local Open Scope Z_scope.

Definition plain (v : option expr) : Prop := match v with Some (XInt z) => z < 2 ^ 128 | Some _ => False | None => True end.

Lemma read_plain vs : Forall plain vs -> forall prev, read_from prev vs = discriminants_from prev (map (option_map expr_value) vs).
Proof.
  induction 1 as [|[e|] vs Hv H IH]; intros prev; cbn [read_from map option_map discriminants_from]; [reflexivity| |].
  - destruct e; cbn [plain] in Hv; try contradiction. cbn [read_expr expr_value].
    replace (z <? 2 ^ 128) with true by lia. cbn [option_map next_discriminant]. rewrite IH. reflexivity.
  - destruct (next_discriminant prev None); [|reflexivity]. rewrite IH. reflexivity.
Qed.

Lemma read_some vs : forall prev ds, read_from prev vs = Some ds -> Forall plain vs.
Proof.
  induction vs as [|v vs IH]; intros prev ds H; [constructor|]. cbn [read_from] in H.
  destruct v as [e|].
  - destruct e; cbn [read_expr option_map] in H; try discriminate. destruct (Z.ltb_spec z (2 ^ 128)); [|discriminate]. cbn [option_map next_discriminant] in H.
    destruct (read_from (Some z) vs) as [l|] eqn:E; [|discriminate]. constructor; [cbn [plain]; lia | eauto].
  - destruct (next_discriminant prev None) as [d|]; [|discriminate]. destruct (read_from (Some d) vs) as [l|] eqn:E; [|discriminate].
    constructor; [exact I | eauto].
Qed.

Lemma C82_agrees_lemma vs ds : read_discriminants vs = Some ds ->
  length ds = length vs /\ forall i d, nth_error ds i = Some d <-> RustAssigned vs i d.
Proof.
  intros H. pose proof (read_some _ _ H) as Hp. unfold read_discriminants in H. rewrite (read_plain Hp) in H.
  split.
  - apply discriminants_from_spec in H. rewrite map_length in H. exact H.
  - intros i d. apply (@discriminants_assigned _ _ i d H).
Qed.

Lemma plain_dec v : {plain v} + {~ plain v}.
Proof. destruct v as [[z| | | | |]|]; cbn [plain]; try (right; tauto); [|left; exact I]. destruct (Z_lt_dec z (2 ^ 128)); [left | right]; assumption. Qed.

Lemma C82_exact_lemma vs : exprs_ok vs ->
  (read_discriminants vs = None <->
   (exists e, In (Some e) vs /\ forall z, e <> XInt z) \/ (exists i d, RustAssigned vs i d /\ 2 ^ 128 <= d)).
Proof.
  intros Hok. destruct (Forall_dec plain plain_dec vs) as [Hp|Hp].
  - unfold read_discriminants. rewrite (read_plain Hp).
    assert (Hr : Forall (fun d => match d with Some z => 0 <= z < 2 ^ 128 | None => True end) (map (option_map expr_value) vs)).
    { unfold exprs_ok in Hok. rewrite Forall_forall in *. intros x Hx. apply in_map_iff in Hx. destruct Hx as (v & <- & Hv).
      specialize (Hok _ Hv). specialize (Hp _ Hv). destruct v as [[z| | | | |]|]; cbn in *; try contradiction; [lia | exact I]. }
    pose proof (C38_lemma Hr) as H. unfold discriminants in H.
    destruct (discriminants_from None (map (option_map expr_value) vs)) as [ds|] eqn:E.
    + split; [discriminate|]. intros [(e & He & Hne)|(i & d & Ha & Hd)].
      * rewrite Forall_forall in Hp. specialize (Hp _ He). destruct e; cbn in Hp; try contradiction. exfalso. eapply Hne. reflexivity.
      * exfalso. destruct H as [_ H]. apply H in Ha.
        assert (Hb : Forall (fun d => d < 2 ^ 128) ds).
        { clear - E Hr. revert E. generalize (@None Z) at 1. revert ds. induction Hr as [|x l Hx Hr IH]; intros ds prev E; cbn [discriminants_from] in E.
          - injection E as <-. constructor.
          - destruct (next_discriminant prev x) as [d|] eqn:En; [|discriminate]. destruct (discriminants_from (Some d) l) as [l'|] eqn:El; [|discriminate].
            injection E as <-. constructor; [|eapply IH; exact El]. unfold next_discriminant in En. destruct x as [z|]; [injection En as <-; lia|].
            destruct prev as [p|]; [|injection En as <-; lia]. destruct (Z.ltb_spec (p + 1) (2 ^ 128)); [|discriminate]. injection En as <-. assumption. }
        rewrite Forall_forall in Hb. specialize (Hb _ (nth_error_In _ _ Ha)). lia.
    + split; [|reflexivity]. intros _. right. exact H.
  - split; [|intros _; destruct (read_discriminants vs) eqn:E; [|reflexivity]; exfalso; apply Hp; apply (read_some _ _ E)].
    intros _. assert (Hx : Exists (fun v => ~ plain v) vs) by (apply neg_Forall_Exists_neg; [exact plain_dec | exact Hp]).
    apply Exists_exists in Hx. destruct Hx as (v & Hv & Hn). destruct v as [e|]; [|exfalso; apply Hn; exact I].
    destruct e; try (left; eexists; split; [exact Hv | discriminate]). cbn [plain] in Hn. right.
    apply In_nth_error in Hv. destruct Hv as [i Hi]. exists i, z. split; [|lia]. apply A_explicit.
    apply (nth_error_map_some (option_map expr_value) _ _ Hi).
Qed.

(* ---- C83 *)

Definition hint_int (h : hint) : Prop := exists i, h = HInt i.

Lemma repr_hints_none this hs : repr_hints this hs = None <-> exists h, In h hs /\ ~ hint_int h.
Proof.
  revert this. induction hs as [|h hs IH]; intros this; cbn [repr_hints In].
  - split; [discriminate | intros (h & [] & _)].
  - destruct h; try (split; [intros _ | reflexivity]; eexists; split; [left; reflexivity|]; intros [j Hj]; discriminate).
    rewrite IH. split; intros (h & Hi & Hn); exists h; (split; [|exact Hn]); [right; exact Hi|]. destruct Hi as [<-|Hi]; [exfalso; apply Hn; eexists; reflexivity | exact Hi].
Qed.
Lemma repr_attrs_none attrs : forall this, repr_attrs this attrs = None <-> exists h, In h (hints attrs) /\ ~ hint_int h.
Proof.
  induction attrs as [|a attrs IH]; intros this; cbn [repr_attrs hints flat_map].
  - split; [discriminate | intros (h & [] & _)].
  - destruct a as [hs|]; [|cbn [app]; apply IH]. destruct (repr_hints this hs) as [x|] eqn:E.
    + rewrite IH. split; intros (h & Hi & Hn); exists h; (split; [|exact Hn]); [apply in_or_app; right; exact Hi|].
      apply in_app_or in Hi. destruct Hi as [Hi|Hi]; [|exact Hi]. exfalso.
      assert (repr_hints this hs = None) by (apply repr_hints_none; eauto). congruence.
    + split; [intros _|reflexivity]. apply repr_hints_none in E. destruct E as (h & Hi & Hn). exists h. split; [apply in_or_app; left; exact Hi | exact Hn].
Qed.

Lemma repr_hints_some hs : forall this x, repr_hints this hs = Some x ->
  (exists i, x = Some i /\ In (HInt i) hs) \/ (x = this /\ forall i, ~ In (HInt i) hs).
Proof.
  induction hs as [|h hs IH]; intros this x H; cbn [repr_hints] in H; [injection H as <-; right; split; [reflexivity | intros i []]|].
  destruct h; try discriminate. destruct (IH _ _ H) as [(j & -> & Hj)|[-> Hn]]; left; eexists; (split; [reflexivity|]); [right; exact Hj | left; reflexivity].
Qed.
Lemma repr_attrs_some attrs : forall this x, repr_attrs this attrs = Some x ->
  (exists i, x = Some i /\ In (HInt i) (hints attrs)) \/ (x = this /\ forall i, ~ In (HInt i) (hints attrs)).
Proof.
  induction attrs as [|a attrs IH]; intros this x H; cbn [repr_attrs hints flat_map] in *; [injection H as <-; right; split; [reflexivity | intros i []]|].
  destruct a as [hs|]; [|cbn [app]; apply IH; exact H]. destruct (repr_hints this hs) as [y|] eqn:E; [|discriminate].
  destruct (IH _ _ H) as [(j & -> & Hj)|[-> Hn]]; [left; exists j; split; [reflexivity | apply in_or_app; right; exact Hj]|].
  destruct (repr_hints_some _ _ E) as [(j & -> & Hj)|[-> Hn']]; [left; exists j; split; [reflexivity | apply in_or_app; left; exact Hj]|].
  right. split; [reflexivity|]. intros i Hi. apply in_app_or in Hi. destruct Hi as [Hi|Hi]; [apply (Hn' _ Hi) | apply (Hn _ Hi)].
Qed.

Lemma C83_agrees_lemma attrs r : repr_consistent attrs -> repr_of attrs = Some r -> forall i, RustRepr attrs i <-> i = r.
Proof.
  unfold repr_of, repr_get. intros Hc H i. destruct (repr_attrs None attrs) as [x|] eqn:E; [|discriminate]. cbn [option_map] in H. injection H as <-.
  destruct (repr_attrs_some _ _ E) as [(j & -> & Hj)|[-> Hn]].
  - split; [|intros ->; constructor; exact Hj]. destruct 1 as [i Hi|Hi]; [apply (Hc _ _ Hi Hj) | exfalso; apply (Hi _ Hj)].
  - split; [|intros ->; apply RR_default; exact Hn]. destruct 1 as [i Hi|Hi]; [exfalso; apply (Hn _ Hi) | reflexivity].
Qed.
Lemma C83_exact_lemma attrs : repr_of attrs = None <-> exists h, In h (hints attrs) /\ forall i, h <> HInt i.
Proof.
  unfold repr_of, repr_get. destruct (repr_attrs None attrs) as [x|] eqn:E; cbn [option_map].
  - split; [discriminate|]. intros (h & Hi & Hn). exfalso. assert (repr_attrs None attrs = None); [|congruence].
    apply repr_attrs_none. exists h. split; [exact Hi|]. intros [i ->]. apply (Hn i). reflexivity.
  - split; [|reflexivity]. intros _. apply repr_attrs_none in E. destruct E as (h & Hi & Hn). exists h. split; [exact Hi|]. intros i ->. apply Hn. exists i. reflexivity.
Qed.

(* ---- C84 *)
Lemma C84_lemma params w : Forall (fun p => g_default p = None) params -> rust_header_ok params w (derive_header params w).
Proof.
  intros H. split; [reflexivity|]. split; [exact H|]. split; cbn [derive_header h_args h_params].
  - clear H. induction params; constructor; [split; reflexivity | assumption].
  - clear H. induction params; constructor; [repeat split | assumption].
Qed.
Lemma C84_exact_lemma params w : rust_header_ok params w (derive_header params w) <-> Forall (fun p => g_default p = None) params.
Proof. split; [intros [_ [H _]]; exact H | apply C84_lemma]. Qed.

(* ---- Whole definitions *)
Lemma discriminants_explicit ds : forall prev, discriminants_from prev (map Some ds) = Some ds.
Proof. induction ds as [|d ds IH]; intros prev; [reflexivity|]. cbn [map discriminants_from next_discriminant]. rewrite IH. reflexivity. Qed.

Lemma combine_fst A B (a : list A) : forall (b : list B), length a = length b -> map fst (combine a b) = a.
Proof. induction a as [|x a IH]; intros [|y b] H; try discriminate; [reflexivity|]. injection H as H. cbn. f_equal. apply IH, H. Qed.
Lemma combine_snd A B (a : list A) : forall (b : list B), length a = length b -> map snd (combine a b) = b.
Proof. induction a as [|x a IH]; intros [|y b] H; try discriminate; [reflexivity|]. injection H as H. cbn. f_equal. apply IH, H. Qed.

Lemma C82_lemma tr attrs vs t : tr <> TrSizedEncode -> repr_consistent attrs -> derive tr (Item attrs (DEnum vs)) = Some t ->
  exists r vs', t = TEnum r vs' /\ (forall i, RustRepr attrs i <-> i = r) /\ map snd vs' = map v_fields vs /\
                (forall i d, Assigned (map fst vs') i d <-> RustAssigned (map v_disc vs) i d).
Proof.
  intros Htr Hc H. unfold derive in H. cbn [it_data it_attrs] in H. destruct (repr_of attrs) as [r|] eqn:Er; [|discriminate].
  assert (H' : match read_discriminants (map v_disc vs) with None => None | Some ds => Some (TEnum r (combine (map Some ds) (map v_fields vs))) end = Some t)
    by (destruct tr; [exact H | exact H | contradiction]).
  clear H. destruct (read_discriminants (map v_disc vs)) as [ds|] eqn:Ed; [|discriminate]. injection H' as <-.
  destruct (C82_agrees_lemma _ Ed) as [Hl Ha].
  assert (Hl' : length (map (@Some Z) ds) = length (map v_fields vs)) by (rewrite !map_length in *; exact Hl).
  exists r, (combine (map Some ds) (map v_fields vs)). rewrite (combine_fst _ _ Hl'), (combine_snd _ _ Hl').
  split; [reflexivity|]. split; [apply (C83_agrees_lemma Hc Er)|]. split; [reflexivity|].
  intros i d. rewrite <- Ha. symmetry. apply discriminants_assigned. apply discriminants_explicit.
Qed.

Lemma C82_compiles_lemma tr attrs vs r vs' : tr <> TrSizedEncode -> rust_enum_ok attrs (map v_disc vs) ->
  derive tr (Item attrs (DEnum vs)) = Some (TEnum r vs') -> enum_ok r vs'.
Proof.
  intros Htr (_ & Hc & Hok) H. destruct (C82_lemma vs Htr Hc H) as (r' & vs'' & He & Hr & _ & Ha). injection He as <- <-.
  destruct (Hok r (proj2 (Hr r) eq_refl)) as [Hin Hinj].
  assert (Hd : exists ds, discriminants (map fst vs') = Some ds).
  { unfold derive in H. cbn [it_data it_attrs] in H. destruct (repr_of attrs) as [r0|] eqn:Er; [|discriminate].
    assert (H' : match read_discriminants (map v_disc vs) with None => None | Some ds => Some (TEnum r0 (combine (map Some ds) (map v_fields vs))) end = Some (TEnum r vs'))
      by (destruct tr; [exact H | exact H | contradiction]).
    destruct (read_discriminants (map v_disc vs)) as [ds|] eqn:Ed; [|discriminate]. injection H' as _ <-.
    destruct (C82_agrees_lemma _ Ed) as [Hl _]. rewrite combine_fst by (rewrite !map_length in *; exact Hl). exists ds. apply discriminants_explicit. }
  destruct Hd as [ds Hd]. unfold enum_ok. rewrite Hd.
  assert (Hn : forall i d, nth_error ds i = Some d <-> RustAssigned (map v_disc vs) i d) by (intros i d; rewrite <- Ha; apply (@discriminants_assigned _ _ i d Hd)).
  split.
  - rewrite Forall_forall. intros d Hd'. apply In_nth_error in Hd'. destruct Hd' as [i Hi]. apply Hn in Hi. apply (Hin _ _ Hi).
  - apply NoDup_nth_error. intros i j Hi Hij. destruct (nth_error ds i) as [d|] eqn:Ei; [|apply nth_error_None in Ei; lia].
    apply (Hinj i j d); apply Hn; [exact Ei | symmetry; exact Hij].
Qed.

Lemma in_ity_lt r d : in_ity r d -> d < 2 ^ 128.
Proof. destruct r; unfold in_ity; cbn; lia. Qed.

Lemma rust_repr_exists attrs : exists r, RustRepr attrs r.
Proof.
  assert (H : (exists i, In (HInt i) (hints attrs)) \/ forall i, ~ In (HInt i) (hints attrs)).
  { induction (hints attrs) as [|h l IH]; [right; intros i []|]. destruct IH as [[i Hi]|Hn]; [left; exists i; right; exact Hi|].
    destruct h as [i| | | |]; [left; exists i; left; reflexivity | | | |]; right; intros j [Hj|Hj]; try discriminate; apply (Hn j Hj). }
  destruct H as [[i Hi]|Hn]; [exists i; constructor; exact Hi | exists Isize; apply RR_default; exact Hn].
Qed.

Lemma C83_lemma tr attrs vs : rust_enum_ok attrs (map v_disc vs) ->
  (derive tr (Item attrs (DEnum vs)) = None <->
   (exists h, In h (hints attrs) /\ forall i, h <> HInt i) \/
   (tr <> TrSizedEncode /\ exists e, In (Some e) (map v_disc vs) /\ forall z, e <> XInt z)).
Proof.
  intros (Hx & Hc & Hok). pose proof (C83_exact_lemma attrs) as Hr. pose proof (C82_exact_lemma Hx) as Hd.
  assert (Hbig : ~ exists i d, RustAssigned (map v_disc vs) i d /\ 2 ^ 128 <= d).
  { intros (i & d & Ha & Hge). destruct (rust_repr_exists attrs) as [r Hrr]. destruct (Hok r Hrr) as [Hin _].
    pose proof (in_ity_lt _ _ (Hin _ _ Ha)). lia. }
  unfold derive. cbn [it_data it_attrs]. destruct (repr_of attrs) as [r|] eqn:Er.
  - assert (Hn : ~ exists h, In h (hints attrs) /\ forall i, h <> HInt i) by (intros H; apply Hr in H; discriminate).
    destruct tr.
    + destruct (read_discriminants (map v_disc vs)) as [ds|].
      * split; [discriminate|]. intros [H|[_ H]]; [contradiction|]. assert (Some ds = None) by (apply Hd; left; exact H). discriminate.
      * split; [|reflexivity]. intros _. right. split; [discriminate|]. destruct (proj1 Hd eq_refl) as [H|H]; [exact H | contradiction].
    + destruct (read_discriminants (map v_disc vs)) as [ds|].
      * split; [discriminate|]. intros [H|[_ H]]; [contradiction|]. assert (Some ds = None) by (apply Hd; left; exact H). discriminate.
      * split; [|reflexivity]. intros _. right. split; [discriminate|]. destruct (proj1 Hd eq_refl) as [H|H]; [exact H | contradiction].
    + split; [discriminate|]. intros [H|[H _]]; [contradiction | exfalso; apply H; reflexivity].
  - split; [|reflexivity]. intros _. left. apply Hr. reflexivity.
Qed.

(* definitions the compiler accepts and the macros do not *)
Definition one_variant (e : expr) : list variant := [Variant (Some e) []; Variant None [TBool]].

Lemma one_variant_ok e : expr_ok e -> -128 <= expr_value e < 127 -> rust_enum_ok [] (map v_disc (one_variant e)).
Proof.
  intros He Hv. cbn [one_variant map v_disc]. split; [repeat constructor; exact He|]. split; [intros i j []|]. intros r Hr.
  assert (r = Isize) as -> by (destruct Hr as [i Hi|Hi]; [contradiction Hi | reflexivity]).
  assert (Ha : forall i d, RustAssigned [Some e; None] i d -> d = expr_value e + Z.of_nat i /\ (i < 2)%nat).
  { intros i d H. unfold RustAssigned in H. cbn [map option_map] in H. induction H as [i d H|H|i d H H' IH].
    - destruct i as [|[|[|i]]]; cbn in H; try discriminate. injection H as <-. lia.
    - discriminate H.
    - destruct i as [|[|i]]; cbn in H; try discriminate. lia. }
  split; intros i.
  - intros d H. apply Ha in H. unfold in_ity. cbn. lia.
  - intros j d H H'. apply Ha in H. apply Ha in H'. lia.
Qed.

Lemma C83_refutation : forall tr, tr <> TrSizedEncode ->
  (forall e, expr_ok e -> -128 <= expr_value e < 127 -> (forall z, e <> XInt z) ->
     rust_enum_ok [] (map v_disc (one_variant e)) /\ derive tr (Item [] (DEnum (one_variant e))) = None) /\
  rust_enum_ok [ARepr [HC; HInt U8]] [None; None] /\ derive tr (Item [ARepr [HC; HInt U8]] (DEnum [Variant None []; Variant None []])) = None /\
  rust_enum_ok [ARepr [HInt U8]; ARepr [HAlign 8]] [None; None] /\
  derive tr (Item [ARepr [HInt U8]; ARepr [HAlign 8]] (DEnum [Variant None []; Variant None []])) = None.
Proof.
  assert (Hok : forall attrs, hints attrs = [HC; HInt U8] \/ hints attrs = [HInt U8; HAlign 8] -> rust_enum_ok attrs [None; None]).
  { intros attrs Hh. split; [repeat constructor|].
    assert (Hu : forall i, In (HInt i) (hints attrs) -> i = U8).
    { intros i Hi. destruct Hh as [Hh|Hh]; rewrite Hh in Hi; cbn in Hi; destruct Hi as [Hi|[Hi|[]]]; congruence. }
    split; [intros i j Hi Hj; rewrite (Hu _ Hi), (Hu _ Hj); reflexivity|]. intros r Hr.
    assert (r = U8) as -> by (destruct Hr as [i Hi|Hi]; [apply Hu, Hi | exfalso; apply (Hi U8); destruct Hh as [Hh|Hh]; rewrite Hh; cbn; tauto]).
    assert (Ha : forall i d, RustAssigned [None; None] i d -> d = Z.of_nat i /\ (i < 2)%nat).
    { intros i d H. unfold RustAssigned in H. cbn [map option_map] in H. induction H as [i d H|H|i d H H' IH].
      - destruct i as [|[|[|i]]]; cbn in H; discriminate.
      - lia.
      - destruct i as [|[|i]]; cbn in H; try discriminate. lia. }
    split; intros i.
    - intros d H. apply Ha in H. unfold in_ity. cbn. lia.
    - intros j d H H'. apply Ha in H. apply Ha in H'. lia. }
  intros tr Htr. split; [|split; [apply Hok; left; reflexivity | split; [destruct tr; reflexivity | split; [apply Hok; right; reflexivity | destruct tr; reflexivity]]]].
  intros e He Hv Hne. pose proof (one_variant_ok _ He Hv) as Ho. split; [exact Ho|]. apply (C83_lemma tr _ Ho). right. split; [exact Htr|].
  exists e. split; [left; reflexivity | exact Hne].
Qed.
