(* Errors: sources and messages. *)
From Coq Require Import NArith Nnat Lia ZifyBool ZifyNat ZifyN String Ascii.
From Verif Require Import Base BaseFacts Streams Utf8 Types TypesFacts Traits Encode Decode Spec SpecCalls SpecDecode SpecDerive SpecErrors SizedSlice SizedStr
  ErrorText SpecText EncodeProofs DeriveProofs ErrorProofs FailureProofs RejectProofs.
Set Implicit Arguments.
Local Open Scope list_scope.

(* ---- C85: which errors are errors in the sense of the language *)
Lemma int_is_error i : ety_is_error (int_ety i) = true.
Proof. destruct i; reflexivity. Qed.
Lemma of_eerr_some y e : EOf y e -> ety_is_error y = true -> exists r, of_eerr e = Some r.
Proof.
  induction 1; cbn [ety_is_error of_eerr]; intros Hy; try discriminate; eauto;
    try (apply andb_true_iff in Hy; destruct Hy as [Hy1 Hy2]); try discriminate;
    try (match goal with IH : ?P -> exists r, _ |- _ => let Hp := fresh in assert (Hp : P) by (assumption || apply int_is_error); destruct (IH Hp) as [x Hx]; rewrite Hx; cbn [option_map]; eauto end).
Qed.
Lemma of_derr_some z e : DOf z e -> dety_is_error z = true -> exists r, of_derr e = Some r.
Proof.
  induction 1; cbn [dety_is_error of_derr]; intros Hz; try discriminate; eauto;
    try (apply andb_true_iff in Hz; destruct Hz as [Hz1 Hz2]);
    try (match goal with IH : ?P -> exists r, _ |- _ => let Hp := fresh in assert (Hp : P) by assumption; destruct (IH Hp) as [x Hx]; rewrite Hx; cbn [option_map]; eauto end).
Qed.
Lemma dety_all z : dety_is_error z = true.
Proof. induction z; cbn [dety_is_error]; try reflexivity; try assumption. rewrite IHz1, IHz2. reflexivity. Qed.

Lemma enc_is_error t : contains is_linked t = false -> forall y, enc_ety t = Some y -> ety_is_error y = true.
Proof.
  induction t using ty_ind_strong; intros Hc y Hy; cbn [contains is_linked orb] in Hc; try discriminate; cbn [enc_ety] in Hy;
    try (injection Hy as <-; reflexivity); try (apply IHt; assumption).
  - injection Hy as <-. destruct i; reflexivity.
  - injection Hy as <-. destruct i; reflexivity.
  - apply orb_false_iff in Hc as [H1 H2]. destruct (enc_ety t1) as [y1|]; [|discriminate]. destruct (enc_ety t2) as [y2|]; [|discriminate].
    destruct (into_ety y2 y1); [|discriminate]. injection Hy as <-. apply IHt1; [exact H1 | reflexivity].
  - destruct ts as [|t ts]; [discriminate|]. cbn [map] in Hy. destruct (enc_ety t) as [y0|] eqn:Ey; [|discriminate].
    destruct (all_same _ _); [|discriminate]. injection Hy as <-. inversion H; subst. cbn [existsb] in Hc. apply orb_false_iff in Hc as [Hc _]. auto.
  - destruct (enc_ety t) as [y0|]; [|discriminate]. injection Hy as <-. cbn. apply IHt; [exact Hc | reflexivity].
  - destruct (enc_ety t) as [y0|]; [|discriminate]. injection Hy as <-. cbn. apply IHt; [exact Hc | reflexivity].
  - destruct (enc_ety t) as [y0|]; [|discriminate]. injection Hy as <-. cbn. apply IHt; [exact Hc | reflexivity].
  - destruct (enc_ety t) as [y0|]; [|discriminate]. injection Hy as <-. cbn. apply IHt; [exact Hc | reflexivity].
  - destruct (enc_ety t) as [y0|]; [|discriminate]. injection Hy as <-. cbn. apply IHt; [exact Hc | reflexivity].
  - destruct (enc_ety t) as [y0|]; [|discriminate]. injection Hy as <-. cbn. apply IHt; [exact Hc | reflexivity].
  - apply orb_false_iff in Hc as [H1 H2]. destruct (enc_ety t1) as [y1|]; [|discriminate]. destruct (enc_ety t2) as [y2|]; [|discriminate].
    destruct (ety_eqb y1 y2); [|discriminate]. injection Hy as <-. apply IHt1; [exact H1 | reflexivity].
  - destruct (all_generic _); [|discriminate]. injection Hy as <-. reflexivity.
  - destruct (forallb _ _); [|discriminate]. injection Hy as <-. cbn. reflexivity.
Qed.

Lemma C85_encode_lemma ch t y v o o' e : contains is_linked t = false -> enc_ety t = Some y -> encode ch t v o = (o', Err e) ->
  ety_is_error y = true /\ exists r, of_eerr e = Some r.
Proof.
  intros Hc Hy He. pose proof (enc_is_error _ Hc Hy) as Hi. split; [exact Hi|].
  eapply of_eerr_some; [|exact Hi]. eapply C68_encode_lemma; eassumption.
Qed.
Lemma C85_decode_lemma t z i i' e : dec_ety t = Some z -> decode t i = (i', Err e) ->
  dety_is_error z = true /\ exists r, of_derr e = Some r.
Proof.
  intros Hz He. split; [apply dety_all|]. eapply of_derr_some; [|apply dety_all]. eapply C68_decode_lemma; eassumption.
Qed.

(* ---- C86: the last source *)
Local Open Scope Z_scope.
Fixpoint esane (e : eerr) : Prop :=
  match e with
  | ELen e | EItem _ e | EItemTuple _ e | EDisc e | EField e | EBadValue e => esane e
  | EUsize z | EGUsize z => z < 0 \/ 65535 < z
  | EIsize z | EGIsize z => z < -32768 \/ 32767 < z
  | EBadBorrow => True
  | EGBorrow | ENoImpl => False
  end.
Lemma within_esane c e : EWithin c e -> esane e -> esane c.
Proof. induction 1; cbn [esane]; auto. Qed.
Lemma generic_esane e e' : EGeneric e e' -> esane e -> esane e'.
Proof. intros (c & Hc & Hr) Hs. pose proof (within_esane Hc Hs) as Hsc. destruct Hr; exact Hsc. Qed.
Lemma int_esane i z e : IntFails i z e -> esane e.
Proof. intros []; cbn [esane]; lia. Qed.

Lemma fails_sane_all ch :
  (forall t v bs e, Fails ch t v bs e -> esane e) /\ (forall ts vs bs e, FailsFields ch ts vs bs e -> esane e) /\
  (forall t vs k bs e, FailsItems ch t vs k bs e -> esane e) /\ (forall kt vt kvs bs e, FailsEntries ch kt vt kvs bs e -> esane e).
Proof.
  apply (@Fails_mutind ch (fun _ _ _ e _ => esane e) (fun _ _ _ e _ => esane e) (fun _ _ _ _ e _ => esane e) (fun _ _ _ _ e _ => esane e));
    intros; cbn [esane]; try assumption; try exact I; try (eapply generic_esane; eassumption); try (eapply int_esane; eassumption); try lia.
  match goal with H : Sequence _ _ _ |- _ => destruct H; cbn [esane]; assumption end.
Qed.
Lemma encode_esane ch t y v o o' e : enc_ety t = Some y -> wt t v -> (output_position o <= output_capacity o)%nat ->
  encode ch t v o = (o', Err e) -> esane e.
Proof.
  intros Hy Hv Hw He. destruct (@C08_lemma ch t v o o' (Err e) Hw He) as (bs & Hbs & Ha); [discriminate|].
  apply (proj1 (fails_sane_all ch) t v bs). eapply C88_lemma; eassumption.
Qed.

Ltac last_here := eexists; split; [repeat (eapply LS_next; [reflexivity|]); apply LS_here; reflexivity | constructor; auto].
Ltac last_next IH :=
  match goal with H : option_map _ ?o = Some _, Hs : _ |- _ =>
    let x := fresh "x" in let Ex := fresh "Ex" in let c := fresh "c" in let Hl := fresh "Hl" in let Hc := fresh "Hc" in
    destruct o as [x|] eqn:Ex; [|discriminate]; injection H as <-; destruct (IH _ eq_refl Hs) as (c & Hl & Hc);
    exists c; split; [repeat (eapply LS_next; [reflexivity|]); exact Hl | exact Hc] end.

Lemma last_encode e : forall r, of_eerr e = Some r -> esane e -> exists c, LastSource r c /\ EncodeCause c.
Proof.
  induction e; cbn [of_eerr esane]; intros r Hr Hs; try discriminate; try contradiction; try (injection Hr as <-; last_here); last_next IHe.
Qed.
Lemma last_decode e : forall r, of_derr e = Some r -> sane e -> exists c, LastSource r c /\ DecodeCause c.
Proof.
  induction e; cbn [of_derr sane]; intros q Hr Hs; try discriminate; try contradiction; try (injection Hr as <-; last_here); last_next IHe.
Qed.
Lemma last_inv e e' c : source e = Some e' -> LastSource e c -> LastSource e' c.
Proof. intros H Hl. inversion Hl; subst; congruence. Qed.
Lemma last_end e c : source e = None -> LastSource e c -> c = e.
Proof. intros H Hl. inversion Hl; subst; congruence. Qed.

Lemma C86_encode_lemma ch t y v o o' e r : enc_ety t = Some y -> wt t v -> (output_position o <= output_capacity o)%nat ->
  encode ch t v o = (o', Err e) -> of_eerr e = Some r -> exists c, LastSource r c /\ EncodeCause c.
Proof. intros Hy Hv Hw He Hr. apply (last_encode _ Hr). eapply encode_esane; eassumption. Qed.
Lemma decode_sane t z i i' e : EnumsOk t -> dec_ety t = Some z -> in_bounds i -> decode t i = (i', Err e) -> sane e.
Proof. intros Hok Hz Hw He. destruct (@C89_run_lemma t z i i' e Hok Hz Hw He) as (bs & post & _ & _ & Ha). exact (rejects_sane Ha). Qed.
Lemma C86_decode_lemma t z i i' e r : EnumsOk t -> dec_ety t = Some z -> in_bounds i -> decode t i = (i', Err e) -> of_derr e = Some r ->
  exists c, LastSource r c /\ DecodeCause c.
Proof. intros Hok Hz Hw He Hr. apply (last_decode _ Hr). eapply decode_sane; eassumption. Qed.

Lemma C86_generic_encode_lemma e : forall r g c, of_eerr e = Some r -> of_eerr (into_generic_enc e) = Some g -> LastSource r c -> LastSource g c.
Proof.
  induction e; cbn [of_eerr into_generic_enc]; intros r g c Hr Hg Hl; try discriminate;
    try (injection Hr as <-; injection Hg as <-; first [exact Hl | eapply LS_next; [reflexivity | exact Hl]]);
    match goal with H : option_map _ ?o = Some _ |- _ => destruct o as [x|] eqn:Ex; [|discriminate]; injection H as <- end;
    (eapply IHe; [reflexivity | exact Hg|]); repeat (eapply last_inv in Hl; [|reflexivity]); exact Hl.
Qed.
Lemma C86_generic_decode_lemma e : forall r g c, of_derr e = Some r -> of_derr (into_generic_dec e) = Some g -> LastSource r c ->
  match c with RUnassigned d => 0 <= d < 2 ^ 128 -> LastSource g (RGenUnassigned d) | _ => LastSource g c end.
Proof.
  induction e; cbn [of_derr into_generic_dec]; intros q g c0 Hr Hg Hl; try discriminate;
    try (injection Hr as <-; injection Hg as <-; repeat (eapply last_inv in Hl; [|reflexivity]); apply last_end in Hl; [|reflexivity]; subst c0;
         first [apply LS_here; reflexivity | eapply LS_next; [reflexivity | apply LS_here; reflexivity]]; fail);
    try (match goal with H : option_map _ ?o = Some _ |- _ => destruct o as [x|] eqn:Ex; [|discriminate]; injection H as <- end;
    (eapply IHe; [reflexivity | exact Hg|]); repeat (eapply last_inv in Hl; [|reflexivity]); exact Hl).
  injection Hr as <-. injection Hg as <-. apply last_end in Hl; [|reflexivity]. subst c0. intros Hd. unfold to_u128. rewrite Z.mod_small by exact Hd.
  apply LS_here. reflexivity.
Qed.

Lemma C86_string_lemma e : LastSource (of_string_error e) match e with BadUtf8 b i => RUtf8 b i | SmallBuffer (LengthError c l) => RLength c l end.
Proof. destruct e as [b i|[c l]]; (eapply LS_next; [reflexivity | apply LS_here; reflexivity]). Qed.

(* ---- C87: messages *)
Lemma C87_source_lemma e e' : source e = Some e' -> exists p, display e = p ++ display e'.
Proof.
  destruct e; cbn [source]; intros H; try discriminate; injection H as <-; cbn [display];
    repeat match goal with b : bool |- _ => destruct b end; rewrite ?app_assoc; try (eexists; reflexivity); exists []; reflexivity.
Qed.

(* numbers can be read back *)
Local Open Scope N_scope.
Definition undigit (b : byte) : N := let z := b2z b in Z.to_N (if z <? 58 then z - 48 else z - 55)%Z.
Definition unradix (b : N) (s : list byte) : N := fold_left (fun n d => b * n + undigit d) s 0.

Lemma digit_z d : d < 36 -> b2z (digit d) = if d <? 10 then (48 + Z.of_N d)%Z else (55 + Z.of_N d)%Z.
Proof. intros Hd. unfold digit. rewrite b2z_z2b. destruct (N.ltb_spec d 10); apply Z.mod_small; lia. Qed.
Lemma undigit_digit d : d < 36 -> undigit (digit d) = d.
Proof. intros Hd. unfold undigit. rewrite digit_z by exact Hd. destruct (N.ltb_spec d 10); match goal with |- context [(?x <? 58)%Z] => destruct (Z.ltb_spec x 58) end; lia. Qed.

Lemma fold_value b s : forall n, fold_left (fun n d => b * n + undigit d) s n = b ^ N.of_nat (List.length s) * n + unradix b s.
Proof.
  unfold unradix. induction s as [|d s IH]; intros n; cbn [fold_left List.length]; [rewrite N.pow_0_r; lia|].
  rewrite IH, (IH (b * 0 + undigit d)), Nat2N.inj_succ, N.pow_succ_r'. lia.
Qed.
Lemma unradix_app b s s' : unradix b (s ++ s') = b ^ N.of_nat (List.length s') * unradix b s + unradix b s'.
Proof. unfold unradix at 1. rewrite fold_left_app. apply fold_value. Qed.
Lemma unradix_one b d : unradix b [d] = undigit d.
Proof. unfold unradix. cbn [fold_left]. lia. Qed.

Lemma digits_small b fuel : 1 < b -> forall n, Forall (fun d => d < b) (digits b fuel n).
Proof.
  intros Hb. induction fuel as [|fuel IH]; intros n; cbn [digits]; [constructor|]. destruct (N.ltb_spec n b); [constructor; [assumption | constructor]|].
  apply Forall_app. split; [apply IH|]. constructor; [apply N.mod_lt; lia | constructor].
Qed.
Lemma digits_value b fuel : 1 < b <= 36 -> forall n, n < 2 ^ N.of_nat fuel -> (0 < fuel)%nat -> unradix b (map digit (digits b fuel n)) = n.
Proof.
  intros Hb. induction fuel as [|fuel IH]; intros n Hn Hf; [lia|]. cbn [digits]. destruct (N.ltb_spec n b).
  - cbn [map]. rewrite unradix_one, undigit_digit by lia. reflexivity.
  - rewrite map_app. cbn [map]. rewrite unradix_app, unradix_one. cbn [List.length]. change (N.of_nat 1) with 1. rewrite N.pow_1_r.
    pose proof (N.mod_lt n b). rewrite undigit_digit by lia. rewrite Nat2N.inj_succ, N.pow_succ_r' in Hn.
    assert (Hd : n / b < 2 ^ N.of_nat fuel) by (apply N.div_lt_upper_bound; nia).
    destruct fuel as [|fuel]; [change (2 ^ N.of_nat 0) with 1 in Hd; assert (n / b = 0) by lia; exfalso; apply N.div_small_iff in H1; lia|].
    rewrite IH by (assumption || lia). rewrite (N.div_mod n b) at 3 by lia. reflexivity.
Qed.
Lemma radix_value b n : 1 < b <= 36 -> unradix b (radix b n) = n.
Proof.
  intros Hb. unfold radix. apply digits_value; [exact Hb | | lia]. rewrite Nat2N.inj_succ, N2Nat.id. destruct (N.eq_dec n 0) as [->|Hn]; [reflexivity|].
  apply N.log2_spec. lia.
Qed.
Lemma pad_value b w s : unradix b (pad w s) = unradix b s.
Proof.
  unfold pad. rewrite unradix_app. replace (unradix b (repeat x30 (w - List.length s))) with 0; [lia|].
  induction (w - List.length s)%nat as [|k IH]; [reflexivity|]. cbn [repeat]. change (x30 :: repeat x30 k) with ([x30] ++ repeat x30 k).
  rewrite unradix_app, <- IH, unradix_one. change (undigit x30) with 0. lia.
Qed.

(* the characters of a number *)
Definition numeral (b : byte) : bool := let z := b2z b in between 48 57 z || between 65 90 z || (z =? 45)%Z.
Lemma digit_numeral d : d < 36 -> numeral (digit d) = true.
Proof. intros Hd. unfold numeral, between. rewrite digit_z by exact Hd. destruct (N.ltb_spec d 10); lia. Qed.
Lemma radix_numeral b n : 1 < b <= 36 -> Forall (fun c => numeral c = true) (radix b n).
Proof.
  intros Hb. unfold radix. apply Forall_map. eapply Forall_impl; [|apply digits_small; lia]. cbn beta. intros d Hd. apply digit_numeral. lia.
Qed.
Lemma pad_numeral w s : Forall (fun c => numeral c = true) s -> Forall (fun c => numeral c = true) (pad w s).
Proof. intros H. unfold pad. apply Forall_app. split; [|exact H]. apply Forall_forall. intros c Hc. apply repeat_spec in Hc. subst c. reflexivity. Qed.
Lemma signed_numeral z : Forall (fun c => numeral c = true) (fmt_signed z).
Proof. unfold fmt_signed, fmt_unsigned. destruct (z <? 0)%Z; [constructor; [reflexivity|]|]; apply radix_numeral; lia. Qed.
Lemma nat_numeral n : Forall (fun c => numeral c = true) (fmt_nat n).
Proof. apply radix_numeral. lia. Qed.

Lemma span_eq (p : byte -> bool) a : forall a' c c' r r', Forall (fun x => p x = true) a -> Forall (fun x => p x = true) a' -> p c = false -> p c' = false ->
  a ++ c :: r = a' ++ c' :: r' -> a = a' /\ c :: r = c' :: r'.
Proof.
  induction a as [|x a IH]; intros a' c c' r r' Ha Ha' Hc Hc' H; destruct a' as [|x' a']; cbn [app] in H.
  - auto.
  - injection H as -> _. inversion Ha'; subst. congruence.
  - injection H as -> _. inversion Ha; subst. congruence.
  - injection H as -> H. inversion Ha; subst. inversion Ha'; subst. destruct (IH _ _ _ _ _ H3 H5 Hc Hc' H) as [-> Hr]. auto.
Qed.

Lemma nat_inj n m : fmt_nat n = fmt_nat m -> n = m.
Proof. intros H. apply (f_equal (unradix 10)) in H. unfold fmt_nat, fmt_unsigned in H. rewrite !radix_value in H by lia. lia. Qed.
Lemma unsigned_head n : exists d r, fmt_unsigned n = digit d :: r /\ d < 10.
Proof.
  pose proof (radix_value n (b := 10) ltac:(lia)) as Hv. unfold fmt_unsigned, radix in *. pose proof (@digits_small 10 (S (N.to_nat (N.log2 n))) ltac:(lia) n) as Hd.
  destruct (digits 10 _ n) as [|d r] eqn:E.
  - exfalso. cbn [digits] in E. destruct (n <? 10); [discriminate|]. destruct (digits _ _ _); discriminate.
  - inversion Hd; subst. cbn [map]. eauto.
Qed.
Lemma signed_inj a b : fmt_signed a = fmt_signed b -> a = b.
Proof.
  unfold fmt_signed. assert (Hne : forall n m, x2d :: fmt_unsigned n <> fmt_unsigned m).
  { intros n m H. destruct (unsigned_head m) as (d & r & Hr & Hd). rewrite Hr in H. injection H as H _. apply (f_equal b2z) in H. rewrite digit_z in H by lia.
    destruct (N.ltb_spec d 10); [|lia]. change (b2z x2d) with 45%Z in H. lia. }
  destruct (Z.ltb_spec a 0); destruct (Z.ltb_spec b 0); intros E.
  - injection E as E. apply (f_equal (unradix 10)) in E. unfold fmt_unsigned in E. rewrite !radix_value in E by lia. lia.
  - destruct (Hne _ _ E).
  - symmetry in E. destruct (Hne _ _ E).
  - apply (f_equal (unradix 10)) in E. unfold fmt_unsigned in E. rewrite !radix_value in E by lia. lia.
Qed.
Lemma hex_inj w a b : fmt_hex w a = fmt_hex w b -> a = b.
Proof. unfold fmt_hex. intros H. apply (f_equal (unradix 16)) in H. rewrite !pad_value, !radix_value in H by lia. exact H. Qed.

(* texts that differ in a place that both have *)
Fixpoint differ (a b : list byte) : bool :=
  match a, b with
  | x :: a', y :: b' => if byte_eqb x y then differ a' b' else true
  | _, _ => false
  end.
Lemma differ_neq a : forall b x y, differ a b = true -> a ++ x <> b ++ y.
Proof.
  induction a as [|c a IH]; intros [|d b] x y H; try discriminate. cbn [differ app] in *. intros E. injection E as -> E.
  assert (Hd : byte_eqb d d = true) by (apply byte_eqb_spec; reflexivity). rewrite Hd in H. exact (IH _ _ _ H E).
Qed.
Definition stops (s : list byte) : bool := match s with c :: _ => negb (numeral c) | [] => false end.
Lemma span_txt a a' s s' r r' : Forall (fun x => numeral x = true) a -> Forall (fun x => numeral x = true) a' -> stops s = true -> stops s' = true ->
  a ++ s ++ r = a' ++ s' ++ r' -> a = a' /\ s ++ r = s' ++ r'.
Proof.
  intros Ha Ha' Hs Hs' H. destruct s as [|c s]; [discriminate|]. destruct s' as [|c' s']; [discriminate|]. cbn [stops app] in *.
  apply (span_eq numeral) in H; [exact H | exact Ha | exact Ha' | destruct (numeral c); [discriminate | reflexivity] | destruct (numeral c'); [discriminate | reflexivity]].
Qed.
Lemma span_end a a' s s' : Forall (fun x => numeral x = true) a -> Forall (fun x => numeral x = true) a' -> stops s = true -> stops s' = true ->
  a ++ s = a' ++ s' -> a = a' /\ s = s'.
Proof. intros Ha Ha' Hs Hs' H. destruct (@span_txt a a' s s' [] [] Ha Ha' Hs Hs') as [-> Hr]; [rewrite !app_nil_r; exact H|]. rewrite !app_nil_r in Hr. auto. Qed.

Ltac apart := match goal with H : ?a ++ _ = ?b ++ _ |- _ => exfalso; revert H; apply differ_neq; vm_compute; reflexivity end.
Ltac strip := match goal with H : ?a ++ _ = ?a ++ _ |- _ => apply app_inv_head in H end.
Ltac num := match goal with H : _ ++ _ = _ ++ _ |- _ =>
    first [apply span_txt in H | apply span_end in H];
    [destruct H as [?E H] | first [apply signed_numeral | apply nat_numeral | apply pad_numeral, radix_numeral; lia] .. | reflexivity | reflexivity] end.

Lemma not_borrow y e : EOf y e -> forall r, esane e -> of_eerr e = Some r -> display r <> txt "already mutably borrowed" ++ [].
Proof.
  destruct 1; intros q Hs Hq H0; cbn [esane of_eerr] in *; try contradiction; try discriminate;
    try (match goal with H : option_map _ ?o = Some _ |- _ => destruct o as [x|]; [|discriminate]; injection H as <- end);
    try (injection Hq as <-); cbn [display] in H0; apart.
Qed.

Lemma emsg_inj y e : EOf y e -> forall e' r r', EOf y e' -> esane e -> esane e' -> of_eerr e = Some r -> of_eerr e' = Some r' -> display r = display r' -> e = e'.
Proof.
  induction 1; intros e' q q' He' Hs Hs' Hq Hq' Hd; inversion He'; subst; cbn [esane of_eerr] in *; try contradiction; try discriminate;
    repeat (match goal with H : option_map _ ?o = Some _ |- _ => let x := fresh "x" in destruct o as [x|] eqn:?E; [|discriminate]; injection H as <- end);
    repeat (match goal with H : Some _ = Some _ |- _ => injection H as <- end); cbn [display] in Hd; try apart; try reflexivity; try (do 2 strip); try strip.
  - num. apply signed_inj in E. subst. reflexivity.
  - num. apply signed_inj in E. subst. reflexivity.
  - f_equal. eapply IHEOf; try eassumption; reflexivity.
  - num. strip. apply nat_inj in E1. subst. f_equal. eapply IHEOf; try eassumption; reflexivity.
  - f_equal. eapply IHEOf; try eassumption; reflexivity.
  - f_equal. eapply IHEOf; try eassumption; reflexivity.
  - exfalso. eapply not_borrow; [| |eassumption|rewrite app_nil_r; symmetry; eassumption]; eassumption.
  - exfalso. eapply not_borrow; [| |eassumption|rewrite app_nil_r; eassumption]; eassumption.
  - f_equal. eapply IHEOf; try eassumption; reflexivity.
  - num. apply signed_inj in E. subst. reflexivity.
  - num. apply signed_inj in E. subst. reflexivity.
Qed.

Lemma prefix_end w a b s s' : stops s = true -> stops s' = true ->
  fmt_hex_prefix w a ++ s = fmt_hex_prefix w b ++ s' -> a = b /\ s = s'.
Proof.
  intros Hs Hs' H. unfold fmt_hex_prefix in H. rewrite <- !app_assoc in H. apply app_inv_head in H.
  apply span_end in H; [|apply pad_numeral, radix_numeral; lia | apply pad_numeral, radix_numeral; lia | exact Hs | exact Hs'].
  destruct H as [H ->]. split; [|reflexivity]. apply (f_equal (unradix 16)) in H. rewrite !pad_value, !radix_value in H by lia. exact H.
Qed.
Lemma utf8_inj b i b' i' : display (RUtf8 b i) = display (RUtf8 b' i') -> b = b' /\ i = i'.
Proof.
  cbn [display]. intros H. apply app_inv_head in H. apply prefix_end in H; [|reflexivity | reflexivity]. destruct H as [Hb H]. strip. num.
  apply nat_inj in E. split; [|exact E]. apply b2z_inj. pose proof (b2z_range b). pose proof (b2z_range b'). lia.
Qed.
Lemma length_inj c l c' l' : display (RLength c l) = display (RLength c' l') -> c = c' /\ l = l'.
Proof.
  cbn [display]. intros H. strip. num. strip. num. apply nat_inj in E. apply nat_inj in E0. auto.
Qed.
Lemma cstring_inj i i' : display (RCString i) = display (RCString i') -> i = i'.
Proof. cbn [display]. intros H. strip. num. apply nat_inj in E. exact E. Qed.
Lemma nonzero_display : display RNonZero = txt "expected non-zero integer but found `0`" ++ [].
Proof. reflexivity. Qed.

Lemma dmsg_inj y e : DOf y e -> forall e' r r', DOf y e' -> sane e -> sane e' -> of_derr e = Some r -> of_derr e' = Some r' -> display r = display r' -> e = e'.
Proof.
  induction 1; intros e' q q' He' Hs Hs' Hq Hq' Hd; inversion He'; subst; cbn [sane of_derr] in *; try contradiction; try discriminate; try reflexivity;
    repeat (match goal with H : option_map _ ?o = Some _ |- _ => let x := fresh "x" in destruct o as [x|] eqn:?E; [|discriminate]; injection H as <- end);
    repeat (match goal with H : Some _ = Some _ |- _ => injection H as <- end);
    try (match goal with H : DOf (ZItem _) _ |- _ => inversion H; fail end);
    try (change (display (RGeneric ?x)) with (display x) in Hd);
    repeat match type of Hd with context [display (RGeneric ?x)] => change (display (RGeneric x)) with (display x) in Hd end;
    try (apply utf8_inj in Hd; destruct Hd; subst; reflexivity); try (apply length_inj in Hd; destruct Hd; subst; reflexivity);
    try (apply cstring_inj in Hd; subst; reflexivity); try rewrite nonzero_display in Hd;
    cbn [display] in Hd; try apart; try (do 2 strip); try strip.
  - num. apply hex_inj in E. f_equal. lia.
  - f_equal. eapply IHDOf; try eassumption; reflexivity.
  - num. strip. apply nat_inj in E1. subst. f_equal. eapply IHDOf; try eassumption; reflexivity.
  - f_equal. eapply IHDOf; try eassumption; reflexivity.
  - num. apply signed_inj in E. subst. reflexivity.
  - f_equal. eapply IHDOf; try eassumption; reflexivity.
  - apply prefix_end in Hd; [|reflexivity | reflexivity]. destruct Hd as [Hd _]. f_equal. lia.
Qed.

Lemma C87_encode_lemma ch t y v v' o o' p p' e e' r r' : enc_ety t = Some y -> wt t v -> wt t v' ->
  (output_position o <= output_capacity o)%nat -> (output_position p <= output_capacity p)%nat ->
  encode ch t v o = (o', Err e) -> encode ch t v' p = (p', Err e') -> of_eerr e = Some r -> of_eerr e' = Some r' ->
  display r = display r' -> e = e'.
Proof.
  intros Hy Hv Hv' Ho Hp He He' Hr Hr' Hd. 
  refine (@emsg_inj y e _ e' r r' _ _ _ Hr Hr' Hd); first [eapply C68_encode_lemma; eassumption | idtac].
  - exact (@encode_esane ch t y v o o' e Hy Hv Ho He).
  - exact (@encode_esane ch t y v' p p' e' Hy Hv' Hp He').
Qed.
Lemma C87_decode_lemma t z i j i' j' e e' r r' : EnumsOk t -> dec_ety t = Some z -> in_bounds i -> in_bounds j ->
  decode t i = (i', Err e) -> decode t j = (j', Err e') -> of_derr e = Some r -> of_derr e' = Some r' ->
  display r = display r' -> e = e'.
Proof.
  intros Hok Hz Hi Hj He He' Hr Hr' Hd. 
  refine (@dmsg_inj z e _ e' r r' _ _ _ Hr Hr' Hd); first [eapply C68_decode_lemma; eassumption | idtac].
  - exact (@decode_sane t z i i' e Hok Hz Hi He).
  - exact (@decode_sane t z j j' e' Hok Hz Hj He').
Qed.

Lemma C87_string_lemma e e' : display (of_string_error e) = display (of_string_error e') -> e = e'.
Proof.
  destruct e as [b i|[c l]], e' as [b' i'|[c' l']]; unfold of_string_error; cbn [le_capacity le_len]; intros H;
    change (display (RStrUtf8 ?x)) with (txt "bad utf-8: " ++ display x) in H;
    change (display (RStrSmall ?x)) with (txt "buffer too small: " ++ display x) in H.
  - apply app_inv_head, utf8_inj in H. destruct H as [-> ->]. reflexivity.
  - apart.
  - apart.
  - apply app_inv_head, length_inj in H. destruct H as [-> ->]. reflexivity.
Qed.
Lemma C87_stream_lemma e e' : display (RInput e) = display (RInput e') \/ display (ROutput e) = display (ROutput e') -> e = e'.
Proof.
  destruct e as [c p n], e' as [c' p' n']. cbn [display se_count se_position se_capacity]. intros [H|H];
    (strip; num; strip; num; strip; num; apply nat_inj in E, E0, E1; congruence).
Qed.
