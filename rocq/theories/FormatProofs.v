(* Formatting. *)
From Coq Require Import String NArith Nnat Lia ZifyBool ZifyNat ZifyN.
From Verif Require Import Base BaseFacts Streams Utf8 Types Encode Decode Sized Spec SpecCalls Mem SizedSlice SizedStr Slot SpecContainers SizedSliceProofs ContainerProofs
  SizedStrProofs SizedTextProofs ErrorText SpecText TextProofs Format SpecFormat.
Set Implicit Arguments.
Local Open Scope list_scope.

Lemma C112_slice_lemma n A (item : options -> A -> list byte) o (s : sslice A) : Reachable n s ->
  exists items, ss_as_slice s = Done items /\ ss_debug item o s = Done (slice_debug item o items).
Proof.
  intros H. destruct (@C51_lemma _ _ _ H) as (items & Hi & _). exists items. split; [exact Hi|]. unfold ss_debug. rewrite Hi. reflexivity.
Qed.

Lemma C112_str_lemma n w s : StrReachable n w s -> exists x, st_as_str s = Done x /\
  (forall o, st_display o s = Done (str_display o x)) /\ (forall str_debug o, st_debug str_debug o s = Done (str_debug o x)).
Proof.
  intros H. destruct (@C60_lemma _ _ _ H) as (x & Hx & _). exists x. split; [exact Hx|]. unfold st_display, st_debug. rewrite Hx. split; reflexivity.
Qed.

Lemma C112_parse_lemma n w s : StrReachable n w s -> exists x s', st_display plain s = Done x /\ st_new n x = Done (inr s') /\ st_eq s s' = Done true.
Proof.
  intros H. destruct (@C60_lemma _ _ _ H) as (x & Hx & _ & Hv & Hl & _). destruct (@C61_new_lemma n x Hv) as [H1 _].
  destruct (H1 Hl) as (s' & Hs' & Hx' & _). exists x, s'. unfold st_display. rewrite Hx. split; [reflexivity|]. split; [exact Hs'|].
  assert (H' : StrReachable n true s') by (eapply SR_new; eassumption).
  destruct (@C71_eq_lemma _ _ _ _ _ _ _ _ H H' Hx Hx') as (b & Hb & _ & Hbb). rewrite Hb. f_equal. apply Hbb. reflexivity.
Qed.

(* ---- Slot *)

(* the number, as each of the 256 octets prints *)
Definition decimal_ok (n : Z) (s : list byte) : bool :=
  forallb (fun c => (48 <=? b2z c) && (b2z c <=? 57))%Z s && (fold_left (fun v c => 10 * v + (b2z c - 48)) s 0 =? n)%Z &&
  match s with [] => false | [x30] => true | c :: _ => negb (b2z c =? 48)%Z end.
Lemma decimal_ok_spec n s : decimal_ok n s = true -> Decimal n s.
Proof.
  unfold decimal_ok, Decimal. rewrite !Bool.andb_true_iff. intros [[H1 H2] H3]. split; [|split].
  - apply Forall_forall. intros c Hc. rewrite forallb_forall in H1. specialize (H1 c Hc). lia.
  - lia.
  - destruct s as [|c r]; [discriminate|]. assert (Hc : c = x30 /\ r = [] \/ c <> x30).
    { destruct (b2z c =? 48)%Z eqn:E.
      - destruct c; try discriminate E. left. split; [reflexivity|]. destruct r; [reflexivity | discriminate H3].
      - right. intros ->. discriminate E. }
    destruct Hc as [[-> ->]|Hc]; [left; reflexivity | right; eauto].
Qed.
Lemma u8_decimal b : Decimal (b2z b) (u8_debug plain b).
Proof. apply decimal_ok_spec. destruct b; vm_compute; reflexivity. Qed.

Lemma entries_joined l : forall b, entries u8_debug plain b l = (if b then [] else match l with [] => [] | _ => [x2c; x20] end) ++ joined [x2c; x20] (map (u8_debug plain) l).
Proof.
  induction l as [|x l IH]; intros b; [destruct b; reflexivity|]. cbn [entries alternate plain]. rewrite IH.
  destruct l as [|y l]; [cbn [map joined]; rewrite !app_nil_r; destruct b; reflexivity|].
  cbn [map]. change (joined [x2c; x20] (u8_debug plain x :: u8_debug plain y :: map (u8_debug plain) l)) with
    (u8_debug plain x ++ [x2c; x20] ++ joined [x2c; x20] (u8_debug plain y :: map (u8_debug plain) l)).
  destruct b; cbn [app]; rewrite <- ?app_assoc; reflexivity.
Qed.

Lemma C112_text_lemma o s : exists texts, Forall2 (fun b t => Decimal (b2z b) t) (slot_as_slice s) texts /\
  slot_debug o s = [x5b] ++ joined [x2c; x20] texts ++ [x5d].
Proof.
  exists (map (u8_debug plain) (slot_as_slice s)). split.
  - induction (slot_as_slice s); cbn [map]; constructor; [apply u8_decimal | assumption].
  - unfold slot_debug, slice_debug. rewrite entries_joined. reflexivity.
Qed.

Lemma decimal_inj n m s : Decimal n s -> Decimal m s -> n = m.
Proof. intros (_ & H & _) (_ & H' & _). congruence. Qed.

Definition decimal_char (c : byte) : bool := ((48 <=? b2z c) && (b2z c <=? 57))%Z.
Lemma entries_inj l : forall l' b, entries u8_debug plain b l ++ [x5d] = entries u8_debug plain b l' ++ [x5d] -> l = l'.
Proof.
  assert (Hd : forall x, Forall (fun c => decimal_char c = true) (u8_debug plain x)).
  { intros x. destruct (u8_decimal x) as (H & _). eapply Forall_impl; [|exact H]. cbn beta. unfold decimal_char. lia. }
  assert (Hh : forall l, exists c r, entries u8_debug plain false l ++ [x5d] = c :: r /\ decimal_char c = false).
  { intros [|x m]; [exists x5d, []; split; reflexivity|]. cbn [entries alternate plain app]. eexists. eexists. split; [reflexivity | reflexivity]. }
  assert (Hn : forall x, exists c r, u8_debug plain x = c :: r /\ decimal_char c = true).
  { intros x. specialize (Hd x). destruct (u8_decimal x) as (_ & _ & [E|(c & r & E & _)]); rewrite E in *; inversion Hd; subst; eauto. }
  assert (Hstep : forall x y l l', u8_debug plain x ++ entries u8_debug plain false l ++ [x5d] = u8_debug plain y ++ entries u8_debug plain false l' ++ [x5d] ->
    x = y /\ entries u8_debug plain false l ++ [x5d] = entries u8_debug plain false l' ++ [x5d]).
  { intros x y m m' H. destruct (Hh m) as (c & r & E & Hc). destruct (Hh m') as (c' & r' & E' & Hc'). rewrite E, E' in *.
    destruct (@span_eq decimal_char _ _ _ _ _ _ (Hd x) (Hd y) Hc Hc' H) as [He Hr]. split; [|exact Hr].
    apply b2z_inj. apply (@decimal_inj _ _ (u8_debug plain x)); [apply u8_decimal | rewrite He; apply u8_decimal]. }
  induction l as [|x l IH]; intros [|y l'] b H.
  - reflexivity.
  - exfalso. cbn [entries alternate plain] in H. destruct b; [|discriminate H]. destruct (Hn y) as (c & r & E & Hc). rewrite E in H. cbn [app] in H. injection H as <- _. discriminate Hc.
  - exfalso. cbn [entries alternate plain] in H. destruct b; [|discriminate H]. destruct (Hn x) as (c & r & E & Hc). rewrite E in H. cbn [app] in H. injection H as -> _. discriminate Hc.
  - cbn [entries alternate plain] in H. rewrite <- !app_assoc in H. apply app_inv_head in H. apply Hstep in H. destruct H as [-> H]. f_equal. eapply IH. exact H.
Qed.

Lemma C112_apart_lemma o o' a b : slot_debug o a = slot_debug o' b <-> slot_as_slice a = slot_as_slice b.
Proof.
  unfold slot_debug, slice_debug. split; [|intros ->; reflexivity]. intros H. injection H as H. apply (@entries_inj _ _ true). exact H.
Qed.

Lemma C112_plain_lemma s : slot_debug plain s = slice_debug u8_debug plain (slot_as_slice s).
Proof. reflexivity. Qed.

(* `{:x?}` and `{:#?}` *)
Lemma C112_refutation : exists checks t cap ops s rs, slot_run checks t (slot_with_capacity cap) ops = (s, rs) /\
  slot_debug (Options false (Some false) false [x20] None None None) s <>
    slice_debug u8_debug (Options false (Some false) false [x20] None None None) (slot_as_slice s) /\
  slot_debug (Options true None false [x20] None None None) s <> slice_debug u8_debug (Options true None false [x20] None None None) (slot_as_slice s).
Proof.
  exists true, (TInt U8), 1, [SWrite (VInt 255)]. eexists. eexists. split; [vm_compute; reflexivity|]. split; vm_compute; discriminate.
Qed.

(* ---- what core prints, in other words *)

Lemma entries_plain {A} (item : options -> A -> list byte) o l : alternate o = false -> forall b,
  entries item o b l = (if b then [] else match l with [] => [] | _ => [x2c; x20] end) ++ joined [x2c; x20] (map (item o) l).
Proof.
  intros Ho. induction l as [|x l IH]; intros b; [destruct b; reflexivity|]. cbn [entries]. rewrite Ho, IH.
  destruct l as [|y l]; [cbn [map joined]; rewrite !app_nil_r; destruct b; reflexivity|].
  cbn [map]. change (joined [x2c; x20] (item o x :: item o y :: map (item o) l)) with (item o x ++ [x2c; x20] ++ joined [x2c; x20] (item o y :: map (item o) l)).
  destruct b; cbn [app]; rewrite <- ?app_assoc; reflexivity.
Qed.
Lemma C112_one_line_lemma A (item : options -> A -> list byte) o l : alternate o = false ->
  slice_debug item o l = [x5b] ++ joined [x2c; x20] (map (item o) l) ++ [x5d].
Proof. intros Ho. unfold slice_debug. rewrite (@entries_plain A item o l Ho true). reflexivity. Qed.

Lemma newline_iff c : (b2z c =? 10)%Z = true <-> c = x0a.
Proof. split; [destruct c; (reflexivity || discriminate) | intros ->; reflexivity]. Qed.
Lemma indent_line l r : ~ In x0a l -> indent false (l ++ x0a :: r) = l ++ x0a :: indent true r.
Proof.
  induction l as [|c l IH]; intros H; [reflexivity|]. cbn [app indent]. f_equal.
  destruct (b2z c =? 10)%Z eqn:E; [apply newline_iff in E; subst; destruct H; left; reflexivity|]. apply IH. intros Hi. apply H. right. exact Hi.
Qed.
Lemma indent_start l r : l ++ r <> [] -> indent true (l ++ r) = [x20; x20; x20; x20] ++ indent false (l ++ r).
Proof. destruct (l ++ r); [congruence | reflexivity]. Qed.
Lemma indent_lines lines : lines <> [] -> Forall (fun l => ~ In x0a l) lines ->
  indent true (joined [x0a] lines ++ [x2c; x0a]) = joined [x0a] (map (app [x20; x20; x20; x20]) lines) ++ [x2c; x0a].
Proof.
  induction lines as [|l lines IH]; intros Hn Hf; [congruence|]. inversion Hf as [|? ? Hl Hls]; subst.
  destruct lines as [|l' lines].
  - cbn [joined map]. rewrite indent_start by (destruct l; discriminate). rewrite <- app_assoc. f_equal.
    change [x2c; x0a] with ([x2c] ++ [x0a]). rewrite app_assoc. rewrite indent_line; [reflexivity|].
    intros Hi. apply in_app_or in Hi. destruct Hi as [Hi|[Hi|[]]]; [apply Hl, Hi | discriminate].
  - change (joined [x0a] (l :: l' :: lines)) with (l ++ [x0a] ++ joined [x0a] (l' :: lines)).
    change (joined [x0a] (map (app [x20; x20; x20; x20]) (l :: l' :: lines))) with
      (([x20; x20; x20; x20] ++ l) ++ [x0a] ++ joined [x0a] (map (app [x20; x20; x20; x20]) (l' :: lines))).
    rewrite <- !app_assoc. rewrite indent_start by (destruct l; discriminate). cbn [app]. do 4 f_equal.
    rewrite indent_line by exact Hl. rewrite IH by (congruence || assumption). reflexivity.
Qed.
Lemma split_lines s : exists lines, lines <> [] /\ Forall (fun l => ~ In x0a l) lines /\ s = joined [x0a] lines.
Proof.
  induction s as [|c s (lines & Hn & Hf & ->)].
  - exists [[]]. split; [discriminate|]. split; [repeat constructor; intros [] | reflexivity].
  - destruct (b2z c =? 10)%Z eqn:E.
    + apply newline_iff in E. subst c. exists ([] :: lines). split; [discriminate|]. split; [constructor; [intros [] | exact Hf]|].
      destruct lines; [congruence | reflexivity].
    + destruct lines as [|l lines]; [congruence|]. exists ((c :: l) :: lines). split; [discriminate|]. inversion Hf; subst. split.
      * constructor; [|assumption]. intros [Hi|Hi]; [subst; discriminate E | contradiction].
      * destruct lines; reflexivity.
Qed.
Lemma indented_exists s : exists t, Indented [x20; x20; x20; x20] s t /\ indent true (s ++ [x2c; x0a]) = t ++ [x2c; x0a].
Proof.
  destruct (split_lines s) as (lines & Hn & Hf & ->). eexists. split; [exists lines; repeat split; assumption|]. apply indent_lines; assumption.
Qed.
Lemma C112_pretty_lemma A (item : options -> A -> list byte) o l : alternate o = true ->
  exists texts, Forall2 (fun x t => Indented (txt "    ") (item o x) t) l texts /\
    slice_debug item o l = txt "[" ++ match l with [] => [] | _ => [x0a] ++ concat (map (fun t => t ++ txt "," ++ [x0a]) texts) end ++ txt "]".
Proof.
  intros Ho.
  assert (H : forall l b, exists texts, Forall2 (fun x t => Indented (txt "    ") (item o x) t) l texts /\
    entries item o b l = match l with [] => [] | _ => (if b then [x0a] else []) ++ concat (map (fun t => t ++ txt "," ++ [x0a]) texts) end).
  { clear l. intros l. induction l as [|x m IH]; intros b.
    - exists []. split; [constructor | reflexivity].
    - destruct (IH false) as (texts & Hf & He). destruct (indented_exists (item o x)) as (t & Ht & Hi). exists (t :: texts).
      split; [constructor; assumption|]. cbn [entries]. rewrite Ho, He, Hi, <- app_assoc. f_equal. cbn [map concat]. f_equal.
      destruct m; [|reflexivity]. inversion Hf; subst. reflexivity. }
  destruct (H l true) as (texts & Hf & He). exists texts. split; [exact Hf|]. unfold slice_debug. rewrite He. reflexivity.
Qed.

Lemma char_shape c : is_scalar c = true -> exists h t, encode_utf8 c = h :: t /\ starts_char h = true /\ Forall (fun b => starts_char b = false) t.
Proof.
  intros H. unfold is_scalar in H.
  assert (Hl : forall z, (0 <= z < 128 \/ 192 <= z < 256)%Z -> starts_char (z2b z) = true)
    by (intros z Hz; unfold starts_char; rewrite b2z_z2b, Z.mod_small by lia; lia).
  assert (Hc : forall z, starts_char (z2b (128 + z mod 64)) = false).
  { intros z. pose proof (Z.mod_pos_bound z 64 ltac:(lia)). unfold starts_char. rewrite b2z_z2b, Z.mod_small by lia. lia. }
  unfold encode_utf8. destruct (Z.ltb_spec c 128); [|destruct (Z.ltb_spec c 2048); [|destruct (Z.ltb_spec c 65536)]];
    eexists; eexists; (split; [reflexivity|]); (split; [|repeat constructor; apply Hc]); apply Hl.
  - lia.
  - pose proof (Z.div_lt_upper_bound c 64 32 ltac:(lia) ltac:(lia)). pose proof (Z.div_pos c 64 ltac:(lia) ltac:(lia)). lia.
  - pose proof (Z.div_lt_upper_bound c 4096 16 ltac:(lia) ltac:(lia)). pose proof (Z.div_pos c 4096 ltac:(lia) ltac:(lia)). lia.
  - pose proof (Z.div_lt_upper_bound c 262144 8 ltac:(lia) ltac:(lia)). pose proof (Z.div_pos c 262144 ltac:(lia) ltac:(lia)). lia.
Qed.
Lemma count_chars cs : Forall (fun c => is_scalar c = true) cs -> chars_count (flat_map encode_utf8 cs) = length cs.
Proof.
  unfold chars_count. induction 1 as [|c cs Hc _ IH]; [reflexivity|]. cbn [flat_map length]. rewrite filter_app, app_length, IH.
  destruct (char_shape c Hc) as (h & t & -> & Hh & Ht). cbn [filter]. rewrite Hh.
  replace (filter starts_char t) with (@nil byte); [reflexivity|]. induction Ht as [|b t Hb _ IHt]; [reflexivity|]. cbn [filter]. rewrite Hb. exact IHt.
Qed.
Lemma prefix_tail t r n : Forall (fun b => starts_char b = false) t -> chars_prefix n (t ++ r) = t ++ chars_prefix n r.
Proof. induction 1 as [|b t Hb _ IH]; [reflexivity|]. cbn [app chars_prefix]. rewrite Hb. f_equal. exact IH. Qed.
Lemma prefix_chars cs : Forall (fun c => is_scalar c = true) cs -> forall n, chars_prefix n (flat_map encode_utf8 cs) = flat_map encode_utf8 (firstn n cs).
Proof.
  induction 1 as [|c cs Hc _ IH]; intros n; [destruct n; reflexivity|]. cbn [flat_map].
  destruct (char_shape c Hc) as (h & t & E & Hh & Ht). rewrite E. cbn [app chars_prefix]. rewrite Hh. destruct n as [|n]; [reflexivity|].
  rewrite (prefix_tail _ _ Ht), IH. cbn [firstn flat_map]. rewrite E. reflexivity.
Qed.
Lemma C112_padded_lemma o cs : Forall (fun c => is_scalar c = true) cs ->
  let kept := match precision o with Some p => firstn p cs | None => cs end in
  exists a b, str_display o (flat_map encode_utf8 cs) = concat (repeat (fill_char o) a) ++ flat_map encode_utf8 kept ++ concat (repeat (fill_char o) b) /\
    a + b = match width o with Some w => w - length kept | None => 0 end /\
    match align o with Some ARight => b = 0 | Some ACenter => a <= b <= S a | _ => a = 0 end.
Proof.
  intros Hc kept. unfold str_display.
  replace (match precision o with Some p => chars_prefix p (flat_map encode_utf8 cs) | None => flat_map encode_utf8 cs end) with (flat_map encode_utf8 kept)
    by (subst kept; destruct (precision o); [rewrite (prefix_chars Hc)|]; reflexivity).
  assert (Hk : Forall (fun c => is_scalar c = true) kept).
  { subst kept. destruct (precision o) as [p|]; [|exact Hc]. rewrite <- (firstn_skipn p cs) in Hc. apply Forall_app in Hc. apply Hc. }
  destruct (width o) as [w|].
  - rewrite (count_chars Hk). unfold padding. eexists. eexists. split; [reflexivity|].
    pose proof (Nat.div_mod (w - length kept) 2 ltac:(lia)). pose proof (Nat.mod_upper_bound (w - length kept) 2 ltac:(lia)).
    destruct (align o) as [[]|]; lia.
  - exists 0, 0. cbn [repeat concat app]. rewrite app_nil_r. split; [reflexivity|]. split; [reflexivity|]. destruct (align o) as [[]|]; lia.
Qed.

Lemma C112_slice_text_lemma n A (item : options -> A -> list byte) o (s : sslice A) : Reachable n s -> exists items, ss_as_slice s = Done items /\
  (alternate o = false -> ss_debug item o s = Done (txt "[" ++ joined (txt ", ") (map (item o) items) ++ txt "]")) /\
  (alternate o = true -> exists texts, Forall2 (fun x t => Indented (txt "    ") (item o x) t) items texts /\
     ss_debug item o s = Done (txt "[" ++ match items with [] => [] | _ => [x0a] ++ concat (map (fun t => t ++ txt "," ++ [x0a]) texts) end ++ txt "]")).
Proof.
  intros H. destruct (@C112_slice_lemma n A item o s H) as (items & Hi & Hd). exists items. split; [exact Hi|]. rewrite Hd. split; intros Ho.
  - f_equal. apply C112_one_line_lemma, Ho.
  - destruct (@C112_pretty_lemma A item o items Ho) as (texts & Hf & He). exists texts. split; [exact Hf | f_equal; exact He].
Qed.
Lemma C112_str_text_lemma n w s : StrReachable n w s -> exists cs, st_as_str s = Done (flat_map encode_utf8 cs) /\ Forall (fun c => is_scalar c = true) cs /\
  forall o, let kept := match precision o with Some p => firstn p cs | None => cs end in
  exists a b, st_display o s = Done (concat (repeat (fill_char o) a) ++ flat_map encode_utf8 kept ++ concat (repeat (fill_char o) b)) /\
    a + b = match width o with Some w => w - length kept | None => 0 end /\
    match align o with Some ARight => b = 0 | Some ACenter => a <= b <= S a | _ => a = 0 end.
Proof.
  intros H. destruct (@C60_lemma _ _ _ H) as (x & Hx & _ & (cs & Hc & ->) & _). exists cs. split; [exact Hx|]. split; [exact Hc|].
  intros o kept. destruct (@C112_padded_lemma o cs Hc) as (a & b & He & Hab). exists a, b. split; [|exact Hab].
  unfold st_display. rewrite Hx. cbn [omap obind]. f_equal. exact He.
Qed.

(* ---- octets, whatever the options *)
Definition numeral_ok (base : Z) (upper : bool) (n : Z) (s : list byte) : bool :=
  let ds := map (fun c => match digit_value upper c with Some d => d | None => (-1)%Z end) s in
  forallb (fun d => (0 <=? d) && (d <? base))%Z ds && (fold_left (fun v d => base * v + d) ds 0 =? n)%Z &&
  match s with [] => false | [x30] => true | c :: _ => negb (b2z c =? 48)%Z end.
Lemma numeral_ok_spec base upper n s : numeral_ok base upper n s = true -> Numeral base upper n s.
Proof.
  unfold numeral_ok, Numeral. rewrite !Bool.andb_true_iff. intros [[H1 H2] H3]. split.
  - eexists. split; [|split; [|apply Z.eqb_eq; exact H2]].
    + rewrite map_map. apply map_ext_in. intros c Hc. rewrite forallb_forall in H1.
      specialize (H1 _ (in_map (fun c => match digit_value upper c with Some d => d | None => (-1)%Z end) s c Hc)). cbn beta in H1.
      destruct (digit_value upper c); [reflexivity|discriminate H1].
    + apply Forall_forall. intros d Hd. rewrite forallb_forall in H1. specialize (H1 d Hd). lia.
  - destruct s as [|c r]; [discriminate|]. assert (Hc : c = x30 /\ r = [] \/ c <> x30).
    { destruct (b2z c =? 48)%Z eqn:E.
      - destruct c; try discriminate E. left. split; [reflexivity|]. destruct r; [reflexivity | discriminate H3].
      - right. intros ->. discriminate E. }
    destruct Hc as [[-> ->]|Hc]; [left; reflexivity | right; eauto].
Qed.
Lemma pad_integral_lemma o prefix digits : exists pre zeros post,
  pad_integral o prefix digits = concat (repeat (fill_char o) pre) ++ (if alternate o then prefix else []) ++ repeat x30 zeros ++ digits ++ concat (repeat (fill_char o) post) /\
  pre + zeros + post = match width o with Some w => w - (List.length (if alternate o then prefix else []) + List.length digits) | None => 0 end /\
  if zero o then pre = 0 /\ post = 0
  else zeros = 0 /\ match align o with Some ALeft => pre = 0 | Some ACenter => pre <= post <= S pre | _ => post = 0 end.
Proof.
  unfold pad_integral. set (p := if alternate o then prefix else []).
  set (n := match width o with Some w => w - (List.length p + List.length digits) | None => 0 end).
  destruct (zero o).
  - exists 0, n, 0. cbn [repeat concat app]. rewrite app_nil_r. split; [reflexivity|]. split; [lia|]. split; reflexivity.
  - unfold padding. set (pre := match _ with ALeft => 0 | ARight => n | ACenter => n / 2 end).
    exists pre, 0, (n - pre). cbn [repeat app]. rewrite <- app_assoc. split; [reflexivity|].
    assert (n / 2 <= n) by (apply Nat.div_le_upper_bound; lia).
    split; [subst pre; destruct (align o) as [[]|]; lia|]. split; [reflexivity|].
    subst pre. destruct (align o) as [[]|]; lia.
Qed.
Lemma C112_octet_lemma o b : exists pre zeros digits post, let prefix := match hex o with Some _ => if alternate o then txt "0x" else [] | None => [] end in
  u8_debug o b = concat (repeat (fill_char o) pre) ++ prefix ++ repeat x30 zeros ++ digits ++ concat (repeat (fill_char o) post) /\
  Numeral (match hex o with Some _ => 16 | None => 10 end) (match hex o with Some upper => upper | None => false end) (b2z b) digits /\
  pre + zeros + post = match width o with Some w => w - (List.length prefix + List.length digits) | None => 0 end /\
  if zero o then pre = 0 /\ post = 0
  else zeros = 0 /\ match align o with Some ALeft => pre = 0 | Some ACenter => pre <= post <= S pre | _ => post = 0 end.
Proof.
  unfold u8_debug. destruct (hex o) as [[|]|].
  - destruct (pad_integral_lemma o (txt "0x") (radix 16 (Z.to_N (b2z b)))) as (pre & zeros & post & H1 & H2 & H3). exists pre, zeros, (radix 16 (Z.to_N (b2z b))), post. cbv zeta.
    split; [exact H1|]. split; [apply numeral_ok_spec; destruct b; vm_compute; reflexivity|]. split; assumption.
  - destruct (pad_integral_lemma o (txt "0x") (map lower (radix 16 (Z.to_N (b2z b))))) as (pre & zeros & post & H1 & H2 & H3). exists pre, zeros, (map lower (radix 16 (Z.to_N (b2z b)))), post. cbv zeta.
    split; [exact H1|]. split; [apply numeral_ok_spec; destruct b; vm_compute; reflexivity|]. split; assumption.
  - destruct (pad_integral_lemma o [] (radix 10 (Z.to_N (b2z b)))) as (pre & zeros & post & H1 & H2 & H3). exists pre, zeros, (radix 10 (Z.to_N (b2z b))), post. cbv zeta.
    replace (if alternate o then [] else []) with (@nil byte) in * by (destruct (alternate o); reflexivity).
    split; [exact H1|]. split; [apply numeral_ok_spec; destruct b; vm_compute; reflexivity|]. split; assumption.
Qed.
