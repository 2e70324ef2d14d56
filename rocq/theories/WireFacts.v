(* The encoder against the wire format of Spec.v. *)
From Coq Require Import Lia ZifyBool ZifyNat ZifyN.
From Verif Require Import Base BaseFacts Streams StreamFacts Utf8 Types TypesFacts Traits Encode Spec EncodeFacts.
Set Implicit Arguments.
Local Open Scope Z_scope.

Lemma le_repr_le_bytes w z : le_repr w z (le_bytes w z).
Proof.
  split; [apply le_bytes_length|]. intros k b Hk.
  assert (Hl : (k < w)%nat) by (rewrite <- (le_bytes_length w z); apply nth_error_Some; congruence).
  rewrite le_bytes_nth in Hk by exact Hl. injection Hk as <-. rewrite b2z_z2b, pow256. reflexivity.
Qed.

Lemma le_repr_unique w z a b : le_repr w z a -> le_repr w z b -> a = b.
Proof.
  intros [Hla Ha] [Hlb Hb]. apply nth_error_ext. intros k.
  destruct (nth_error a k) as [x|] eqn:Ea.
  - assert (Hk : (k < length b)%nat) by (rewrite Hlb, <- Hla; apply nth_error_Some; congruence).
    destruct (nth_error b k) as [y|] eqn:Eb; [|apply nth_error_Some in Hk; congruence].
    f_equal. apply b2z_inj. rewrite (Ha _ _ Ea), (Hb _ _ Eb). reflexivity.
  - apply nth_error_None in Ea. symmetry. apply nth_error_None. lia.
Qed.

Lemma le_repr_iff w z bs : le_repr w z bs <-> bs = le_bytes w z.
Proof.
  split; [|intros ->; apply le_repr_le_bytes]. intros H. apply (le_repr_unique H (le_repr_le_bytes w z)).
Qed.

(* ---- all2 *)
Lemma all2_forall2 {A B} (f : A -> B -> Prop) ts vs : all2 (map f ts) vs <-> Forall2 f ts vs.
Proof.
  revert vs; induction ts as [|t ts IH]; intros [|v vs]; cbn [map all2]; split; intros H;
    try contradiction; try (inversion H; fail); try constructor; try exact I; try (apply IH); try (apply H).
  - inversion H; assumption.
  - inversion H; assumption.
Qed.

(* ---- discriminants *)
Lemma discriminants_from_spec vs : forall prev ds, discriminants_from prev vs = Some ds -> length ds = length vs.
Proof.
  induction vs as [|e vs IH]; intros prev ds H; cbn [discriminants_from] in H.
  - injection H as <-. reflexivity.
  - destruct (next_discriminant prev e) as [d|]; [|discriminate].
    destruct (discriminants_from (Some d) vs) as [ds'|] eqn:E; [|discriminate]. injection H as <-.
    cbn [length]. f_equal. apply (IH _ _ E).
Qed.

(* the rule, given the discriminant of the variant before the list *)
Inductive AssignedFrom (prev : option Z) (vs : list (option Z)) : nat -> Z -> Prop :=
| AF_explicit i d : nth_error vs i = Some (Some d) -> AssignedFrom prev vs i d
| AF_zero : prev = None -> nth_error vs 0 = Some None -> AssignedFrom prev vs 0 0
| AF_prev p : prev = Some p -> nth_error vs 0 = Some None -> AssignedFrom prev vs 0 (p + 1)
| AF_next i d : nth_error vs (S i) = Some None -> AssignedFrom prev vs i d -> AssignedFrom prev vs (S i) (d + 1).

Lemma assigned_from_none vs i d : Assigned vs i d <-> AssignedFrom None vs i d.
Proof.
  split; induction 1; try (constructor; assumption); try discriminate.
  - constructor; [reflexivity | assumption].
Qed.

Lemma assigned_from_functional prev vs i : forall d e, AssignedFrom prev vs i d -> AssignedFrom prev vs i e -> d = e.
Proof.
  induction i as [|i IH]; intros d e Hd He.
  - inversion Hd; inversion He; subst; congruence.
  - inversion Hd; inversion He; subst; try congruence. f_equal. apply IH; assumption.
Qed.

Lemma assigned_functional vs i d e : Assigned vs i d -> Assigned vs i e -> d = e.
Proof. rewrite !assigned_from_none. apply assigned_from_functional. Qed.

Lemma assigned_from_shift prev v vs d i e :
  AssignedFrom prev (v :: vs) 0 d -> AssignedFrom (Some d) vs i e -> AssignedFrom prev (v :: vs) (S i) e.
Proof.
  intros H0. induction 1 as [i e He | He | p Hp He | i e He Hi IH].
  - apply AF_explicit. exact He.
  - discriminate.
  - injection Hp as ->. apply AF_next; [exact He | exact H0].
  - apply AF_next; [exact He | exact IH].
Qed.

Lemma discriminants_from_assigned vs : forall prev ds, discriminants_from prev vs = Some ds ->
  forall i d, nth_error ds i = Some d -> AssignedFrom prev vs i d.
Proof.
  induction vs as [|e vs IH]; intros prev ds H i d Hn; cbn [discriminants_from] in H.
  - injection H as <-. destruct i; discriminate.
  - destruct (next_discriminant prev e) as [d0|] eqn:E0; [|discriminate].
    destruct (discriminants_from (Some d0) vs) as [ds'|] eqn:E; [|discriminate]. injection H as <-.
    assert (H0 : AssignedFrom prev (e :: vs) 0 d0).
    { unfold next_discriminant in E0. destruct e as [x|].
      - injection E0 as ->. apply AF_explicit. reflexivity.
      - destruct prev as [p|].
        + destruct (p + 1 <? 2 ^ 128); [|discriminate]. injection E0 as <-. apply AF_prev; reflexivity.
        + injection E0 as <-. apply AF_zero; reflexivity. }
    destruct i as [|i]; cbn [nth_error] in Hn.
    + injection Hn as <-. exact H0.
    + apply (assigned_from_shift H0). apply (IH _ _ E). exact Hn.
Qed.

Lemma discriminants_assigned vs ds i d : discriminants vs = Some ds -> (nth_error ds i = Some d <-> Assigned vs i d).
Proof.
  intros H. split.
  - intros Hn. apply assigned_from_none. apply (discriminants_from_assigned _ _ H). exact Hn.
  - intros Ha. destruct (nth_error ds i) as [e|] eqn:En.
    + f_equal. apply (@assigned_functional vs i); [|exact Ha].
      apply assigned_from_none. apply (discriminants_from_assigned _ _ H). exact En.
    + exfalso. apply nth_error_None in En. rewrite (discriminants_from_spec _ _ H) in En.
      assert (Hi : nth_error vs i <> None) by (inversion Ha; congruence).
      apply nth_error_Some in Hi. lia.
Qed.

(* ---- Wire implies success *)

Lemma S_intro m cs : Traces m cs (Ok tt) -> Succeeds m (concat cs).
Proof. intros H. exists cs. split; [exact H | reflexivity]. Qed.
Lemma S_ok : Succeeds eok [].
Proof. apply (S_intro T_eok). Qed.
Lemma S_write d : Succeeds (ewrite d) d.
Proof. exists [d]. split; [apply T_ewrite | cbn; apply app_nil_r]. Qed.
Lemma S_seq a b x y : Succeeds a x -> Succeeds b y -> Succeeds (eseq a b) (x ++ y).
Proof.
  intros (cs & Hc & <-) (ds & Hd & <-). exists (cs ++ ds). split; [apply T_seq_ok; assumption | apply concat_app].
Qed.
Lemma S_map_err f a x : Succeeds a x -> Succeeds (emap_err f a) x.
Proof. intros (cs & Hc & <-). exists cs. split; [apply (T_map_err f Hc) | reflexivity]. Qed.

Lemma S_num w z bs : le_repr w z bs -> Succeeds (enc_num w z) bs.
Proof. rewrite le_repr_iff. intros ->. apply S_write. Qed.
Lemma S_u8 (z : Z) (b : byte) : b2z b = z -> Succeeds (enc_u8 z) [b].
Proof. intros <-. unfold enc_u8, enc_num. cbn [le_bytes]. rewrite z2b_b2z. apply S_write. Qed.
Lemma S_bool b : Succeeds (enc_bool b) [if b then x01 else x00].
Proof. destruct b; apply S_u8; reflexivity. Qed.

Lemma S_int i z bs : WireInt i z bs -> Succeeds (enc_int i z) bs.
Proof.
  intros H. inversion H; subst.
  - destruct i; try congruence; apply S_num; assumption.
  - cbn [enc_int]. unfold enc_usize. replace ((0 <=? z) && (z <? 65536)) with true by lia. apply S_num; assumption.
  - cbn [enc_int]. unfold enc_isize. replace ((-32768 <=? z) && (z <? 32768)) with true by lia. apply S_num; assumption.
Qed.

Lemma S_len n bs : WireLen n bs -> Succeeds (emap_err ELen (enc_usize (Z.of_nat n))) bs.
Proof. intros [Hn Hr]. apply S_map_err, (@S_int Usize). apply WI_usize; [lia | exact Hr]. Qed.

Lemma S_items_u8 s : forall i, Succeeds (enc_items (fun b => enc_u8 (b2z b)) EItem i s) s.
Proof.
  induction s as [|b s IH]; intros i; cbn [enc_items]; [apply S_ok|].
  change (b :: s) with ([b] ++ s). apply S_seq; [|apply IH]. apply S_map_err, S_u8. reflexivity.
Qed.
Lemma S_bytes s lb : WireLen (length s) lb -> Succeeds (enc_bytes s) (lb ++ s).
Proof. intros H. apply S_seq; [apply S_len; exact H | apply S_items_u8]. Qed.

Lemma S_ip4 o : length o = 4%nat -> Succeeds (enc_ip4 o) (rev o).
Proof. intros H. unfold enc_ip4, enc_num. rewrite <- H, le_bytes_of_be. apply S_write. Qed.
Lemma S_ip6 o : length o = 16%nat -> Succeeds (enc_ip6 o) (rev o).
Proof. intros H. unfold enc_ip6, enc_num. rewrite <- H, le_bytes_of_be. apply S_write. Qed.

Lemma S_sock4 o p pb : length o = 4%nat -> le_repr 2 p pb -> Succeeds (enc_sock4 o p) (rev o ++ pb).
Proof. intros H Hp. apply S_seq; [apply S_ip4; exact H | apply S_num; exact Hp]. Qed.
Lemma S_sock6 o p f s pb fb sb : length o = 16%nat -> le_repr 2 p pb -> le_repr 4 f fb -> le_repr 4 s sb ->
  Succeeds (enc_sock6 o p f s) (rev o ++ pb ++ fb ++ sb).
Proof.
  intros H Hp Hf Hs. apply S_seq; [apply S_ip6; exact H|]. apply S_seq; [apply S_num; exact Hp|].
  apply S_seq; apply S_num; assumption.
Qed.

(* the seconds written for a time *)
Lemma quot_div_pos a b : 0 <= a -> 0 < b -> Z.quot a b = a / b.
Proof. intros. apply Z.quot_div_nonneg; lia. Qed.
Lemma quot_div_neg a b : a < 0 -> 0 < b -> Z.quot a b = - ((- a) / b).
Proof.
  intros Ha Hb. replace a with (- (- a)) at 1 by lia. rewrite Z.quot_opp_l by lia.
  f_equal. apply quot_div_pos; lia.
Qed.

Lemma time_bounds s n : - 2 ^ 63 <= s < 2 ^ 63 -> 0 <= n < 1000000000 ->
  - 2 ^ 63 <= Z.quot (time_ns s n) 1000000000 < 2 ^ 63.
Proof.
  intros Hs Hn. unfold time_ns. destruct (Z.ltb_spec (s * 1000000000 + n) 0) as [Hl|Hl].
  - rewrite quot_div_neg by lia. Z.to_euclidean_division_equations. lia.
  - rewrite quot_div_pos by lia. Z.to_euclidean_division_equations. lia.
Qed.

Lemma enc_time_spec ch s n : - 2 ^ 63 <= s < 2 ^ 63 -> 0 <= n < 1000000000 ->
  enc_time ch s n =
  if (time_ns s n =? - 2 ^ 63 * 1000000000) && ch then epanic PArith
  else enc_num 8 (Z.quot (time_ns s n) 1000000000).
Proof.
  intros Hs Hn. unfold enc_time, secs_between. unfold time_ns.
  destruct (Z.leb_spec 0 s) as [Hl|Hl].
  - replace (s * 1000000000 + n =? - 2 ^ 63 * 1000000000) with false by lia. cbn [andb].
    rewrite quot_div_pos by lia. f_equal. unfold as_i64.
    replace (s * 1000000000 + n - (0 * 1000000000 + 0)) with (s * 1000000000 + n) by lia.
    destruct (Z.ltb_spec ((s * 1000000000 + n) / 1000000000) (2 ^ 63)) as [Hb|Hb]; [reflexivity|].
    exfalso. Z.to_euclidean_division_equations. lia.
  - rewrite quot_div_neg by lia.
    replace (0 * 1000000000 + 0 - (s * 1000000000 + n)) with (- (s * 1000000000 + n)) by lia.
    set (d := (- (s * 1000000000 + n)) / 1000000000).
    assert (Hd : 0 <= d <= 2 ^ 63) by (subst d; Z.to_euclidean_division_equations; lia).
    destruct (Z.eqb_spec (s * 1000000000 + n) (- 2 ^ 63 * 1000000000)) as [He|He].
    + assert (Hd2 : d = 2 ^ 63) by (subst d; rewrite He; reflexivity).
      rewrite Hd2. change (as_i64 (2 ^ 63)) with (- 2 ^ 63). rewrite Z.eqb_refl. cbn [andb]. reflexivity.
    + assert (Hd2 : d < 2 ^ 63) by (subst d; Z.to_euclidean_division_equations; lia).
      unfold as_i64. replace (d <? 2 ^ 63) with true by lia.
      replace (d =? - 2 ^ 63) with false by lia. cbn [andb]. reflexivity.
Qed.

Scheme Wire_ind4 := Induction for Wire Sort Prop
with WireFields_ind4 := Induction for WireFields Sort Prop
with WireItems_ind4 := Induction for WireItems Sort Prop
with WireEntries_ind4 := Induction for WireEntries Sort Prop.
Combined Scheme Wire_mutind from Wire_ind4, WireFields_ind4, WireItems_ind4, WireEntries_ind4.

Lemma wire_succeeds_all ch :
  (forall t v bs, Wire ch t v bs -> wt t v -> Succeeds (encode ch t v) bs) /\
  (forall ts vs bs, WireFields ch ts vs bs -> Forall2 wt ts vs ->
     forall conv, Succeeds (enc_fields (map (encode ch) ts) conv vs) bs) /\
  (forall t vs bs, WireItems ch t vs bs -> Forall (wt t) vs ->
     (forall wrap i, Succeeds (enc_items (encode ch t) wrap i vs) bs) /\ Succeeds (enc_keys (encode ch t) vs) bs) /\
  (forall k v kvs bs, WireEntries ch k v kvs bs -> Forall (fun p => wt k (fst p) /\ wt v (snd p)) kvs ->
     Succeeds (enc_entries (encode ch k) (encode ch v) kvs) bs).
Proof.
  apply (@Wire_mutind ch
    (fun t v bs _ => wt t v -> Succeeds (encode ch t v) bs)
    (fun ts vs bs _ => Forall2 wt ts vs -> forall conv, Succeeds (enc_fields (map (encode ch) ts) conv vs) bs)
    (fun t vs bs _ => Forall (wt t) vs ->
       (forall wrap i, Succeeds (enc_items (encode ch t) wrap i vs) bs) /\ Succeeds (enc_keys (encode ch t) vs) bs)
    (fun k v kvs bs _ => Forall (fun p => wt k (fst p) /\ wt v (snd p)) kvs ->
       Succeeds (enc_entries (encode ch k) (encode ch v) kvs) bs));
    intros; cbn [encode wt] in *;
    try (apply S_num; assumption); try (apply S_int; assumption); try apply S_ok;
    try (apply S_u8; reflexivity); try (apply S_bytes; assumption); try (auto; fail).
  - change (x01 :: bs) with ([x01] ++ bs). apply S_seq; [apply (S_bool true) | auto].
  - change (x00 :: bs) with ([x00] ++ bs). apply S_seq; [apply (S_bool false) | auto].
  - change (x01 :: bs) with ([x01] ++ bs). apply S_seq; [apply (S_bool true) | apply S_map_err; auto].
  - change (x00 :: bs) with ([x00] ++ bs). apply S_seq; [apply S_u8; reflexivity | apply S_map_err; auto].
  - change (x01 :: bs) with ([x01] ++ bs). apply S_seq; [apply S_u8; reflexivity | apply S_map_err; auto].
  - apply H. apply all2_forall2. assumption.
  - apply H. apply all2_forall2. assumption.
  - destruct H1. apply S_seq; auto.
  - destruct H1. apply S_seq; auto.
  - destruct H0 as [Hok Hf].
    unfold enum_ok in Hok. destruct (discriminants (map fst vs)) as [ds|] eqn:Hd; [|contradiction].
    rewrite (nth_error_map_some (fun x => map wt (snd x)) _ _ e0) in Hf. cbn [snd] in Hf.
    unfold enc_enum. rewrite (nth_error_map_some (fun x => map (encode ch) (snd x)) _ _ e0).
    apply (@discriminants_assigned _ _ i d Hd) in a. rewrite a. cbn [snd].
    apply S_seq; [apply S_map_err, S_int; assumption|]. apply H. apply all2_forall2. exact Hf.
  - apply H. tauto.
  - apply S_seq; [apply S_len; assumption | apply H; assumption].
  - apply S_seq; [apply S_len; assumption | apply H; assumption].
  - apply S_seq; [apply S_len; assumption | apply H; assumption].
  - apply S_seq; [apply S_len; assumption | apply H; tauto].
  - apply H. tauto.
  - apply H. tauto.
  - apply S_map_err. auto.
  - apply S_seq; apply S_num; assumption.
  - rewrite enc_time_spec by tauto.
    destruct (Z.eqb_spec (time_ns s n) (- 2 ^ 63 * 1000000000)) as [He|He]; cbn [andb].
    + destruct ch; [exfalso; apply n0; auto | apply S_num; assumption].
    + apply S_num; assumption.
  - apply S_ip4; assumption.
  - apply S_ip6; assumption.
  - change (x04 :: rev o) with ([x04] ++ rev o). apply S_seq; apply S_map_err; [apply S_u8; reflexivity | apply S_ip4; assumption].
  - change (x06 :: rev o) with ([x06] ++ rev o). apply S_seq; apply S_map_err; [apply S_u8; reflexivity | apply S_ip6; assumption].
  - apply S_sock4; assumption.
  - apply S_sock6; assumption.
  - change (x04 :: rev o ++ pb) with ([x04] ++ rev o ++ pb). apply S_seq; [apply S_u8; reflexivity | apply S_sock4; assumption].
  - change (x06 :: rev o ++ pb ++ fb ++ sb) with ([x06] ++ rev o ++ pb ++ fb ++ sb).
    apply S_seq; [apply S_u8; reflexivity | apply S_sock6; assumption].
  - inversion H1; subst. cbn [map enc_fields]. apply S_seq; [apply S_map_err; auto | auto].
  - split; intros; apply S_ok.
  - inversion H1; subst. split.
    + intros wrap i. cbn [enc_items]. apply S_seq; [apply S_map_err; auto | apply H0; assumption].
    + cbn [enc_keys]. apply S_seq; [auto | apply H0; assumption].
  - inversion H2 as [|? ? [? ?] ?]; subst. cbn [enc_entries]. apply S_seq; [auto | apply S_seq; auto].
Qed.

Lemma wire_succeeds ch t v bs : Wire ch t v bs -> wt t v -> Succeeds (encode ch t v) bs.
Proof. apply wire_succeeds_all. Qed.
