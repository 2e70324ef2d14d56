From Coq Require Import Lia.
From Verif Require Import Base Streams Utf8 Types TypesFacts Traits Encode Decode Sized SpecDecode SpecSource
  SourceNames SourceSyntax SourceMeaning SourceEncode SourceDecode SourceSizes SourceSizedStr SourceSizedSlice SourceRun SourceTactics SourceDecodeProofs SourceDecodeLoops.
Local Open Scope Z_scope.
Lemma dec_coll : forall f t, option_map (fun e : dety => f e : dety) (dec_ety t) <> None -> dec_ety t <> None.
Proof. intros f t. destruct (dec_ety t); cbn; congruence. Qed.
Lemma dec_tuple : forall ts, dec_ety (TTuple ts) <> None -> Forall (fun t => dec_ety t <> None) ts.
Proof.
  intros ts. cbn [dec_ety]. destruct ts as [|t ts]; cbn [map]; [congruence|]. destruct (dec_ety t) as [e|] eqn:E; [|congruence].
  intros H. constructor; [congruence|]. destruct (all_same_d (map dec_ety ts) e) eqn:Ea; [|congruence]. clear H.
  revert Ea. induction ts as [|u ts IH]; cbn [map all_same_d]; intros Ea; constructor; destruct (dec_ety u); try discriminate.
  - apply IH. apply andb_true_iff in Ea. tauto.
Qed.
Lemma dec_generic : forall ts, all_generic_d (map dec_ety ts) = true -> Forall (fun t => dec_ety t <> None) ts.
Proof.
  induction ts as [|u ts IH]; cbn [map all_generic_d]; intros Ea; constructor; destruct (dec_ety u); try discriminate.
  apply IH. apply andb_true_iff in Ea. tauto.
Qed.

Section S.
Variable (checks : bool) (size_of : size_of_fn).
Definition DeepD (t : ty) : Prop :=
  exists d, forall n m i, (d <= n)%nat -> (d <= m)%nat -> run_decode checks (run_size size_of m) n t i = decode t i.
Definition good_size (size : ty -> option N) : Prop :=
  (forall k, match k with Usize | Isize => False | _ => True end -> size (TInt k) = Some (N.of_nat (iwidth k))) /\ size TF32 = Some 4%N /\ size TF64 = Some 8%N.
Lemma size_good : forall m, (0 < m)%nat -> good_size (run_size size_of m).
Proof. intros [|m] H; [lia|]. split; [|split]; [|reflexivity|reflexivity]. intros k. destruct k; intros K; try contradiction; reflexivity. Qed.
Lemma deep_all : forall ts, Forall DeepD ts -> exists d, forall n m, (d <= n)%nat -> (d <= m)%nat -> Forall (Agree (run_decode checks (run_size size_of m) n)) ts.
Proof.
  induction 1 as [|t ts [d H] _ [d' IH]]; [exists O; constructor|]. exists (Nat.max d d'). intros n m Hn Hm. constructor.
  - intros i. apply H; lia.
  - apply IH; lia.
Qed.
Lemma deep_step : forall t ts, decode_derived (fun _ => dpanic PStuck) t = None ->
  (forall size dec, good_size size -> Forall (Agree dec) ts -> forall i, decode_with checks size dec t i = decode t i) ->
  Forall DeepD ts -> DeepD t.
Proof.
  intros t ts T H F. destruct (deep_all ts F) as [d D]. exists (S d). intros n m i Hn Hm. destruct n as [|n]; [lia|].
  cbn [run_decode]. replace (decode_derived (run_decode checks (run_size size_of m) n) t) with (@None (Decode.D val)) by (destruct t; try discriminate T; reflexivity).
  apply H; [apply size_good; lia|apply D; lia].
Qed.
Ltac parts l := apply (fun t => deep_step t l);
  [reflexivity|intros ? ? ? F; repeat match goal with F : Forall _ (_ :: _) |- _ => inversion_clear F end |repeat (apply Forall_cons; [assumption|]); apply Forall_nil].
Lemma deep_num : forall k, match k with Usize | Isize => False | _ => True end -> DeepD (TInt k).
Proof. intros k K. parts (@nil ty). apply d_num; [exact K|]. apply H; exact K. Qed.
Lemma deep_int : forall k, DeepD (TInt k).
Proof.
  intros k. assert (DeepD (TInt U16)) by (apply deep_num; exact I). assert (DeepD (TInt I16)) by (apply deep_num; exact I).
  destruct k; try (apply deep_num; exact I).
  - parts [TInt U16]. apply d_usize; assumption.
  - parts [TInt I16]. apply d_isize; assumption.
Qed.

Lemma deep_bool : DeepD TBool.
Proof. pose proof (deep_int U8). parts [TInt U8]. apply d_bool; assumption. Qed.
Lemma deep_ip4 : DeepD TIpv4.
Proof. pose proof (deep_int U32). parts [TInt U32]. apply d_ip4; assumption. Qed.
Lemma deep_ip6 : DeepD TIpv6.
Proof. pose proof (deep_int U128). parts [TInt U128]. apply d_ip6; assumption. Qed.
Lemma deep_sock4 : DeepD TSockV4.
Proof. pose proof deep_ip4. pose proof (deep_int U16). parts [TIpv4; TInt U16]. apply d_sock4; assumption. Qed.
Lemma deep_sock6 : DeepD TSockV6.
Proof. pose proof deep_ip6. pose proof (deep_int U16). pose proof (deep_int U32). parts [TIpv6; TInt U16; TInt U32]. apply d_sock6; assumption. Qed.
Lemma deep_vec : forall t, DeepD t -> DeepD (TVec t).
Proof. intros t H. pose proof (deep_int Usize). parts [TInt Usize; t]. apply d_vec; assumption. Qed.
Lemma deep_string : DeepD TString.
Proof. pose proof (deep_int Usize). parts [TInt Usize]. apply d_string; assumption. Qed.
Lemma deep_cstring : DeepD TCString.
Proof. pose proof (deep_int Usize). parts [TInt Usize]. apply d_cstring; assumption. Qed.
Lemma agree_map : forall dec ts, Forall (Agree dec) ts -> forall conv i, dec_fields conv (map dec ts) i = dec_fields conv (map decode ts) i.
Proof.
  induction 1 as [|t ts H _ IH]; intros conv i; [reflexivity|]. cbn [map dec_fields]. unfold dbind, dmap_err, dmap, dbind. rewrite H.
  destruct (decode t i) as [i' [v|e|p]]; [|reflexivity|reflexivity]. rewrite IH. reflexivity.
Qed.
Lemma deep_struct : forall ts, Forall DeepD ts -> DeepD (TStruct ts).
Proof.
  intros ts F. destruct (deep_all ts F) as [d D]. exists (S d). intros n m i Hn Hm. destruct n as [|n]; [lia|]. cbn [run_decode decode_derived decode].
  unfold dmap, dbind. rewrite agree_map by (apply D; lia). reflexivity.
Qed.
Lemma deep_enum : forall r vs, Forall (fun x => Forall DeepD (snd x)) vs -> DeepD (TEnum r vs).
Proof.
  intros r vs F.
  assert (exists d, forall n m, (d <= n)%nat -> (d <= m)%nat -> Forall (fun x => Forall (Agree (run_decode checks (run_size size_of m) n)) (snd x)) vs) as [d D].
  { clear -F. induction F as [|x vs H _ [d IH]]; [exists O; constructor|]. destruct (deep_all _ H) as [d' D]. exists (Nat.max d d'). intros n m Hn Hm.
    constructor; [apply D; lia|apply IH; lia]. }
  exists (S d). intros n m i Hn Hm. destruct n as [|n]; [lia|]. cbn [run_decode decode_derived decode]. unfold dec_enum.
  destruct (discriminants (map fst vs)) as [ds|]; [|reflexivity]. unfold dbind. destruct (dec_int r i) as [i' [z|e|p]]; [|reflexivity|reflexivity].
  destruct (find_disc z ds 0) as [j|]; [|reflexivity]. rewrite !nth_error_map.
  destruct (nth_error vs j) as [x|] eqn:E; [|reflexivity]. cbn [option_map]. unfold dmap, dbind. rewrite agree_map; [reflexivity|].
  specialize (D n m ltac:(lia) ltac:(lia)). rewrite Forall_forall in D. apply D. apply nth_error_In in E. exact E.
Qed.
Lemma deep_members : forall ts, Forall (fun t => (dec_ety t <> None -> of_rust t -> DeepD t) /\ match t with TSlice u => dec_ety u <> None -> of_rust u -> DeepD u | _ => True end) ts ->
  Forall (fun t => dec_ety t <> None) ts -> existsb (contains unlike_rust) ts = false -> Forall DeepD ts.
Proof.
  induction 1 as [|t ts [H _] _ IH]; intros F E; [constructor|]. inversion_clear F. cbn in E. apply orb_false_iff in E. destruct E. constructor; auto.
Qed.
Lemma deep_decode : forall t, (dec_ety t <> None -> of_rust t -> DeepD t) /\ match t with TSlice u => dec_ety u <> None -> of_rust u -> DeepD u | _ => True end.
Proof.
  induction t using ty_ind_strong; (split; [|try exact I; try (apply IHt)]); intros Hd Hr; unfold of_rust in Hr; cbn [dec_ety] in Hd; cbn [contains unlike_rust orb] in Hr;
  repeat match goal with H : _ /\ _ |- _ => destruct H end;
  pose proof (deep_int Usize); pose proof (deep_int U8); pose proof (deep_int U16); pose proof (deep_int U32); pose proof (deep_int U64); pose proof (deep_int I64);
  pose proof deep_bool.
  all: try (match goal with A : dec_ety ?t <> None -> of_rust ?t -> DeepD ?t |- _ => match type of Hd with dec_ety t <> None => assert (DeepD t) by (apply A; assumption) | _ => assert (DeepD t) by (apply A; [apply (dec_coll _ _ Hd)|assumption]) end end).
  all: try (apply deep_int || apply deep_bool || apply deep_ip4 || apply deep_ip6 || apply deep_sock4 || apply deep_sock6 || apply deep_string || apply deep_cstring).
  all: try congruence.
  - parts (@nil ty). apply (d_float _ _ _ _ 4%nat); [auto|]. apply H6.
  - parts (@nil ty). apply (d_float _ _ _ _ 8%nat); [auto|]. apply H6.
  - parts [TInt U32]. apply d_char; assumption.
  - parts (@nil ty). apply d_unit.
  - pose proof (deep_int i). parts [TInt i]. apply d_nonzero; assumption.
  - parts [TBool; t]. apply d_option; assumption.
  - destruct (dec_ety t1) eqn:E1; [|congruence]. destruct (dec_ety t2) eqn:E2; [|congruence]. apply orb_false_iff in Hr. destruct Hr.
    assert (DeepD t1) by (apply H1; congruence || assumption). assert (DeepD t2) by (apply H; congruence || assumption).
    parts [TBool; t1; t2]. apply d_result; assumption.
  - apply orb_false_iff in Hr. destruct Hr as [Hl Hr].
    assert (F : Forall DeepD ts) by (apply deep_members; [assumption|apply dec_tuple; exact Hd|exact Hr]).
    apply (fun t => deep_step t ts); [reflexivity| |exact F]. intros size dec S A. apply d_tuple; [|exact A].
    apply orb_false_iff in Hl. destruct Hl as [L1 L2]. apply Nat.eqb_neq in L1. apply Nat.ltb_ge in L2. lia.
  - parts [t]. apply d_array; assumption.
  - parts [TInt Usize; t]. apply d_vec; assumption.
  - parts [TInt Usize; t]. apply d_list; assumption.
  - parts [TInt Usize; t]. apply d_sized_slice; assumption.
  - parts [TInt Usize]. apply d_sized_str; assumption.
  - destruct w; try congruence; try (assert (DeepD t) by auto; parts [t]).
    all: lazymatch goal with
      | |- forall i, decode_with _ _ _ (TWrap WBox _) i = _ => apply d_box; assumption
      | |- forall i, decode_with _ _ _ (TWrap WRc _) i = _ => apply d_rc; assumption
      | |- forall i, decode_with _ _ _ (TWrap WArc _) i = _ => apply d_arc; assumption
      | |- forall i, decode_with _ _ _ (TWrap WCell _) i = _ => apply d_cell; assumption
      | |- forall i, decode_with _ _ _ (TWrap WWrapping _) i = _ => apply d_wrapping; assumption
      | |- forall i, decode_with _ _ _ (TWrap WSaturating _) i = _ => apply d_saturating; assumption
      | |- _ => idtac
      end.
    apply orb_false_iff in Hr. destruct Hr as [Hr _].
    destruct t; try discriminate Hr; [|parts [TBool]; apply d_atomic_bool; assumption]. pose proof (deep_int i). parts [TInt i]. apply d_atomic; [|assumption]. destruct i; (exact I || discriminate Hr).
  - assert (DeepD (owned t)).
    { destruct t; cbn [owned]; lazymatch goal with
      | |- DeepD TString => apply deep_string
      | |- DeepD TCString => apply deep_cstring
      | |- DeepD (TVec _) => first [apply H; assumption | apply deep_vec; apply H0; [apply (dec_coll _ _ Hd)|assumption]]
      | |- _ => apply H; assumption
      end. }
    parts [owned t]. apply d_cow; assumption.
  - parts [t]. apply d_refcell; assumption.
  - parts [t]. apply d_lock; assumption.
  - parts [TInt U64; TInt U32]. apply d_duration; assumption.
  - parts [TInt I64]. apply d_time; assumption.
  - pose proof deep_ip4. pose proof deep_ip6. parts [TInt U8; TIpv4; TIpv6]. apply d_ip; assumption.
  - pose proof deep_sock4. pose proof deep_sock6. parts [TInt U8; TSockV4; TSockV6]. apply d_sock; assumption.
  - parts [t]. apply d_range; assumption.
  - parts [t]. apply d_range_from; assumption.
  - parts (@nil ty). apply d_full.
  - parts [t]. apply d_range_inclusive; assumption.
  - parts [t]. apply d_range_to; assumption.
  - parts [t]. apply d_range_to_inclusive; assumption.
  - parts [TInt U8; t]. apply d_bound; assumption.
  - parts (@nil ty). apply d_phantom.
  - parts (@nil ty). apply d_pinned.
  - parts (@nil ty). apply d_infallible.
  - destruct (dec_ety t1) eqn:E1; [|congruence]. destruct (dec_ety t2) eqn:E2; [|congruence]. apply orb_false_iff in Hr. destruct Hr.
    assert (DeepD t1) by (apply H1; congruence || assumption). assert (DeepD t2) by (apply H; congruence || assumption).
    parts [TInt Usize; t1; t2]. apply d_map; assumption.
  - parts [TInt Usize; t]. apply d_set; assumption.
  - apply deep_struct. apply deep_members; [assumption| |exact Hr]. apply dec_generic. destruct (all_generic_d (map dec_ety ts)); congruence.
  - apply deep_enum. destruct (forallb _ vs) eqn:G in Hd; [|congruence]. clear Hd. revert Hr G H. clear. intros Hr G H. induction H as [|x vs Hx _ IH]; constructor.
    + cbn in Hr, G. apply orb_false_iff in Hr. apply andb_true_iff in G. apply deep_members; [exact Hx|apply dec_generic; apply G|apply Hr].
    + cbn in Hr, G. apply orb_false_iff in Hr. apply andb_true_iff in G. apply IH; [apply Hr|apply G].
Qed.
Lemma C114_decode_lemma : forall t, dec_ety t <> None -> of_rust t ->
  exists d, forall n m i, (d <= n)%nat -> (d <= m)%nat -> run_decode checks (run_size size_of m) n t i = decode t i.
Proof. intros t H1 H2. exact (proj1 (deep_decode t) H1 H2). Qed.
End S.
