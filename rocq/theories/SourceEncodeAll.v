From Coq Require Import Lia.
From Verif Require Import Base Streams Utf8 Types TypesFacts Traits Encode Decode Sized SpecDecode SpecSource
  SourceNames SourceSyntax SourceMeaning SourceEncode SourceDecode SourceSizes SourceSizedStr SourceSizedSlice SourceRun SourceTactics SourceEncodeProofs SourceEncodeLoops.
Local Open Scope Z_scope.

Section S.
Variable checks : bool.
Definition DeepE (t : ty) : Prop := exists d, forall n v o, (d <= n)%nat -> wt t v -> run_encode checks n t v o = encode checks t v o.
Lemma deep_alle : forall ts, Forall DeepE ts -> exists d, forall n, (d <= n)%nat -> Forall (AgreeE checks (run_encode checks n)) ts.
Proof.
  induction 1 as [|t ts [d H] _ [d' IH]]; [exists O; constructor|]. exists (Nat.max d d'). intros n Hn. constructor.
  - intros v o W. apply H; [lia|exact W].
  - apply IH; lia.
Qed.
Definition lengths_of (enc : ty -> val -> E) : Prop := forall z o, enc (TInt Usize) (VInt z) o = enc_usize z o.
Lemma lengths_deep : forall n, (2 <= n)%nat -> lengths_of (run_encode checks n).
Proof.
  intros n H z o. destruct n as [|[|n]]; [lia|lia|]. change (run_encode checks (S (S n)) (TInt Usize) (VInt z) o) with (encode_with checks (run_encode checks (S n)) (TInt Usize) (VInt z) o).
  apply e_usize_any. intros v o' W. change (run_encode checks (S n) (TInt U16) v o') with (encode_with checks (run_encode checks n) (TInt U16) v o').
  apply e_num; [exact I|exact W].
Qed.
Lemma deepe_step : forall t ts, match t with TStruct _ | TEnum _ _ => False | _ => True end ->
  (forall enc, lengths_of enc -> Forall (AgreeE checks enc) ts -> forall v o, wt t v -> encode_with checks enc t v o = encode checks t v o) ->
  Forall DeepE ts -> DeepE t.
Proof.
  intros t ts T H F. destruct (deep_alle ts F) as [d D]. exists (S (S (S d))). intros n v o Hn W. destruct n as [|n]; [lia|].
  cbn [run_encode]. replace (encode_derived (run_encode checks n) t v) with (@None E) by (destruct t; try contradiction T; reflexivity).
  apply H; [apply lengths_deep; lia|apply D; lia|exact W].
Qed.
Ltac parts l := apply (fun t => deepe_step t l);
  [exact I|intros ? ? F; repeat match goal with F : Forall _ (_ :: _) |- _ => inversion_clear F end |repeat (apply Forall_cons; [assumption|]); apply Forall_nil].
Lemma deepe_num : forall k, match k with Usize | Isize => False | _ => True end -> DeepE (TInt k).
Proof. intros k K. parts (@nil ty). apply e_num. exact K. Qed.
Lemma deepe_int : forall k, DeepE (TInt k).
Proof.
  intros k. assert (DeepE (TInt U16)) by (apply deepe_num; exact I). assert (DeepE (TInt I16)) by (apply deepe_num; exact I).
  destruct k; try (apply deepe_num; exact I).
  - parts [TInt U16]. apply e_usize; assumption.
  - parts [TInt I16]. apply e_isize; assumption.
Qed.
Lemma deepe_bool : DeepE TBool.
Proof. pose proof (deepe_int U8). parts [TInt U8]. apply e_bool; assumption. Qed.
Lemma deepe_slice : forall t, DeepE t -> DeepE (TSlice t).
Proof. intros t H. parts [t]. apply e_slice; assumption. Qed.
Lemma deepe_octets : DeepE (TSlice (TInt U8)).
Proof. apply deepe_slice. apply deepe_int. Qed.
Lemma deepe_str : DeepE TStr.
Proof. pose proof deepe_octets. parts [TSlice (TInt U8)]. apply e_str; assumption. Qed.
Lemma deepe_cstr : DeepE TCStr.
Proof. pose proof deepe_octets. parts [TSlice (TInt U8)]. apply e_cstr; assumption. Qed.
Lemma deepe_ip4 : DeepE TIpv4.
Proof. pose proof (deepe_int U32). parts [TInt U32]. apply e_ip4; assumption. Qed.
Lemma deepe_ip6 : DeepE TIpv6.
Proof. pose proof (deepe_int U128). parts [TInt U128]. apply e_ip6; assumption. Qed.
Lemma deepe_sock4 : DeepE TSockV4.
Proof. pose proof deepe_ip4. pose proof (deepe_int U16). parts [TIpv4; TInt U16]. apply e_sock4; assumption. Qed.
Lemma deepe_sock6 : DeepE TSockV6.
Proof. pose proof deepe_ip6. pose proof (deepe_int U16). pose proof (deepe_int U32). parts [TIpv6; TInt U16; TInt U32]. apply e_sock6; assumption. Qed.
Lemma agree_fields : forall enc ts, Forall (AgreeE checks enc) ts -> forall conv vs o, all2 (map wt ts) vs -> enc_fields (map enc ts) conv vs o = enc_fields (map (encode checks) ts) conv vs o.
Proof.
  induction 1 as [|t ts H _ IH]; intros conv vs o W; [reflexivity|]. destruct vs as [|v vs]; [reflexivity|]. cbn [map all2] in W. destruct W as [W1 W2].
  cbn [map enc_fields]. unfold eseq, emap_err. rewrite H by exact W1. destruct (encode checks t v o) as [o' [x|e|p]]; [apply IH; exact W2|reflexivity|reflexivity].
Qed.
Lemma deepe_struct : forall ts, Forall DeepE ts -> DeepE (TStruct ts).
Proof.
  intros ts F. destruct (deep_alle ts F) as [d D]. exists (S d). intros n v o Hn W. destruct n as [|n]; [lia|]. destruct v; try contradiction. cbn [run_encode encode_derived encode].
  apply agree_fields; [apply D; lia|exact W].
Qed.
Lemma deepe_enum : forall r vs, Forall (fun x => Forall DeepE (snd x)) vs -> DeepE (TEnum r vs).
Proof.
  intros r vs F.
  assert (exists d, forall n, (d <= n)%nat -> Forall (fun x => Forall (AgreeE checks (run_encode checks n)) (snd x)) vs) as [d D].
  { clear -F. induction F as [|x vs H _ [d IH]]; [exists O; constructor|]. destruct (deep_alle _ H) as [d' D]. exists (Nat.max d d'). intros n Hn.
    constructor; [apply D; lia|apply IH; lia]. }
  exists (S d). intros n v o Hn W. destruct n as [|n]; [lia|]. destruct v; try contradiction. rename i into j. cbn [run_encode encode_derived encode]. unfold enc_enum.
  destruct (discriminants (map fst vs)) as [ds|]; [|reflexivity]. destruct W as [_ W]. rewrite !nth_error_map. rewrite nth_error_map in W.
  destruct (nth_error ds j) as [z|]; [|reflexivity]. destruct (nth_error vs j) as [x|] eqn:E; [|reflexivity]. cbn [option_map] in *.
  unfold eseq. destruct (emap_err EDisc (enc_int r z) o) as [o' [y|e|p]]; [|reflexivity|reflexivity]. apply agree_fields; [|exact W].
  specialize (D n ltac:(lia)). rewrite Forall_forall in D. apply D. apply nth_error_In in E. exact E.
Qed.
Lemma deepe_members : forall ts, Forall (fun t => of_rust t -> DeepE t) ts -> existsb (contains unlike_rust) ts = false -> Forall DeepE ts.
Proof.
  induction 1 as [|t ts H _ IH]; intros E; [constructor|]. cbn in E. apply orb_false_iff in E. destruct E. constructor; auto.
Qed.
Lemma deep_encode : forall t, of_rust t -> DeepE t.
Proof.
  induction t using ty_ind_strong; intros Hr; unfold of_rust in Hr; cbn [contains unlike_rust orb] in Hr;
  pose proof (deepe_int Usize); pose proof (deepe_int U8); pose proof (deepe_int U16); pose proof (deepe_int U32); pose proof (deepe_int U64); pose proof (deepe_int I64);
  pose proof deepe_bool.
  all: try (match goal with A : of_rust ?t -> DeepE ?t |- _ => assert (DeepE t) by (apply A; exact Hr) end).
  all: try (apply deepe_int || apply deepe_bool || apply deepe_ip4 || apply deepe_ip6 || apply deepe_sock4 || apply deepe_sock6 || apply deepe_str || apply deepe_cstr).
  - parts (@nil ty). apply e_float. auto.
  - parts (@nil ty). apply e_float. auto.
  - parts [TInt U32]. apply e_char; assumption.
  - parts (@nil ty). apply e_unit.
  - pose proof (deepe_int i). parts [TInt i]. apply e_nonzero; assumption.
  - parts [TBool; t]. apply e_option; assumption.
  - apply orb_false_iff in Hr. destruct Hr.
    assert (DeepE t1) by auto. assert (DeepE t2) by auto. parts [TBool; t1; t2]. apply e_result; assumption.
  - apply orb_false_iff in Hr. destruct Hr as [Hl Hr].
    assert (F : Forall DeepE ts) by (apply deepe_members; assumption).
    apply (fun t => deepe_step t ts); [exact I| |exact F]. intros enc S A. apply e_tuple; [|exact A].
    apply orb_false_iff in Hl. destruct Hl as [L1 L2]. apply Nat.eqb_neq in L1. apply Nat.ltb_ge in L2. lia.
  - parts [t]. apply e_array; assumption.
  - apply deepe_slice; assumption.
  - assert (DeepE (TSlice t)) by (apply deepe_slice; assumption). parts [TSlice t]. apply e_vec; assumption.
  - parts [t]. apply e_list; assumption.
  - assert (DeepE (TSlice t)) by (apply deepe_slice; assumption). parts [TSlice t]. apply e_sized_slice; assumption.
  - pose proof deepe_str. parts [TStr]. apply e_string; assumption.
  - pose proof deepe_str. parts [TStr]. apply e_sized_str; assumption.
  - pose proof deepe_cstr. parts [TCStr]. apply e_cstring; assumption.
  - apply orb_false_iff in Hr. destruct Hr as [Hu Hr]. assert (DeepE t) by auto.
    destruct w; try parts [t].
    all: lazymatch goal with
      | |- forall v o, wt (TWrap WRef _) _ -> _ => apply e_ref; assumption
      | |- forall v o, wt (TWrap WRefMut _) _ -> _ => apply e_refmut; assumption
      | |- forall v o, wt (TWrap WBox _) _ -> _ => apply e_box; assumption
      | |- forall v o, wt (TWrap WRc _) _ -> _ => apply e_rc; assumption
      | |- forall v o, wt (TWrap WArc _) _ -> _ => apply e_arc; assumption
      | |- forall v o, wt (TWrap WCell _) _ -> _ => apply e_cell; assumption
      | |- forall v o, wt (TWrap WWrapping _) _ -> _ => apply e_wrapping; assumption
      | |- forall v o, wt (TWrap WSaturating _) _ -> _ => apply e_saturating; assumption
      | |- forall v o, wt (TWrap WLazyCell _) _ -> _ => apply e_lazycell; assumption
      | |- forall v o, wt (TWrap WLazyLock _) _ -> _ => apply e_lazylock; assumption
      | |- forall v o, wt (TWrap WAtomic _) _ -> _ => idtac
      end.
    destruct t; try discriminate Hu; [apply e_atomic; [destruct i; (exact I || discriminate Hu)|assumption] | apply e_atomic_bool; assumption].
  - parts [t]. apply e_cow; assumption.
  - parts [t]. apply e_refcell; assumption.
  - parts [t]. apply e_lock; assumption.
  - parts [TInt U64; TInt U32]. apply e_duration; assumption.
  - parts [TInt I64]. apply e_time; assumption.
  - pose proof deepe_ip4. pose proof deepe_ip6. parts [TInt U8; TIpv4; TIpv6]. apply e_ip; assumption.
  - pose proof deepe_sock4. pose proof deepe_sock6. parts [TInt U8; TSockV4; TSockV6]. apply e_sock; assumption.
  - parts [t]. apply e_range; assumption.
  - parts [t]. apply e_range_from; assumption.
  - parts (@nil ty). apply e_full.
  - parts [t]. apply e_range_inclusive; assumption.
  - parts [t]. apply e_range_to; assumption.
  - parts [t]. apply e_range_to_inclusive; assumption.
  - parts [TInt U8; t]. apply e_bound; assumption.
  - parts (@nil ty). apply e_phantom.
  - parts (@nil ty). apply e_pinned.
  - parts (@nil ty). apply e_infallible.
  - apply orb_false_iff in Hr. destruct Hr. assert (DeepE t1) by auto. assert (DeepE t2) by auto. parts [t1; t2]. apply e_map; assumption.
  - parts [t]. apply e_set; assumption.
  - apply deepe_struct. apply deepe_members; assumption.
  - apply deepe_enum. revert Hr H. clear. intros Hr H. induction H as [|x vs Hx _ IH]; constructor; cbn in Hr; apply orb_false_iff in Hr.
    + apply deepe_members; [exact Hx|apply Hr].
    + apply IH. apply Hr.
Qed.
Lemma C114_encode_lemma : forall t, of_rust t ->
  exists d, forall n v o, (d <= n)%nat -> wt t v -> run_encode checks n t v o = encode checks t v o.
Proof. exact deep_encode. Qed.
End S.
