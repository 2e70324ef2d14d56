From Coq Require Import Lia.
From Verif Require Import Base Streams Utf8 Types TypesFacts Traits Encode Decode Sized SpecDecode SpecSource
  SourceNames SourceSyntax SourceMeaning SourceEncode SourceDecode SourceSizes SourceSizedStr SourceSizedSlice SourceRun SourceTactics.
Local Open Scope Z_scope.

Section S.
Variable size_of : size_of_fn.
Hypothesis real : plain_sizes size_of.
Section W.
Variable size : ty -> option N.
Notation Agree t := (max_size size_of t <> None -> size t = max_size size_of t).
Notation ok t := (forall n, max_size size_of t = Some n -> (n < 2 ^ 64)%N -> size_with size_of size t = Some n).
Ltac start := intros; cbn [max_size] in *;
  repeat match goal with H : context [max_size size_of ?t] |- _ => destruct (max_size size_of t); cbn [option_map] in * end;
  try discriminate;
  repeat match goal with H : Some _ <> None -> _ |- _ => specialize (H ltac:(discriminate)) end;
  match goal with H : Some ?e = Some ?n |- _ => assert (n = e) by congruence; clear H; subst n end.
Ltac size := start;
  go; repeat match goal with H : size ?t = _ |- context [size ?t] => rewrite H end; go; f_equal; try reflexivity; try lia.
Lemma s_num : forall k, match k with Usize | Isize => False | _ => True end -> ok (TInt k).
Proof. destruct k; intros K; try contradiction; size. Qed.
Lemma s_usize : Agree (TInt U16) -> ok (TInt Usize). Proof. size. Qed.
Lemma s_isize : Agree (TInt I16) -> ok (TInt Isize). Proof. size. Qed.
Lemma s_f32 : ok TF32. Proof. size. Qed.
Lemma s_f64 : ok TF64. Proof. size. Qed.
Lemma s_bool : Agree (TInt U8) -> ok TBool. Proof. size. Qed.
Lemma s_char : Agree (TInt U32) -> ok TChar. Proof. size. Qed.
Lemma s_unit : ok TUnit. Proof. size. Qed.
Lemma s_phantom : ok TPhantomData. Proof. size. Qed.
Lemma s_full : ok TRangeFull. Proof. size. Qed.
Lemma s_infallible : ok TInfallible. Proof. size. Qed.
Lemma s_nonzero : forall k, Agree (TInt k) -> ok (TNonZero k). Proof. destruct k; size. Qed.
Lemma s_option : forall t, Agree TBool -> Agree t -> ok (TOption t). Proof. size. Qed.
Lemma s_bound : forall t, Agree (TInt U8) -> Agree t -> ok (TBound t). Proof. size. Qed.
Lemma s_range : forall t, Agree t -> ok (TRange t). Proof. size. Qed.
Lemma s_range_inclusive : forall t, Agree t -> ok (TRangeInclusive t). Proof. size. Qed.
Lemma s_range_from : forall t, Agree t -> ok (TRangeFrom t). Proof. size. Qed.
Lemma s_range_to : forall t, Agree t -> ok (TRangeTo t). Proof. size. Qed.
Lemma s_range_to_inclusive : forall t, Agree t -> ok (TRangeToInclusive t). Proof. size. Qed.
Lemma s_cow : forall t, Agree t -> ok (TCow t). Proof. size. Qed.
Lemma s_refcell : forall t, Agree t -> ok (TRefCell t). Proof. size. Qed.
Lemma s_lock : forall l t, Agree t -> ok (TLock l t). Proof. destruct l; size. Qed.
Lemma s_duration : Agree (TInt U64) -> Agree (TInt U32) -> ok TDuration. Proof. size. Qed.
Lemma s_time : Agree (TInt I64) -> ok TSystemTime. Proof. size. Qed.
Lemma s_ip4 : Agree (TInt U32) -> ok TIpv4. Proof. size. Qed.
Lemma s_ip6 : Agree (TInt U128) -> ok TIpv6. Proof. size. Qed.
Lemma s_ip : Agree (TInt U8) -> Agree TIpv6 -> ok TIpAddr. Proof. size. Qed.
Lemma s_sock4 : Agree TIpv4 -> Agree (TInt U16) -> ok TSockV4. Proof. size. Qed.
Lemma s_sock6 : Agree TIpv6 -> Agree (TInt U16) -> Agree (TInt U32) -> ok TSockV6. Proof. size. Qed.
Lemma s_sock : Agree (TInt U8) -> Agree TSockV6 -> ok TSockAddr. Proof. size. Qed.
Lemma s_wrap : forall w t, match w with WAtomic => False | _ => True end -> Agree t -> ok (TWrap w t). Proof. destruct w; intros t K; try contradiction; size. Qed.
Lemma s_atomic_bool : Agree TBool -> ok (TWrap WAtomic TBool). Proof. size. Qed.
Lemma s_atomic : forall k, match k with U128 | I128 => False | _ => True end -> Agree (TInt k) -> ok (TWrap WAtomic (TInt k)).
Proof. destruct k; intros K; try contradiction; size. Qed.
Ltac sized := start; go; repeat match goal with H : size ?t = _ |- context [size ?t] => rewrite H end; go;
  change (2 ^ (8 * Z.of_nat 8)) with 18446744073709551616;
  repeat match goal with |- context [if ?a <=? ?b then _ else _] => destruct (Z.leb_spec a b); [|lia] | |- context [if ?a <? ?b then _ else _] => destruct (Z.ltb_spec a b); [|lia] end;
  go; f_equal; lia.
Lemma s_array : forall t n, Agree t -> ok (TArray t n). Proof. sized. Qed.
Lemma s_sized_slice : forall t n, Agree t -> ok (TSizedSlice t n). Proof. sized. Qed.
Lemma s_sized_str : forall n, Agree (TInt Usize) -> Agree (TInt U8) -> ok (TSizedStr n). Proof. sized. Qed.
Lemma s_result : forall t e, Agree TBool -> Agree t -> Agree e -> ok (TResult t e).
Proof.
  start. assert (L : forall u, match u with TInt i => N.of_nat (iwidth i) | TF32 => 4%N | TF64 => 8%N | _ => size_of u end = size_of u).
  { destruct real as [R1 [R2 R3]]. intros u. destruct u; try reflexivity; [rewrite R1|rewrite R2|rewrite R3]; reflexivity. }
  lazy -[N.of_nat] in L. destruct (N.ltb_spec (size_of e) (size_of t)); go; rewrite !L, H; destruct (Z.ltb_spec (Z.of_N (size_of e)) (Z.of_N (size_of t))); go; f_equal; lia.
Qed.
Lemma s_tuple : forall ts, (0 < length ts <= 12)%nat -> Forall (fun t => Agree t) ts -> ok (TTuple ts).
Proof.
  intros ts L F n M B. cbn [max_size] in M.
  do 13 try (destruct ts as [|? ts]; [|inversion_clear F as [|? ? ?H F']; rename F' into F]).
  all: try (exfalso; cbn in L; lia).
  all: cbn [map sum_opt] in M; clear L F.
  all: repeat (match type of M with context [max_size size_of ?t] => destruct (max_size size_of t) end; cbn [option_map] in M; [|discriminate M]).
  all: repeat match goal with H : Some _ <> None -> _ |- _ => specialize (H ltac:(discriminate)) end.
  all: match goal with H : Some ?e = Some ?n |- _ => assert (n = e) by congruence; clear H; subst n end.
  all: go; repeat match goal with H : size ?t = _ |- context [size ?t] => rewrite H end; go; f_equal; lia.
Qed.
End W.

Definition DeepS (t : ty) : Prop := exists d, forall m, (d <= m)%nat -> max_size size_of t <> None -> run_size size_of m t = max_size size_of t.
Definition fits_usize (t : ty) : Prop := forall n, max_size size_of t = Some n -> (n < 2 ^ 64)%N.
Lemma deep_alls : forall ts, Forall DeepS ts -> exists d, forall m, (d <= m)%nat -> Forall (fun t => max_size size_of t <> None -> run_size size_of m t = max_size size_of t) ts.
Proof.
  induction 1 as [|t ts [d H] _ [d' IH]]; [exists O; constructor|]. exists (Nat.max d d'). intros m Hm. constructor.
  - apply H; lia.
  - apply IH; lia.
Qed.
Lemma deeps_step : forall t ts, match t with TStruct _ | TEnum _ _ => False | _ => True end ->
  (forall size, Forall (fun t => max_size size_of t <> None -> size t = max_size size_of t) ts ->
     forall n, max_size size_of t = Some n -> (n < 2 ^ 64)%N -> size_with size_of size t = Some n) ->
  fits_usize t -> Forall DeepS ts -> DeepS t.
Proof.
  intros t ts T H W F. destruct (deep_alls ts F) as [d D]. exists (S d). intros m Hm Q. destruct m as [|m]; [lia|].
  cbn [run_size]. replace (size_derived (run_size size_of m) t) with (@None (option N)) by (destruct t; try contradiction T; reflexivity).
  destruct (max_size size_of t) as [n|] eqn:E; [|congruence]. apply H; [apply D; lia|reflexivity|apply W; exact E].
Qed.
Ltac small := intros ? W; cbn [max_size] in W; assert (W' := W); injection W' as <-; reflexivity.
Ltac parts l := apply (fun t => deeps_step t l);
  [exact I|intros ? F; repeat match goal with F : Forall _ (_ :: _) |- _ => inversion_clear F end| try assumption; try small |repeat (apply Forall_cons; [assumption|]); apply Forall_nil].
Lemma deeps_num : forall k, match k with Usize | Isize => False | _ => True end -> DeepS (TInt k).
Proof. intros k K. parts (@nil ty). apply s_num. exact K. intros n W. injection W as <-. destruct k; reflexivity. Qed.
Lemma deeps_int : forall k, DeepS (TInt k).
Proof.
  intros k. assert (DeepS (TInt U16)) by (apply deeps_num; exact I). assert (DeepS (TInt I16)) by (apply deeps_num; exact I).
  destruct k; try (apply deeps_num; exact I).
  - parts [TInt U16]. apply s_usize; assumption.
  - parts [TInt I16]. apply s_isize; assumption.
Qed.
Lemma deeps_bool : DeepS TBool.
Proof. pose proof (deeps_int U8). parts [TInt U8]. apply s_bool; assumption. Qed.
Lemma deeps_ip4 : DeepS TIpv4.
Proof. pose proof (deeps_int U32). parts [TInt U32]. apply s_ip4; assumption. Qed.
Lemma deeps_ip6 : DeepS TIpv6.
Proof. pose proof (deeps_int U128). parts [TInt U128]. apply s_ip6; assumption. Qed.
Lemma deeps_sock6 : DeepS TSockV6.
Proof. pose proof deeps_ip6. pose proof (deeps_int U16). pose proof (deeps_int U32). parts [TIpv6; TInt U16; TInt U32]. apply s_sock6; assumption. Qed.
Lemma agree_sum : forall size ts, Forall (fun t => max_size size_of t <> None -> size t = max_size size_of t) ts ->
  sum_opt (map (max_size size_of) ts) <> None -> sum_opt (map size ts) = sum_opt (map (max_size size_of) ts).
Proof.
  induction 1 as [|t ts H _ IH]; intros Q; [reflexivity|]. cbn [map sum_opt] in *. destruct (max_size size_of t) as [n|]; [|congruence].
  rewrite H by discriminate. rewrite IH; [reflexivity|]. destruct (sum_opt (map (max_size size_of) ts)); [discriminate|exact Q].
Qed.
Lemma deeps_struct : forall ts, Forall DeepS ts -> DeepS (TStruct ts).
Proof.
  intros ts F. destruct (deep_alls ts F) as [d D]. exists (S d). intros m Hm Q. destruct m as [|m]; [lia|]. cbn [run_size size_derived max_size].
  apply agree_sum; [apply D; lia|exact Q].
Qed.
Lemma deeps_enum : forall r vs, Forall (fun x => Forall DeepS (snd x)) vs -> DeepS (TEnum r vs).
Proof.
  intros r vs F.
  assert (exists d, forall m, (d <= m)%nat -> Forall (fun x => Forall (fun t => max_size size_of t <> None -> run_size size_of m t = max_size size_of t) (snd x)) vs) as [d D].
  { clear -F. induction F as [|x vs H _ [d IH]]; [exists O; constructor|]. destruct (deep_alls _ H) as [d' D]. exists (Nat.max d d'). intros m Hm.
    constructor; [apply D; lia|apply IH; lia]. }
  exists (S d). intros m Hm Q. destruct m as [|m]; [lia|]. specialize (D m ltac:(lia)). clear -D Q. cbn [run_size size_derived max_size] in *.
  induction D as [|x vs H _ IH]; [reflexivity|]. cbn [map max_opt] in *.
  destruct (sum_opt (map (max_size size_of) (snd x))) as [n|] eqn:E; [|cbn in Q; congruence]. rewrite agree_sum, E by (assumption || congruence). cbn [option_map] in *.
  rewrite IH; [reflexivity|]. intros X. apply Q. rewrite X. reflexivity.
Qed.
Lemma deeps_members : forall ts, Forall (fun t => of_rust t -> sizes_fit size_of t -> DeepS t) ts ->
  existsb (contains unlike_rust) ts = false -> existsb (contains (too_large size_of)) ts = false -> Forall DeepS ts.
Proof.
  induction 1 as [|t ts H _ IH]; intros E E'; [constructor|]. cbn in E, E'. apply orb_false_iff in E, E'. destruct E, E'. constructor; auto.
Qed.
Lemma fits_too_large : forall t, too_large size_of t = false -> fits_usize t.
Proof. intros t H n E. unfold too_large in H. rewrite E in H. apply N.leb_gt in H. exact H. Qed.
Lemma deep_size : forall t, of_rust t -> sizes_fit size_of t -> DeepS t.
Proof.
  induction t using ty_ind_strong; intros Hr Hs; unfold of_rust in Hr; unfold sizes_fit in Hs; cbn [contains unlike_rust orb] in Hr;
  cbn [contains] in Hs;
  try (apply orb_false_iff in Hs; destruct Hs as [Hf Hs]; apply fits_too_large in Hf); try apply fits_too_large in Hs;
  pose proof (deeps_int Usize); pose proof (deeps_int U8); pose proof (deeps_int U16); pose proof (deeps_int U32); pose proof (deeps_int U64); pose proof (deeps_int I64);
  pose proof deeps_bool.
  all: try (match goal with A : of_rust ?t -> sizes_fit size_of ?t -> DeepS ?t |- _ => assert (DeepS t) by (apply A; [exact Hr|exact Hs]) end).
  all: try (apply deeps_int || apply deeps_bool || apply deeps_ip4 || apply deeps_ip6 || apply deeps_sock6).
  all: try (exists O; intros m _ Q; cbn [max_size] in Q; congruence).
  - parts (@nil ty). apply s_f32.
  - parts (@nil ty). apply s_f64.
  - parts [TInt U32]. apply s_char; assumption.
  - parts (@nil ty). apply s_unit.
  - pose proof (deeps_int i). parts [TInt i]. apply s_nonzero; assumption.
  - parts [TBool; t]. apply s_option; assumption.
  - apply orb_false_iff in Hr, Hs. destruct Hr, Hs.
    assert (DeepS t1) by auto. assert (DeepS t2) by auto. parts [TBool; t1; t2]. apply s_result; assumption.
  - apply orb_false_iff in Hr. destruct Hr as [Hl Hr].
    assert (F : Forall DeepS ts) by (apply deeps_members; assumption).
    apply (fun t => deeps_step t ts); [exact I| |exact Hf|exact F]. intros size A. apply s_tuple; [|exact A].
    apply orb_false_iff in Hl. destruct Hl as [L1 L2]. apply Nat.eqb_neq in L1. apply Nat.ltb_ge in L2. lia.
  - parts [t]. apply s_array; assumption.
  - parts [t]. apply s_sized_slice; assumption.
  - parts [TInt Usize; TInt U8]. apply s_sized_str; assumption.
  - apply orb_false_iff in Hr. destruct Hr as [Hu Hr]. assert (DeepS t) by auto.
    destruct w; try (parts [t]; apply s_wrap; [exact I|assumption]). parts [t].
    destruct t; try discriminate Hu; [apply s_atomic; [destruct i; (exact I || discriminate Hu)|assumption] | apply s_atomic_bool; assumption].
  - parts [t]. apply s_cow; assumption.
  - parts [t]. apply s_refcell; assumption.
  - parts [t]. apply s_lock; assumption.
  - parts [TInt U64; TInt U32]. apply s_duration; assumption.
  - parts [TInt I64]. apply s_time; assumption.
  - pose proof deeps_ip6. parts [TInt U8; TIpv6]. apply s_ip; assumption.
  - pose proof deeps_ip4. parts [TIpv4; TInt U16]. apply s_sock4; assumption.
  - pose proof deeps_sock6. parts [TInt U8; TSockV6]. apply s_sock; assumption.
  - parts [t]. apply s_range; assumption.
  - parts [t]. apply s_range_from; assumption.
  - parts (@nil ty). apply s_full.
  - parts [t]. apply s_range_inclusive; assumption.
  - parts [t]. apply s_range_to; assumption.
  - parts [t]. apply s_range_to_inclusive; assumption.
  - parts [TInt U8; t]. apply s_bound; assumption.
  - parts (@nil ty). apply s_phantom.
  - parts (@nil ty). apply s_infallible.
  - apply deeps_struct. apply deeps_members; assumption.
  - apply deeps_enum. revert Hr Hs H. clear. intros Hr Hs H. induction H as [|x vs Hx _ IH]; constructor; cbn in Hr, Hs; apply orb_false_iff in Hr, Hs.
    + apply deeps_members; [exact Hx|apply Hr|apply Hs].
    + apply IH; [apply Hr|apply Hs].
Qed.
Lemma C114_size_lemma : forall t n, of_rust t -> sizes_fit size_of t -> max_size size_of t = Some n ->
  exists d, forall m, (d <= m)%nat -> run_size size_of m t = Some n.
Proof.
  intros t n Hr Hs E. destruct (deep_size t Hr Hs) as [d D]. exists d. intros m Hm. rewrite D, E by (exact Hm || congruence). reflexivity.
Qed.
End S.
