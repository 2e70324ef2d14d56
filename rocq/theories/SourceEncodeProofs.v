From Coq Require Import Lia.
From Verif Require Import Base Streams Utf8 Types Traits Encode Decode Sized SourceNames SourceSyntax SourceMeaning SourceEncode SourceDecode SourceSizes SourceSizedStr SourceSizedSlice SourceRun SourceTactics.
Local Open Scope Z_scope.
Definition AgreeE (checks : bool) (enc : ty -> val -> E) (t : ty) := forall v o, wt t v -> enc t v o = encode checks t v o.
Ltac ranges := repeat match goal with
  | |- context [in_ity U8 ?z] => change (in_ity U8 z) with (0 <= z < 256)
  | |- context [in_ity U16 ?z] => change (in_ity U16 z) with (0 <= z < 65536)
  | |- context [in_ity U32 ?z] => change (in_ity U32 z) with (0 <= z < 4294967296)
  | |- context [in_ity U64 ?z] => change (in_ity U64 z) with (0 <= z < 2 ^ 64)
  | |- context [in_ity I16 ?z] => change (in_ity I16 z) with (-32768 <= z < 32768)
  | |- context [in_ity I64 ?z] => change (in_ity I64 z) with (- 2 ^ 63 <= z < 2 ^ 63)
  | |- context [in_ity Usize ?z] => change (in_ity Usize z) with (0 <= z < 2 ^ 64)
  end.
Lemma scalar_range : forall c, is_scalar c = true -> 0 <= c < 4294967296.
Proof. intros c H. unfold is_scalar in H. apply orb_true_iff in H. rewrite !andb_true_iff, !Z.leb_le in H. lia. Qed.
Lemma be_range : forall n bs, length bs = n -> 0 <= of_be bs < 256 ^ Z.of_nat n.
Proof. intros n bs <-. unfold of_be. rewrite <- rev_length. apply of_le_range. Qed.
Ltac fit := cbn [wt]; first [assumption | tauto | ranges; unfold in_u16, in_u32 in *; first [lia | (apply scalar_range; assumption) | (apply (be_range 4); assumption) | (apply (be_range 16); assumption)]].
Ltac call H := rewrite H by fit; cbn [encode]; go.
(* writing a number gives no error: it writes or panics *)
Inductive writing : output * res eerr unit -> Prop :=
| writing_ok o : writing (o, Ok tt)
| writing_panic o p : writing (o, Panic p).
Lemma enc_num_writing : forall w z o, writing (enc_num w z o).
Proof. intros w z o. unfold enc_num, ewrite. destruct (output_write o (le_bytes w z)) as [o' [?|?|?]]; constructor. Qed.
Ltac esplit :=
  match goal with
  | |- context [if ?x then _ else _] => match x with context [match _ with _ => _ end] => fail 1 | _ => destruct x end
  | |- context [match encode ?c ?t ?v ?o with _ => _ end] => destruct (encode c t v o) as [? [[]|?|?]]
  | |- context [match enc_num ?w ?z ?o with _ => _ end] => destruct (enc_num_writing w z o)
  | |- context [output_write ?o ?bs] => unfold enc_num, ewrite; destruct (output_write o bs) as [? [[]|?|?]]
  end.
Ltac start := intros; match goal with W : wt _ ?v |- _ => destruct v; cbn [wt] in W; try contradiction; repeat match goal with W : match ?v with _ => _ end |- _ => is_var v; destruct v; try contradiction end; unfold AgreeE in *; cbn [encode]; go end.
Ltac simpe := start;
  repeat (first [match goal with H : forall v o, wt _ v -> _ = _ |- _ => call H end | esplit; go]); try (finish; reflexivity).
Lemma cast_i64 : forall d, 0 <= d < 2 ^ 64 -> cast I64 d = if d <? 2 ^ 63 then d else d - 2 ^ 64.
Proof. intros d D. unfold cast. cbn [isigned iwidth]. unfold to_signed. change (8 * Z.of_nat 8) with 64. change (64 - 1) with 63. rewrite Z.mod_small by lia. reflexivity. Qed.
Lemma cast_low : cast I64 (2 ^ 63) = - 2 ^ 63. Proof. reflexivity. Qed.
Lemma secs_after : forall s n, 0 <= n < 1000000000 -> secs_between s n 0 0 = s.
Proof. intros s n N. unfold secs_between. symmetry. apply (Z.div_unique _ _ _ n); lia. Qed.
Lemma secs_before : forall s n, 0 <= n < 1000000000 -> - s - 1 <= secs_between 0 0 s n <= - s.
Proof.
  intros s n N. unfold secs_between. replace (0 * 1000000000 + 0 - (s * 1000000000 + n)) with (- (s * 1000000000 + n)) by lia.
  split; [apply Z.div_le_lower_bound; lia|]. apply Z.div_le_upper_bound; lia.
Qed.
Section S.
Variable (checks : bool) (enc : ty -> val -> E).
Notation ok t := (forall v o, wt t v -> encode_with checks enc t v o = encode checks t v o).
Notation Agree := (AgreeE checks enc).
Lemma e_bool : Agree (TInt U8) -> ok TBool.
Proof. start. destruct b; call H; esplit; finish; reflexivity. Qed.
Lemma e_char : Agree (TInt U32) -> ok TChar.
Proof. simpe. Qed.
Lemma e_unit : ok TUnit. Proof. simpe. Qed.
Lemma e_phantom : ok TPhantomData. Proof. simpe. Qed.
Lemma e_pinned : ok TPhantomPinned. Proof. simpe. Qed.
Lemma e_full : ok TRangeFull. Proof. simpe. Qed.
Lemma e_infallible : ok TInfallible. Proof. simpe. Qed.
Lemma e_nonzero : forall k, Agree (TInt k) -> ok (TNonZero k).
Proof. destruct k; simpe. Qed.
Lemma e_option : forall t, Agree TBool -> Agree t -> ok (TOption t). Proof. simpe. Qed.
Lemma e_result : forall t e, Agree TBool -> Agree t -> Agree e -> ok (TResult t e). Proof. simpe. Qed.
Lemma e_range : forall t, Agree t -> ok (TRange t). Proof. simpe. Qed.
Lemma e_range_inclusive : forall t, Agree t -> ok (TRangeInclusive t). Proof. simpe. Qed.
Lemma e_range_from : forall t, Agree t -> ok (TRangeFrom t). Proof. simpe. Qed.
Lemma e_range_to : forall t, Agree t -> ok (TRangeTo t). Proof. simpe. Qed.
Lemma e_range_to_inclusive : forall t, Agree t -> ok (TRangeToInclusive t). Proof. simpe. Qed.
Lemma e_bound : forall t, Agree (TInt U8) -> Agree t -> ok (TBound t). Proof. simpe. Qed.
Lemma e_ref : forall t, Agree t -> ok (TWrap WRef t). Proof. simpe. Qed.
Lemma e_refmut : forall t, Agree t -> ok (TWrap WRefMut t). Proof. simpe. Qed.
Lemma e_box : forall t, Agree t -> ok (TWrap WBox t). Proof. simpe. Qed.
Lemma e_rc : forall t, Agree t -> ok (TWrap WRc t). Proof. simpe. Qed.
Lemma e_arc : forall t, Agree t -> ok (TWrap WArc t). Proof. simpe. Qed.
Lemma e_cell : forall t, Agree t -> ok (TWrap WCell t). Proof. simpe. Qed.
Lemma e_wrapping : forall t, Agree t -> ok (TWrap WWrapping t). Proof. simpe. Qed.
Lemma e_saturating : forall t, Agree t -> ok (TWrap WSaturating t). Proof. simpe. Qed.
Lemma e_lazycell : forall t, Agree t -> ok (TWrap WLazyCell t). Proof. simpe. Qed.
Lemma e_lazylock : forall t, Agree t -> ok (TWrap WLazyLock t). Proof. simpe. Qed.
Lemma e_atomic_bool : Agree TBool -> ok (TWrap WAtomic TBool). Proof. simpe. Qed.
Lemma e_atomic : forall k, match k with U128 | I128 => False | _ => True end -> Agree (TInt k) -> ok (TWrap WAtomic (TInt k)).
Proof. destruct k; intros K; try contradiction; simpe. Qed.
Lemma e_cow : forall t, Agree t -> ok (TCow t). Proof. simpe. Qed.
Lemma e_refcell : forall t, Agree t -> ok (TRefCell t). Proof. simpe. Qed.
Lemma e_lock : forall l t, Agree t -> ok (TLock l t). Proof. destruct l; simpe. Qed.
Lemma e_duration : Agree (TInt U64) -> Agree (TInt U32) -> ok TDuration. Proof. simpe. Qed.
Lemma e_ip4 : Agree (TInt U32) -> ok TIpv4. Proof. simpe. Qed.
Lemma e_ip6 : Agree (TInt U128) -> ok TIpv6. Proof. simpe. Qed.
Lemma e_ip : Agree (TInt U8) -> Agree TIpv4 -> Agree TIpv6 -> ok TIpAddr. Proof. simpe.  Qed.
Lemma e_sock4 : Agree TIpv4 -> Agree (TInt U16) -> ok TSockV4. Proof. simpe. Qed.
Lemma e_sock6 : Agree TIpv6 -> Agree (TInt U16) -> Agree (TInt U32) -> ok TSockV6. Proof. simpe. Qed.
Lemma e_sock : Agree (TInt U8) -> Agree TSockV4 -> Agree TSockV6 -> ok TSockAddr. Proof. simpe. Qed.
Lemma e_num : forall k, match k with Usize | Isize => False | _ => True end -> ok (TInt k).
Proof. destruct k; intros K; try contradiction; simpe. Qed.
Lemma e_float : forall t, t = TF32 \/ t = TF64 -> ok t.
Proof. intros t [-> | ->]; simpe. Qed.
(* for every length, also one that no `usize` holds *)
Lemma e_usize_any : Agree (TInt U16) -> forall z o, encode_with checks enc (TInt Usize) (VInt z) o = enc_usize z o.
Proof.
  intros H z o. unfold AgreeE in H. go. change (2 ^ (8 * Z.of_nat 2)) with 65536. destruct (Z.leb_spec 0 z); [destruct (Z.ltb_spec z 65536)|]; [|finish; reflexivity|finish; reflexivity].
  call H. esplit; finish; reflexivity.
Qed.
Lemma e_usize : Agree (TInt U16) -> ok (TInt Usize).
Proof. intros H v o W. destruct v; try contradiction. apply e_usize_any. exact H. Qed.
Lemma e_isize : Agree (TInt I16) -> ok (TInt Isize).
Proof.
  start. change (2 ^ (8 * Z.of_nat 2 - 1)) with 32768. change (- (32768)) with (-32768). destruct (Z.leb_spec (-32768) z); [destruct (Z.ltb_spec z 32768)|]; [|finish; reflexivity|finish; reflexivity].
  call H. esplit; finish; reflexivity.
Qed.
Lemma e_time : Agree (TInt I64) -> ok TSystemTime.
Proof.
  start. destruct H0 as [S N]. rewrite secs_after by exact N. pose proof (secs_before secs nanos N) as B. revert B. generalize (secs_between 0 0 secs nanos). intros d B.
  change (2 ^ (8 * Z.of_nat 8 - 1)) with (2 ^ 63). replace (0 <=? nanos) with true by (symmetry; apply Z.leb_le; lia).
  destruct (Z.leb_spec 0 secs).
  - replace (if 0 <? secs then true else if 0 =? secs then true else false) with true
      by (destruct (Z.ltb_spec 0 secs); [reflexivity|]; destruct (Z.eqb_spec 0 secs); [reflexivity|lia]).
    rewrite cast_i64 by lia. replace (secs <? 2 ^ 63) with true by (symmetry; apply Z.ltb_lt; lia). call H. esplit; finish; reflexivity.
  - replace (0 <? secs) with false by (symmetry; apply Z.ltb_ge; lia). replace (0 =? secs) with false by (symmetry; apply Z.eqb_neq; lia).
    replace (secs <? 0) with true by (symmetry; apply Z.ltb_lt; lia). rewrite (cast_i64 d) by lia.
    destruct (Z.ltb_spec d (2 ^ 63)).
    + replace (- 2 ^ 63 <=? 0 - d) with true by (symmetry; apply Z.leb_le; lia). replace (0 - d <? 2 ^ 63) with true by (symmetry; apply Z.ltb_lt; lia).
      replace (d =? - 2 ^ 63) with false by (symmetry; apply Z.eqb_neq; lia). call H. esplit; finish; reflexivity.
    + assert (d = 2 ^ 63) by lia. subst d. change (2 ^ 63 - 2 ^ 64) with (- 2 ^ 63). rewrite Z.eqb_refl.
      replace (0 - - 2 ^ 63 <? 2 ^ 63) with false by (symmetry; apply Z.ltb_ge; lia). change (- 2 ^ 63 <=? 0 - - 2 ^ 63) with true. cbn iota.
      destruct checks; [finish; reflexivity|]. change (0 - - 2 ^ 63) with (2 ^ 63). rewrite cast_low. call H. esplit; finish; reflexivity.
Qed.
End S.
