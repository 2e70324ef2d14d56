From Coq Require Import Lia.
From Verif Require Import Base Streams Utf8 Types Traits Encode Decode Sized SourceNames SourceSyntax SourceMeaning SourceEncode SourceDecode SourceSizes SourceSizedStr SourceSizedSlice SourceRun SourceTactics.
Local Open Scope Z_scope.
Definition Agree (dec : ty -> D val) (t : ty) := forall i, dec t i = decode t i.
Ltac split1 :=
  match goal with
  | |- context [dec_unsigned ?w ?i] => first [is_var i | idtac]; destruct (dec_unsigned_number w i)
  | |- context [dec_signed ?w ?i] => destruct (@dec_signed_number w i ltac:(lia))
  | |- context [if ?x then _ else _] => match x with context [match _ with _ => _ end] => fail 1 | _ => destruct x end
  | |- context [match decode ?t ?i with _ => _ end] => destruct (decode t i) as [? []]
  | |- context [match ?x with _ => _ end] => match x with context [match _ with _ => _ end] => fail 1 | _ => destruct x eqn:? end
  end.
Ltac simp := intros; 
  repeat match goal with H : Agree _ _ |- _ => unfold Agree in H; cbn [decode] in H end;
  cbn [decode]; go;
  repeat (first [match goal with |- context [if ?x then _ else _] => match x with context [match _ with _ => _ end] => fail 1 | _ => destruct x eqn:? end end | match goal with H : forall i, _ = _ |- _ => rewrite H end | split1]; go); try (finish; reflexivity).
Ltac taken := match goal with |- context [input_read ?i ?n] => destruct (read_taking i n) end.
Ltac enter := intros; repeat match goal with H : Agree _ _ |- _ => unfold Agree in H; cbn [decode] in H end; cbn [decode]; go.
Section S.
Variable (checks : bool) (size : ty -> option N) (dec : ty -> D val).
Notation ok t := (forall i, decode_with checks size dec t i = decode t i).
Lemma d_bool : Agree dec (TInt U8) -> ok TBool.
Proof. simp. Qed.
Lemma d_char : Agree dec (TInt U32) -> ok TChar.
Proof. simp. Qed.
Lemma d_unit : ok TUnit. Proof. simp. Qed.
Lemma d_phantom : ok TPhantomData. Proof. simp. Qed.
Lemma d_pinned : ok TPhantomPinned. Proof. simp. Qed.
Lemma d_full : ok TRangeFull. Proof. simp. Qed.
Lemma d_infallible : ok TInfallible. Proof. simp. Qed.
Lemma d_nonzero : forall k, Agree dec (TInt k) -> ok (TNonZero k).
Proof. destruct k; simp. Qed.
Lemma d_option : forall t, Agree dec TBool -> Agree dec t -> ok (TOption t). Proof. simp.  Qed.
Lemma d_result : forall t e, Agree dec TBool -> Agree dec t -> Agree dec e -> ok (TResult t e). Proof. simp. Qed.
Lemma d_box : forall t, Agree dec t -> ok (TWrap WBox t). Proof. simp. Qed.
Lemma d_rc : forall t, Agree dec t -> ok (TWrap WRc t). Proof. simp. Qed.
Lemma d_arc : forall t, Agree dec t -> ok (TWrap WArc t). Proof. simp. Qed.
Lemma d_cell : forall t, Agree dec t -> ok (TWrap WCell t). Proof. simp. Qed.
Lemma d_wrapping : forall t, Agree dec t -> ok (TWrap WWrapping t). Proof. simp. Qed.
Lemma d_saturating : forall t, Agree dec t -> ok (TWrap WSaturating t). Proof. simp. Qed.
Lemma d_atomic_bool : Agree dec TBool -> ok (TWrap WAtomic TBool). Proof. simp.  Qed.
Lemma d_atomic : forall k, match k with U128 | I128 => False | _ => True end -> Agree dec (TInt k) -> ok (TWrap WAtomic (TInt k)).
Proof. destruct k; try contradiction; intros _; simp. Qed.
Lemma d_cow : forall t, Agree dec (owned t) -> ok (TCow t).
Proof.
  intros t. assert (E : forall i, decode (TCow t) i = dmap (VCow true) (decode (owned t)) i) by (destruct t; reflexivity).
  intros A i. rewrite E. clear E. simp.
Qed.
Lemma d_refcell : forall t, Agree dec t -> ok (TRefCell t). Proof. simp. Qed.
Lemma d_lock : forall l t, Agree dec t -> ok (TLock l t). Proof. destruct l; simp. Qed.
Lemma d_duration : Agree dec (TInt U64) -> Agree dec (TInt U32) -> ok TDuration. Proof. simp. Qed.
Lemma d_ip4 : Agree dec (TInt U32) -> ok TIpv4. Proof. simp. Qed.
Lemma d_ip6 : Agree dec (TInt U128) -> ok TIpv6. Proof. simp. Qed.
Lemma d_ip : Agree dec (TInt U8) -> Agree dec TIpv4 -> Agree dec TIpv6 -> ok TIpAddr. Proof. simp.  Qed.
Lemma d_sock4 : Agree dec TIpv4 -> Agree dec (TInt U16) -> ok TSockV4. Proof. simp. Qed.
Lemma d_sock6 : Agree dec TIpv6 -> Agree dec (TInt U16) -> Agree dec (TInt U32) -> ok TSockV6. Proof. simp. Qed.
Lemma d_sock : Agree dec (TInt U8) -> Agree dec TSockV4 -> Agree dec TSockV6 -> ok TSockAddr. Proof. simp. Qed.
Lemma d_range : forall t, Agree dec t -> ok (TRange t). Proof. simp. Qed.
Lemma d_range_inclusive : forall t, Agree dec t -> ok (TRangeInclusive t). Proof. simp. Qed.
Lemma d_range_from : forall t, Agree dec t -> ok (TRangeFrom t). Proof. simp. Qed.
Lemma d_range_to : forall t, Agree dec t -> ok (TRangeTo t). Proof. simp. Qed.
Lemma d_range_to_inclusive : forall t, Agree dec t -> ok (TRangeToInclusive t). Proof. simp. Qed.
Lemma d_bound : forall t, Agree dec (TInt U8) -> Agree dec t -> ok (TBound t). Proof. simp. Qed.


(* ---- numbers *)
Lemma d_num : forall k, match k with Usize | Isize => False | _ => True end -> size (TInt k) = Some (N.of_nat (iwidth k)) -> ok (TInt k).
Proof.
  intros k K S i.
  destruct k; try contradiction; cbn [decode]; go; rewrite S; go; rewrite nat_N_Z, Nat2Z.id, octets_at_default by reflexivity;
    unfold dec_unsigned, dec_signed, dmap, dbind, dok, dread_into; match goal with |- context [input_read_into i ?d] => destruct (read_into_reading i d) end;
    rewrite ?octets_at_cells by reflexivity; finish; reflexivity.
Qed.
Lemma d_float : forall t w, t = TF32 /\ w = 4%nat \/ t = TF64 /\ w = 8%nat -> size t = Some (N.of_nat w) -> ok t.
Proof.
  intros t w K S i.
  destruct K as [[-> ->]|[-> ->]]; cbn [decode]; go; rewrite S; go; rewrite nat_N_Z, Nat2Z.id, octets_at_default by reflexivity;
    unfold dec_unsigned, dec_signed, dmap, dbind, dok, dread_into; match goal with |- context [input_read_into i ?d] => destruct (read_into_reading i d) end;
    rewrite ?octets_at_cells by reflexivity; finish; reflexivity.
Qed.

Lemma d_usize : Agree dec (TInt U16) -> ok (TInt Usize).
Proof. simp. rewrite cast_fits; [finish; reflexivity|]. unfold fits. cbn in *. lia. Qed.
Lemma d_isize : Agree dec (TInt I16) -> ok (TInt Isize).
Proof. simp. rewrite cast_fits; [finish; reflexivity|]. unfold fits. cbn in *. lia. Qed.
Lemma d_time : Agree dec (TInt I64) -> ok TSystemTime.
Proof.
  simp; change ((0 + 0) / 1000000000) with 0 in *; change ((0 - 0) / 1000000000) with 0 in *;
    change ((0 + 0) mod 1000000000) with 0; change ((0 - 0) mod 1000000000) with 0;
    rewrite ?(cast_fits U64 z) in * by (unfold fits; cbn in *; lia); cbn -[Z.abs] in *; rewrite ?Z.add_0_r; try lia; finish; reflexivity.
Qed.
Lemma d_string : Agree dec (TInt Usize) -> ok TString.
Proof.
  intros;
  repeat match goal with H : Agree _ _ |- _ => unfold Agree in H; cbn [decode] in H end;
  cbn [decode]; go. rewrite H. go.
  split1; [|finish; reflexivity]. go. taken; [|finish; reflexivity]. go.
  rewrite !repeat_length, Nat.add_0_l. rewrite (proj2 (Nat.leb_le (Z.to_nat z) (length bs))) by lia. rewrite Nat.leb_refl.
  destruct (from_utf8 bs) as [m|]; go.
  - rewrite Nat2Z.id. destruct (nth_error bs m); finish; [|reflexivity]. rewrite Nat2Z.id, z2b_b2z. reflexivity.
  - rewrite copied_cells by assumption. rewrite map_length. rewrite (proj2 (Nat.leb_le (Z.to_nat z) (length bs))) by lia. go.
    rewrite octets_at_cells by lia. finish. reflexivity.
Qed.

Lemma iter_null : forall A (g : nat -> A) bs j,
  iter (fun (x : nat * byte) (_ : unit) => if b2z (snd x) =? 0 then inr (g (fst x)) else inl tt) (combine (seq j (length bs)) bs) tt =
  match find_null j bs with Some m => inr (g m) | None => inl tt end.
Proof. induction bs as [|b bs IH]; intros j; [reflexivity|]. cbn. destruct (b2z b =? 0); [reflexivity|]. apply IH. Qed.
Lemma d_cstring : Agree dec (TInt Usize) -> ok TCString.
Proof.
  enter. rewrite H. go.
  split1; [|finish; reflexivity]. go. taken; [|finish; reflexivity]. go.
  rewrite enumerate_map.
  match goal with |- context [for_each ?b _ (map ?pr ?xs) ?e ?h _] =>
    rewrite (for_each_iter _ unit _ (finish_decode TCString i) b _ pr e (fun _ => h)
      (fun x _ => if b2z (snd x) =? 0 then inr (i1, Err (DCString (fst x))) else inl tt)
      (fun x _ => (id_c, RInt (Some U8) (b2z (snd x))) :: (id_i, RInt (Some Usize) (Z.of_nat (fst x))) :: e) (fun _ _ => True) ) with (s := tt)
  end; auto.
  - rewrite (iter_null _ (fun j => (i1, Err (DCString j)))). unfold dbind, dread.
    destruct (find_null 0 bs); [reflexivity|]. go.
    rewrite repeat_length, Nat.add_0_l. rewrite (proj2 (Nat.leb_le (Z.to_nat z) (length bs))) by lia. rewrite Nat.leb_refl. go.
    rewrite copied_cells by assumption. rewrite map_length. rewrite (proj2 (Nat.leb_le (Z.to_nat z) (length bs))) by lia. go.
    rewrite octets_at_cells by lia. finish. reflexivity.
  - intros [j b] *. intros _. go_in. destruct (b2z b =? 0); [finish; rewrite Nat2Z.id; reflexivity|reflexivity].
Qed.
End S.
