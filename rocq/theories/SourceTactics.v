(* Symbolic execution of the interpreter of SourceMeaning.v: what is left alone, and small facts. *)
From Coq Require Import Lia.
From Verif Require Import Base Streams Utf8 Types Traits Encode Decode Sized SourceNames SourceSyntax SourceMeaning SourceEncode SourceDecode SourceSizes SourceSizedStr SourceSizedSlice SourceRun.
Local Open Scope Z_scope.

(* the first of n cells filled, the others not yet *)
Definition part (n : nat) (rs : list rval) : list (option rval) := map Some rs ++ repeat None (n - length rs).
(* runs the source as far as it goes: up to a call of another implementation, a loop, or a test on a number *)
Ltac go := lazy -[Z.add Z.sub Z.mul Z.ltb Z.leb Z.eqb Z.of_nat Z.to_nat Z.of_N Z.to_N Z.modulo Z.div Z.pow Z.abs Z.opp Z.succ
  N.add N.mul N.max N.of_nat Nat.add Nat.sub Nat.ltb Nat.leb
  length app firstn skipn repeat map seq nth_error
  le_bytes of_le be_bytes of_be to_signed b2z z2b
  input_read input_read_into output_write from_utf8
  dec_unsigned dec_signed decode
  find_null map_insert set_insert enc_num encode result_conv
  dec_items dec_entries dec_keys dec_fields enc_items enc_entries enc_keys enc_fields enc_bytes secs_between
  for_each range_list enumerate octets_at filled plains cast finish_decode finish_encode store cell owned part in_loop
  Z.lt Z.le not].
(* the same, in the body of a loop *)
Ltac go_in := lazy -[Z.add Z.sub Z.mul Z.ltb Z.leb Z.eqb Z.of_nat Z.to_nat Z.of_N Z.to_N Z.modulo Z.div Z.pow Z.abs Z.opp Z.succ
  N.add N.mul N.max N.of_nat Nat.add Nat.sub Nat.ltb Nat.leb
  length app firstn skipn repeat map seq nth_error
  le_bytes of_le be_bytes of_be to_signed b2z z2b
  input_read input_read_into output_write from_utf8
  dec_unsigned dec_signed decode
  find_null map_insert set_insert enc_num encode result_conv
  dec_items dec_entries dec_keys dec_fields enc_items enc_entries enc_keys enc_fields enc_bytes secs_between
  for_each range_list enumerate octets_at filled plains cast finish_decode finish_encode store cell owned part Z.lt Z.le not].
(* the same, and reads off the result *)
Ltac finish := lazy -[Z.add Z.sub Z.mul Z.ltb Z.leb Z.eqb Z.of_nat Z.to_nat Z.of_N Z.to_N Z.modulo Z.div Z.pow Z.abs Z.opp Z.succ
  N.add N.mul N.max N.of_nat Nat.add Nat.sub Nat.ltb Nat.leb
  length app firstn skipn repeat map seq nth_error
  le_bytes of_le be_bytes of_be to_signed b2z z2b
  input_read input_read_into output_write from_utf8
  dec_unsigned dec_signed decode
  find_null map_insert set_insert enc_num encode result_conv
  dec_items dec_entries dec_keys dec_fields enc_items enc_entries enc_keys enc_fields enc_bytes secs_between
  for_each range_list enumerate octets_at filled plains cast store cell owned part Z.lt Z.le not].

(* ---- numbers read from the input *)

Inductive number (lo hi : Z) : input * res derr Z -> Prop :=
| number_ok i z : lo <= z < hi -> number lo hi (i, Ok z)
| number_panic i p : number lo hi (i, Panic p).

Lemma b2z_range : forall b, 0 <= b2z b < 256.
Proof. intros b. destruct b; vm_compute; split; congruence. Qed.
Lemma of_le_range : forall bs, 0 <= of_le bs < 256 ^ Z.of_nat (length bs).
Proof.
  induction bs as [|b bs IH]; [vm_compute; split; congruence|].
  cbn [of_le length]. rewrite Nat2Z.inj_succ, Z.pow_succ_r by lia. pose proof (b2z_range b). lia.
Qed.
Lemma read_into_length : forall i dst i' bs r, input_read_into i dst = (i', bs, r) -> length bs = length dst.
Proof.
  intros i dst i' bs r H. unfold input_read_into in H. destruct (_ <? _)%nat eqn:E; inversion H; subst; [reflexivity|].
  apply Nat.ltb_ge in E. rewrite firstn_length, skipn_length. lia.
Qed.
Lemma dec_unsigned_number : forall w i, number 0 (256 ^ Z.of_nat w) (dec_unsigned w i).
Proof.
  intros w i. unfold dec_unsigned, dmap, dbind, dok, dread_into.
  destruct (input_read_into i (repeat x00 w)) as [[i' bs] r] eqn:E. pose proof (read_into_length _ _ _ _ _ E) as L. rewrite repeat_length in L.
  destruct r; try apply number_panic.
  apply number_ok. subst w. apply of_le_range.
Qed.
Lemma to_signed_range : forall w z, (0 < w)%nat -> 0 <= z < 256 ^ Z.of_nat w -> - 2 ^ (8 * Z.of_nat w - 1) <= to_signed w z < 2 ^ (8 * Z.of_nat w - 1).
Proof.
  intros w z W H. unfold to_signed.
  replace (256 ^ Z.of_nat w) with (2 ^ (8 * Z.of_nat w)) in H by (rewrite Z.pow_mul_r by lia; reflexivity).
  assert (P : 2 ^ (8 * Z.of_nat w) = 2 * 2 ^ (8 * Z.of_nat w - 1)).
  { rewrite <- Z.pow_succ_r by lia. f_equal. lia. }
  destruct (Z.ltb_spec z (2 ^ (8 * Z.of_nat w - 1))); lia.
Qed.
Lemma dec_signed_number : forall w i, (0 < w)%nat -> number (- 2 ^ (8 * Z.of_nat w - 1)) (2 ^ (8 * Z.of_nat w - 1)) (dec_signed w i).
Proof.
  intros w i W. unfold dec_signed, dmap, dbind, dok, dread_into.
  destruct (input_read_into i (repeat x00 w)) as [[i' bs] r] eqn:E. pose proof (read_into_length _ _ _ _ _ E) as L. rewrite repeat_length in L.
  destruct r; try apply number_panic.
  apply number_ok. apply to_signed_range; [assumption|]. rewrite <- L. apply of_le_range.
Qed.

(* ---- arrays of octets *)

Lemma filled_some : forall rs, filled (map Some rs) = Some rs.
Proof. induction rs as [|r rs IH]; [reflexivity|]. cbn. rewrite IH. reflexivity. Qed.
Lemma octets_int : forall i zs, octets (map (RInt i) zs) = Some (map z2b zs).
Proof. induction zs as [|z zs IH]; [reflexivity|]. cbn. rewrite IH. reflexivity. Qed.
Lemma z2b_b2z : forall b, z2b (b2z b) = b.
Proof. intros b. destruct b; reflexivity. Qed.
Lemma octets_cells : forall bs, octets (map (fun b => RInt (Some U8) (b2z b)) bs) = Some bs.
Proof. induction bs as [|b bs IH]; [reflexivity|]. cbn. rewrite IH, z2b_b2z. reflexivity. Qed.
Lemma map_cell : forall bs, map cell bs = map Some (map (fun b => RInt (Some U8) (b2z b)) bs).
Proof. intros bs. rewrite map_map. reflexivity. Qed.
Lemma octets_at_cells : forall bs n, n = length bs -> octets_at (map cell bs) n = Some bs.
Proof.
  intros bs n ->. unfold octets_at. rewrite firstn_all2 by (rewrite map_length; apply Nat.le_refl). rewrite map_cell, filled_some. apply octets_cells.
Qed.
Lemma octets_at_cells_more : forall bs cs n, n = length bs -> octets_at (map cell bs ++ cs) n = Some bs.
Proof.
  intros bs cs n ->. unfold octets_at. rewrite firstn_app, map_length, Nat.sub_diag. cbn [firstn]. rewrite app_nil_r.
  rewrite firstn_all2 by (rewrite map_length; apply Nat.le_refl). rewrite map_cell, filled_some. apply octets_cells.
Qed.
Lemma octets_at_default : forall n m, n = m -> octets_at (repeat (Some RDefault) n) m = Some (repeat x00 n).
Proof.
  intros n m <-. unfold octets_at. rewrite firstn_all2 by (rewrite repeat_length; apply Nat.le_refl).
  induction n as [|n IH]; [reflexivity|]. cbn. destruct (filled (repeat (Some RDefault) n)) as [rs|]; [|discriminate]. cbn. rewrite IH. reflexivity.
Qed.

(* ---- what the input gives *)

Inductive reading (n : nat) : input * list byte * res stream_error unit -> Prop :=
| reading_ok i bs u : length bs = n -> reading n (i, bs, Ok u)
| reading_err i bs e : reading n (i, bs, Err e).
Lemma read_into_reading : forall i dst, reading (length dst) (input_read_into i dst).
Proof.
  intros i dst. destruct (input_read_into i dst) as [[i' bs] r] eqn:E. pose proof (read_into_length _ _ _ _ _ E) as L.
  unfold input_read_into in E. destruct (_ <? _)%nat; inversion E; subst; constructor. exact L.
Qed.
Inductive taking (n : nat) : input * res stream_error (list byte) -> Prop :=
| taking_ok i bs : length bs = n -> taking n (i, Ok bs)
| taking_err i e : taking n (i, Err e).
Lemma read_taking : forall i n, taking n (input_read i n).
Proof.
  intros i n. unfold input_read. destruct (_ <? _)%nat eqn:E; constructor. apply Nat.ltb_ge in E. rewrite firstn_length, skipn_length. lia.
Qed.

(* ---- loops *)

Fixpoint iter {B S A} (step : B -> S -> S + A) (xs : list B) (s : S) : S + A :=
  match xs with
  | [] => inl s
  | x :: xs' => match step x s with inl s' => iter step xs' s' | inr a => inr a end
  end.
Lemma for_each_iter : forall B S A (fin : R -> A) body p (pr : B -> rval) ρ (mk : S -> heap) (step : B -> S -> S + A) (ρx : B -> S -> env)
    (Inv : list B -> S -> Prop),
  (forall x xs s kb kc, Inv (x :: xs) s ->
     fin (bind p (pr x) ρ (fun ρ1 => body ρ1 (mk s) kb kc) (stuck (mk s))) =
     match step x s with inl s' => fin (kc (RTup []) (ρx x s) (mk s')) | inr a => a end) ->
  (forall x xs s s', Inv (x :: xs) s -> step x s = inl s' -> Inv xs s') ->
  (forall x s, restore ρ (ρx x s) = ρ) ->
  forall xs s k, Inv xs s ->
  fin (for_each body p (map pr xs) ρ (mk s) k) = match iter step xs s with inl s' => fin (k ρ (mk s')) | inr a => a end.
Proof.
  intros B S A fin body p pr ρ mk step ρx Inv H1 H2 H3 xs. induction xs as [|x xs IH]; intros s k I; [reflexivity|].
  cbn [map for_each iter]. rewrite (H1 x xs s _ _ I).
  destruct (step x s) as [s'|a] eqn:E; [|reflexivity].
  rewrite H3. apply IH. exact (H2 x xs s s' I E).
Qed.

Lemma enumerate_map : forall B (f : B -> rval) xs j,
  enumerate j (map f xs) = map (fun x => RTup [RInt (Some Usize) (Z.of_nat (fst x)); f (snd x)]) (combine (seq j (length xs)) xs).
Proof. induction xs as [|x xs IH]; intros j; [reflexivity|]. cbn. rewrite IH. reflexivity. Qed.
Lemma combine_seq : forall n j, combine (seq j n) (seq j n) = map (fun m => (m, m)) (seq j n).
Proof. induction n as [|n IH]; intros j; [reflexivity|]. cbn. rewrite IH. reflexivity. Qed.

(* ---- memory *)

Lemma store_app : forall A (a b : A) l m, store (length l) a (l ++ b :: m) = l ++ a :: m.
Proof. induction l as [|x l IH]; intros m; [reflexivity|]. cbn. rewrite IH. reflexivity. Qed.
(* an array or buffer of [n] cells of which the first are initialised *)
Lemma part_nil : forall n, part n [] = repeat None n.
Proof. intros n. unfold part. cbn [map app length]. rewrite Nat.sub_0_r. reflexivity. Qed.
Lemma part_full : forall n rs, length rs = n -> part n rs = map Some rs.
Proof. intros n rs <-. unfold part. rewrite Nat.sub_diag. apply app_nil_r. Qed.
Lemma part_length : forall n rs, (length rs <= n)%nat -> length (part n rs) = n.
Proof. intros n rs H. unfold part. rewrite app_length, map_length, repeat_length. lia. Qed.
Lemma part_store : forall n rs r j, j = length rs -> (j < n)%nat -> store j (Some r) (part n rs) = part n (rs ++ [r]).
Proof.
  intros n rs r j -> H. unfold part. rewrite map_app, app_length. cbn [map length].
  replace (n - length rs)%nat with (S (n - (length rs + 1)))%nat by lia. cbn [repeat].
  rewrite <- (map_length (@Some rval) rs) at 1. rewrite store_app, <- app_assoc. reflexivity.
Qed.
Lemma plains_vals : forall t vs, plains (map (RVal t) vs) = Some vs.
Proof. induction vs as [|v vs IH]; [reflexivity|]. cbn. rewrite IH. reflexivity. Qed.

Lemma cast_fits : forall k z, fits k z = true -> cast k z = z.
Proof.
  intros k z H. unfold fits, cast in *.
  assert (W : (0 < iwidth k)%nat) by (destruct k; cbn; lia). revert H. generalize (iwidth k) W. intros w W' H.
  assert (P : 2 ^ (8 * Z.of_nat w) = 2 * 2 ^ (8 * Z.of_nat w - 1)).
  { rewrite <- Z.pow_succ_r by lia. f_equal. lia. }
  assert (0 < 2 ^ (8 * Z.of_nat w - 1)) by (apply Z.pow_pos_nonneg; lia).
  destruct (isigned k); apply andb_prop in H; destruct H as [H1 H2]; apply Z.leb_le in H1; apply Z.ltb_lt in H2.
  - unfold to_signed. destruct (Z.ltb_spec z 0).
    + replace (z mod _) with (z + 2 ^ (8 * Z.of_nat w)) by (symmetry; rewrite <- (Z.mod_small (z + 2 ^ (8 * Z.of_nat w)) (2 ^ (8 * Z.of_nat w))) by lia;
        rewrite <- (Z_mod_plus_full z 1), Z.mul_1_l; reflexivity).
      destruct (Z.ltb_spec (z + 2 ^ (8 * Z.of_nat w)) (2 ^ (8 * Z.of_nat w - 1))); lia.
    + rewrite Z.mod_small by lia. destruct (Z.ltb_spec z (2 ^ (8 * Z.of_nat w - 1))); lia.
  - apply Z.mod_small. lia.
Qed.
(* what `copy_nonoverlapping` fills *)
Lemma copied_cells : forall bs n, length bs = n -> firstn 0 (repeat (@None rval) n) ++ map cell (firstn n bs) ++ skipn (0 + n) (repeat None n) = map cell bs.
Proof.
  intros bs n <-. rewrite (firstn_all2 bs) by apply Nat.le_refl. rewrite skipn_all2 by (rewrite repeat_length; apply Nat.le_refl). cbn [firstn app]. apply app_nil_r.
Qed.
