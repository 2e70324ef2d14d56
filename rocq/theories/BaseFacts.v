(* Facts about octets and little-endian numbers. *)
From Coq Require Import Lia ZifyBool ZifyNat ZifyN.
From Coq Require Import Strings.Byte.
From Verif Require Import Base.
Set Implicit Arguments.
Local Open Scope Z_scope.

Ltac Zify.zify_post_hook ::= Z.div_mod_to_equations.

Lemma b2z_range b : 0 <= b2z b < 256.
Proof. destruct b; vm_compute; split; congruence. Qed.

Lemma b2z_z2b z : b2z (z2b z) = z mod 256.
Proof.
  unfold b2z, z2b.
  assert (Hr : 0 <= z mod 256 < 256) by (apply Z.mod_pos_bound; reflexivity).
  destruct (Strings.Byte.of_N (Z.to_N (z mod 256))) as [b|] eqn:Hb.
  - apply Strings.Byte.to_of_N in Hb. rewrite Hb. apply Z2N.id; lia.
  - apply Strings.Byte.of_N_None_iff in Hb. lia.
Qed.

Lemma b2z_inj a b : b2z a = b2z b -> a = b.
Proof.
  unfold b2z. intros H. apply N2Z.inj in H.
  pose proof (Strings.Byte.of_to_N a) as Ha. pose proof (Strings.Byte.of_to_N b) as Hb.
  rewrite H in Ha. congruence.
Qed.

Lemma z2b_b2z b : z2b (b2z b) = b.
Proof. apply b2z_inj. rewrite b2z_z2b. apply Z.mod_small, b2z_range. Qed.

Lemma z2b_congr x y : x mod 256 = y mod 256 -> z2b x = z2b y.
Proof. intros H. apply b2z_inj. rewrite !b2z_z2b. exact H. Qed.

Lemma byte_eqb_spec a b : byte_eqb a b = true <-> a = b.
Proof.
  unfold byte_eqb. rewrite Z.eqb_eq. split; [apply b2z_inj | congruence].
Qed.

(* powers of 256 *)
Lemma pow256 w : 2 ^ (8 * Z.of_nat w) = 256 ^ Z.of_nat w.
Proof. rewrite Z.pow_mul_r by lia. reflexivity. Qed.

Lemma pow256_S w : 2 ^ (8 * Z.of_nat (S w)) = 256 * 2 ^ (8 * Z.of_nat w).
Proof.
  replace (8 * Z.of_nat (S w)) with (8 + 8 * Z.of_nat w) by lia.
  rewrite Z.pow_add_r by lia. reflexivity.
Qed.

Lemma pow256_pos w : 0 < 2 ^ (8 * Z.of_nat w).
Proof. apply Z.pow_pos_nonneg; lia. Qed.

Lemma le_bytes_length w z : length (le_bytes w z) = w.
Proof. revert z; induction w as [|w IH]; intros z; cbn; [reflexivity | rewrite IH; reflexivity]. Qed.

Lemma of_le_range bs : 0 <= of_le bs < 2 ^ (8 * Z.of_nat (length bs)).
Proof.
  induction bs as [|b bs IH]; [cbn; lia|].
  cbn [of_le length]. rewrite pow256_S. pose proof (b2z_range b). lia.
Qed.

Lemma of_le_le_bytes w z : of_le (le_bytes w z) = z mod 2 ^ (8 * Z.of_nat w).
Proof.
  revert z; induction w as [|w IH]; intros z.
  - cbn. rewrite Z.mod_1_r. reflexivity.
  - cbn [le_bytes of_le]. rewrite IH, b2z_z2b, pow256_S.
    rewrite Z.rem_mul_r by (pose proof (pow256_pos w); lia). reflexivity.
Qed.

Lemma le_bytes_of_le bs : le_bytes (length bs) (of_le bs) = bs.
Proof.
  induction bs as [|b bs IH]; [reflexivity|].
  cbn [length of_le le_bytes]. pose proof (b2z_range b) as Hb.
  f_equal.
  - rewrite <- (z2b_b2z b) at 2. apply z2b_congr.
    replace (b2z b + 256 * of_le bs) with (b2z b + of_le bs * 256) by lia. apply Z_mod_plus_full.
  - replace ((b2z b + 256 * of_le bs) / 256) with (of_le bs); [exact IH|].
    replace (b2z b + 256 * of_le bs) with (b2z b + of_le bs * 256) by lia.
    rewrite Z.div_add by lia. rewrite Z.div_small by lia. lia.
Qed.

(* the octets depend on the number modulo 2^(8 w) only *)
Lemma le_bytes_congr w x y : x mod 2 ^ (8 * Z.of_nat w) = y mod 2 ^ (8 * Z.of_nat w) -> le_bytes w x = le_bytes w y.
Proof.
  intros H. rewrite <- (le_bytes_of_le (le_bytes w x)), <- (le_bytes_of_le (le_bytes w y)).
  rewrite !of_le_le_bytes, !le_bytes_length, H. reflexivity.
Qed.

Lemma le_bytes_nth w z k : (k < w)%nat -> nth_error (le_bytes w z) k = Some (z2b (z / 256 ^ Z.of_nat k)).
Proof.
  revert z k; induction w as [|w IH]; intros z k Hk; [lia|].
  destruct k as [|k]; cbn [le_bytes nth_error].
  - change (Z.of_nat 0) with 0. rewrite Z.pow_0_r, Z.div_1_r. reflexivity.
  - rewrite IH by lia. f_equal. f_equal.
    rewrite Nat2Z.inj_succ, Z.pow_succ_r by lia.
    rewrite Z.div_div; [reflexivity | lia | apply Z.pow_pos_nonneg; lia].
Qed.

Lemma of_le_unsigned w z : 0 <= z < 2 ^ (8 * Z.of_nat w) -> of_le (le_bytes w z) = z.
Proof. intros H. rewrite of_le_le_bytes. apply Z.mod_small; exact H. Qed.

Lemma pow_half w : (0 < w)%nat -> 2 ^ (8 * Z.of_nat w) = 2 * 2 ^ (8 * Z.of_nat w - 1).
Proof.
  intros H. rewrite <- (Z.pow_succ_r 2) by lia. f_equal; lia.
Qed.

Lemma to_signed_le_bytes w z : (0 < w)%nat ->
  - 2 ^ (8 * Z.of_nat w - 1) <= z < 2 ^ (8 * Z.of_nat w - 1) -> to_signed w (of_le (le_bytes w z)) = z.
Proof.
  intros Hw Hz. rewrite of_le_le_bytes. unfold to_signed. pose proof (pow_half Hw) as Hh.
  set (h := 2 ^ (8 * Z.of_nat w - 1)) in *. set (m := 2 ^ (8 * Z.of_nat w)) in *.
  destruct (Z.ltb_spec z 0) as [Hneg|Hpos].
  - replace (z mod m) with (z + m).
    + destruct (Z.ltb_spec (z + m) h); lia.
    + symmetry. replace z with ((z + m) + (-1) * m) at 1 by lia. rewrite Z_mod_plus_full. apply Z.mod_small. lia.
  - rewrite Z.mod_small by lia. destruct (Z.ltb_spec z h); lia.
Qed.

Lemma to_signed_range w u : (0 < w)%nat -> 0 <= u < 2 ^ (8 * Z.of_nat w) ->
  - 2 ^ (8 * Z.of_nat w - 1) <= to_signed w u < 2 ^ (8 * Z.of_nat w - 1).
Proof.
  intros Hw Hu. pose proof (pow_half Hw). unfold to_signed. destruct (Z.ltb_spec u (2 ^ (8 * Z.of_nat w - 1))); lia.
Qed.

Lemma le_bytes_to_signed w u : le_bytes w (to_signed w u) = le_bytes w u.
Proof.
  unfold to_signed. destruct (Z.ltb_spec u (2 ^ (8 * Z.of_nat w - 1))); [reflexivity|].
  apply le_bytes_congr.
  replace (u - 2 ^ (8 * Z.of_nat w)) with (u + (-1) * 2 ^ (8 * Z.of_nat w)) by lia. apply Z_mod_plus_full.
Qed.

Lemma be_bytes_length w z : length (be_bytes w z) = w.
Proof. unfold be_bytes. rewrite rev_length. apply le_bytes_length. Qed.

Lemma be_bytes_of_be bs : be_bytes (length bs) (of_be bs) = bs.
Proof.
  unfold be_bytes, of_be. rewrite <- (rev_length bs), le_bytes_of_le. apply rev_involutive.
Qed.

Lemma of_be_range bs : 0 <= of_be bs < 2 ^ (8 * Z.of_nat (length bs)).
Proof. unfold of_be. rewrite <- rev_length. apply of_le_range. Qed.

Lemma le_bytes_of_be bs : le_bytes (length bs) (of_be bs) = rev bs.
Proof. unfold of_be. rewrite <- (rev_length bs). apply le_bytes_of_le. Qed.

(* lists *)
Lemma firstn_length_app {A} (a b : list A) : firstn (length a) (a ++ b) = a.
Proof. rewrite firstn_app, Nat.sub_diag, firstn_O, firstn_all, app_nil_r. reflexivity. Qed.

Lemma skipn_length_app {A} (a b : list A) : skipn (length a) (a ++ b) = b.
Proof. rewrite skipn_app, Nat.sub_diag, skipn_all. reflexivity. Qed.

Lemma skipn_plus {A} (n m : nat) (l : list A) : skipn n (skipn m l) = skipn (m + n) l.
Proof.
  revert l; induction m as [|m IH]; intros l; [reflexivity|].
  destruct l as [|x l]; cbn [skipn Nat.add]; [apply skipn_nil | apply IH].
Qed.

Lemma nth_error_map_inv {A B} (f : A -> B) l i y : nth_error (map f l) i = Some y -> exists x, nth_error l i = Some x /\ y = f x.
Proof. rewrite nth_error_map. destruct (nth_error l i) as [x|]; [|discriminate]. intros H. injection H as <-. exists x. auto. Qed.

Lemma forall_map {A B} (P : B -> Prop) (f : A -> B) l : Forall (fun x => P (f x)) l -> Forall P (map f l).
Proof. induction 1; cbn; constructor; auto. Qed.

Lemma nth_error_map_some {A B} (f : A -> B) l i x : nth_error l i = Some x -> nth_error (map f l) i = Some (f x).
Proof. intros H. rewrite nth_error_map, H. reflexivity. Qed.

Lemma nth_error_ext {A} (a b : list A) : (forall k, nth_error a k = nth_error b k) -> a = b.
Proof.
  revert b; induction a as [|x a IH]; intros [|y b] H; [reflexivity | specialize (H O); discriminate | specialize (H O); discriminate |].
  pose proof (H O) as H0. injection H0 as ->. f_equal. apply IH. intros k. apply (H (S k)).
Qed.
