(* Key equality, and maps and sets built by insertion. *)
From Coq Require Import Lia ZifyBool ZifyNat ZifyN.
From Verif Require Import Base BaseFacts Streams StreamFacts Utf8 Types TypesFacts Traits Decode.
Set Implicit Arguments.

Lemma val_eqb_list vs : Forall (fun v => forall w, val_eqb v w = true <-> v = w) vs -> forall ws,
  (fix list_eqb (l l' : list val) {struct l} : bool :=
     match l, l' with
     | [], [] => true
     | x :: r, y :: r' => val_eqb x y && list_eqb r r'
     | _, _ => false
     end) vs ws = true <-> vs = ws.
Proof.
  induction 1 as [|v vs Hv Hvs IH]; intros [|w ws]; try (split; congruence).
  rewrite andb_true_iff, Hv, IH. split; [intros [-> ->]; reflexivity | intros H; injection H; auto].
Qed.

Lemma val_eqb_map kvs : Forall (fun p => (forall w, val_eqb (fst p) w = true <-> fst p = w) /\ (forall w, val_eqb (snd p) w = true <-> snd p = w)) kvs ->
  forall ws,
  (fix map_eqb (l l' : list (val * val)) {struct l} : bool :=
     match l, l' with
     | [], [] => true
     | (x, y) :: r, (x', y') :: r' => val_eqb x x' && val_eqb y y' && map_eqb r r'
     | _, _ => false
     end) kvs ws = true <-> kvs = ws.
Proof.
  induction 1 as [|[a b] vs [Ha Hb] Hvs IH]; intros [|[c d] ws]; try (split; congruence). cbn [fst snd] in *.
  rewrite !andb_true_iff, Ha, Hb, IH. split; [intros [[-> ->] ->]; reflexivity | intros H; injection H; auto].
Qed.

Lemma val_eqb_spec a : forall b, val_eqb a b = true <-> a = b.
Proof.
  induction a using val_ind_strong; intros w; destruct w; cbn [val_eqb];
    rewrite ?andb_true_iff, ?Z.eqb_eq, ?Nat.eqb_eq, ?Bool.eqb_true_iff, ?bytes_eqb_spec;
    try (rewrite val_eqb_list by assumption);
    try (rewrite val_eqb_map by assumption);
    repeat match goal with IH : forall b, val_eqb ?a b = true <-> _ |- context[val_eqb ?a _] => rewrite IH end;
    (split; [intros Heq; decompose [and] Heq; congruence
            | intros Heq; first [discriminate Heq | injection Heq; intros; subst; repeat split; congruence | reflexivity]]).
Qed.

Lemma val_eqb_refl a : val_eqb a a = true.
Proof. apply val_eqb_spec. reflexivity. Qed.
Lemma val_eqb_neq a b : val_eqb a b = false <-> a <> b.
Proof. rewrite <- val_eqb_spec. destruct (val_eqb a b); split; congruence. Qed.
Lemma val_eq_dec (a b : val) : {a = b} + {a <> b}.
Proof. destruct (val_eqb a b) eqn:E; [left; apply val_eqb_spec; exact E | right; apply val_eqb_neq; exact E]. Qed.

(* insertion *)

