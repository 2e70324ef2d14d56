(* C77: how much room decoding reserves. *)
From Coq Require Import Lia ZifyBool ZifyNat ZifyN.
From Verif Require Import Base BaseFacts Streams StreamFacts Utf8 Types TypesFacts ValEq Traits Decode Spec SpecCalls SpecDecode
  DecodeFacts DecodeLocal DecodeProofs ItemProofs Heap SpecHeap HeapProofs.
Set Implicit Arguments.

Definition Room {A} (h : H A) : Prop := forall i i' r es, wf_in i -> h i = (i', r, es) ->
  wf_in i' /\ i_pos i + 2 * length (reserved es) <= i_pos i' /\ Forall (fun p => (Z.of_nat (snd p) <= 65535)%Z) (reserved es).
Definition Quiet {A} (rel : A -> list event) : Prop := forall a, reserved (rel a) = [].

Lemma reserved_app a b : reserved (a ++ b) = reserved a ++ reserved b.
Proof. apply flat_map_app. Qed.
Lemma reserved_drop t v : reserved (drop_value t v) = [].
Proof. unfold drop_value. induction (parts false t v) as [|[[] x] l IH]; [reflexivity | exact IH..]. Qed.
Lemma reserved_leak t v : reserved (leak_value t v) = [].
Proof. unfold leak_value. induction (parts false t v) as [|[[] x] l IH]; [reflexivity | exact IH..]. Qed.
Lemma quiet_flat {A} (g : A -> list event) l : Quiet g -> reserved (flat_map g l) = [].
Proof. intros Hg. induction l as [|x l IH]; [reflexivity|]. cbn [flat_map]. rewrite reserved_app, IH, Hg. reflexivity. Qed.
Lemma quiet_drop t : Quiet (drop_value t).
Proof. intros v. apply reserved_drop. Qed.
Lemma quiet_leak t : Quiet (leak_value t).
Proof. intros v. apply reserved_leak. Qed.
Lemma quiet_none {A} : Quiet (@no_release A).
Proof. intros a. reflexivity. Qed.
Lemma quiet_nil {A} : Quiet (fun _ : A => []).
Proof. intros a. reflexivity. Qed.

Ltac rsv := rewrite ?reserved_app, ?app_length, ?app_nil_r, ?Forall_app in *.

Lemma R_plain {A} (m : D A) : Local m -> Room (hplain m).
Proof.
  intros Hm i i' r es Hw. unfold hplain. intros E. injection E as E <-. destruct (local_forward Hm Hw E) as (_ & Hp & Hw').
  split; [exact Hw'|]. cbn. split; [lia | constructor].
Qed.
Lemma R_bind {A B} rel (h : H A) (k : A -> H B) : Quiet rel -> Room h -> (forall a, Room (k a)) -> Room (hbind rel h k).
Proof.
  intros Hq Hh Hk i i' r es Hw. unfold hbind. destruct (h i) as [[i1 r1] es1] eqn:E1. apply Hh in E1; [|exact Hw].
  destruct E1 as (Hw1 & Hp1 & Hf1). destruct r1 as [a|e|p]; [|intros E; injection E as <- <- <-; auto..].
  destruct (k a i1) as [[i2 r2] es2] eqn:E2. apply Hk in E2; [|exact Hw1]. destruct E2 as (Hw2 & Hp2 & Hf2). specialize (Hq a).
  destruct r2 as [b|e|p]; intros E; injection E as <- <- <-; rsv; rewrite ?Hq; cbn [length]; repeat split; auto; try lia.
Qed.
Lemma R_map {A B} (g : A -> B) built (h : H A) : Quiet built -> Room h -> Room (hmap g built h).
Proof.
  intros Hq Hh i i' r es Hw. unfold hmap. destruct (h i) as [[i1 r1] es1] eqn:E1. apply Hh in E1; [|exact Hw].
  destruct r1 as [a|e|p]; intros E; injection E as <- <- <-; auto. rewrite reserved_app, (Hq a), app_nil_r. exact E1.
Qed.
Lemma R_map_err {A} g (h : H A) : Room h -> Room (hmap_err g h).
Proof.
  intros Hh i i' r es Hw. unfold hmap_err. destruct (h i) as [[i1 r1] es1] eqn:E1. apply Hh in E1; [|exact Hw].
  destruct r1 as [a|e|p]; intros E; injection E as <- <- <-; auto.
Qed.
Lemma R_same {A} (g : A -> val) h : Room h -> Room (same g h).
Proof. apply R_map, quiet_nil. Qed.
Lemma R_head {A B} (m : D A) (k : A -> H B) : Local m -> (forall a, Room (k a)) -> Room (hbind no_release (hplain m) k).
Proof. intros Hm Hk. apply R_bind; [apply quiet_none | apply R_plain, Hm | exact Hk]. Qed.

(* a length is two octets, and the room is for that many items *)
Lemma R_reserve {A} t (k : nat -> H A) : (forall n, Room (k n)) ->
  Room (hbind no_release (hplain dec_usize) (fun len => hreserve t (Z.to_nat len) (k (Z.to_nat len)))).
Proof.
  intros Hk i i' r es Hw. unfold hbind, hplain, hreserve.
  destruct (dec_usize_cases Hw) as [(a & b & Hab & He)|(e1 & He)]; rewrite He.
  - assert (Hw1 : wf_in (Input (i_buf i) (i_pos i + 2))).
    { pose proof (f_equal (@length byte) Hab) as Hl. rewrite firstn_length in Hl. change (unread i) with (rest i) in Hl. rewrite rest_length in Hl.
      unfold wf_in in *. cbn [i_buf i_pos length] in *. lia. }
    destruct (k _ _) as [[i2 r2] es2] eqn:E2. apply Hk in E2; [|exact Hw1]. cbn [i_pos] in E2. destruct E2 as (Hw2 & Hp & Hf).
    pose proof (b2z_range a). pose proof (b2z_range b).
    assert (Hn : (Z.of_nat (Z.to_nat (b2z a + 256 * b2z b)) <= 65535)%Z) by lia.
    destruct r2 as [x|e|p]; intros E; injection E as <- <- <-; cbn [app]; rewrite ?app_nil_r; cbn [reserved flat_map app length];
      change (flat_map _ es2) with (reserved es2); (split; [exact Hw2|]; split; [lia|]; constructor; [exact Hn | exact Hf]).
  - intros E; injection E as <- <- <-. cbn. split; [exact Hw|]. split; [lia | constructor].
Qed.
Lemma R_items rel h n : Quiet rel -> Room h -> forall i, Room (h_items rel h n i).
Proof.
  intros Hq Hh. induction n as [|n IH]; intros i; cbn [h_items]; [apply R_plain; local|].
  apply R_bind; [exact Hq | apply R_map_err, Hh|]. intros x. apply R_map; [apply quiet_nil | apply IH].
Qed.
Lemma R_fields conv ts : Forall (fun t => Room (hdecode t)) ts -> Room (h_fields conv (map (fun t => (drop_value t, hdecode t)) ts)).
Proof.
  induction 1 as [|t ts Ht _ IH]; cbn [map h_fields]; [apply R_plain; local|].
  apply R_bind; [apply quiet_drop | apply R_map_err, Ht|]. intros x. apply R_map; [apply quiet_nil | exact IH].
Qed.
Lemma quiet_entries tk tv l : reserved (drop_entries tk tv l) = [].
Proof. apply quiet_flat. intros [x y]. rsv. rewrite !reserved_drop. reflexivity. Qed.
Lemma quiet_insert tk tv k l : reserved (insert_drops tk tv k l) = [].
Proof. induction l as [|[x y] l IH]; [reflexivity|]. cbn [insert_drops]. destruct (val_eqb k x); [|exact IH]. rsv. rewrite !reserved_drop. reflexivity. Qed.
Lemma quiet_insert_key tk k l : reserved (insert_drops_key tk k l) = [].
Proof. unfold insert_drops_key. destruct (existsb _ _); [apply reserved_drop | reflexivity]. Qed.

Lemma R_entries tk tv fk fv n : Room fk -> Room fv -> forall i acc, Room (h_entries tk tv fk fv n i acc).
Proof.
  intros Fk Fv. induction n as [|n IH]; intros i acc; cbn [h_entries]; [apply R_plain; local|].
  intros x x' r es Hw.
  destruct (hmap_err (DItem i) fk x) as [[x1 r1] es1] eqn:E1. apply (R_map_err (DItem i) Fk Hw) in E1. destruct E1 as (Hw1 & Hp1 & Hf1).
  destruct r1 as [k|e|p]; [|intros E; injection E as <- <- <-; rsv; rewrite quiet_entries; cbn [length]; repeat split; auto; lia..].
  destruct (hmap_err (DItem i) fv x1) as [[x2 r2] es2] eqn:E2. apply (R_map_err (DItem i) Fv Hw1) in E2. destruct E2 as (Hw2 & Hp2 & Hf2).
  destruct r2 as [v|e|p]; [|intros E; injection E as <- <- <-; rsv; rewrite quiet_entries, reserved_drop; cbn [length]; repeat split; auto; lia..].
  destruct (h_entries tk tv fk fv n (S i) (map_insert k v acc) x2) as [[x3 r3] es3] eqn:E3. apply IH in E3; [|exact Hw2]. destruct E3 as (Hw3 & Hp3 & Hf3).
  intros E; injection E as <- <- <-. rsv. rewrite quiet_insert. cbn [length]. repeat split; auto. lia.
Qed.
Lemma R_keys tk fk n : Room fk -> forall i acc, Room (h_keys tk fk n i acc).
Proof.
  intros Fk. induction n as [|n IH]; intros i acc; cbn [h_keys]; [apply R_plain; local|].
  intros x x' r es Hw.
  destruct (hmap_err (DItem i) fk x) as [[x1 r1] es1] eqn:E1. apply (R_map_err (DItem i) Fk Hw) in E1. destruct E1 as (Hw1 & Hp1 & Hf1).
  destruct r1 as [k|e|p]; [|intros E; injection E as <- <- <-; rsv; rewrite (quiet_flat _ (quiet_drop tk)); cbn [length]; repeat split; auto; lia..].
  destruct (h_keys tk fk n (S i) (set_insert k acc) x1) as [[x3 r3] es3] eqn:E3. apply IH in E3; [|exact Hw1]. destruct E3 as (Hw3 & Hp3 & Hf3).
  intros E; injection E as <- <- <-. rsv. rewrite quiet_insert_key. cbn [length]. repeat split; auto. lia.
Qed.
Lemma R_vec t h : Room h -> Room (h_vec t h).
Proof.
  intros Hh. apply (@R_reserve _ t (fun n => hmap VSeq (fun vs => [Made (VSeq vs)]) (h_items (leak_value t) h n 0))).
  intros n. apply R_map; [intros v; reflexivity | apply R_items; [apply quiet_leak | exact Hh]].
Qed.
Lemma R_text m : Local m -> Room (h_text m).
Proof. intros Hm. apply R_map; [intros v; reflexivity | apply R_plain, Hm]. Qed.

Lemma room_all t : Room (hdecode t) /\ Room (hdecode (owned t)).
Proof.
  induction t using ty_ind_strong; split_owned; cbn [hdecode];
    try (apply R_same; assumption); try (apply R_vec; assumption); try (apply R_text; local; fail);
    try (split; [|first [apply R_text; local | apply R_vec; assumption]]); try (apply R_plain; apply decode_local).
  - apply R_head; [local|]. intros []; [apply R_same; assumption | apply R_plain; local].
  - apply R_head; [local|]. intros []; apply R_same, R_map_err; assumption.
  - apply R_same, R_fields. eapply forall_left, H.
  - apply R_map; [apply quiet_nil | apply R_items; [apply quiet_leak | assumption]].
  - apply R_head; [local|]. intros len. apply R_map; [intros v; reflexivity | apply R_items; [apply quiet_drop | assumption]].
  - apply R_head; [local|]. intros len. destruct (n <? Z.to_nat len); [apply R_plain; local|].
    apply R_map; [intros vs; apply quiet_flat, quiet_leak | apply R_items; [apply quiet_leak | assumption]].
  - apply R_map; [intros v; destruct w; reflexivity | assumption].
  - rewrite hdecode_owned. apply R_same. assumption.
  - apply R_bind; [apply quiet_drop | assumption | intros a; apply R_same; assumption].
  - apply R_bind; [apply quiet_drop | assumption | intros a; apply R_same; assumption].
  - apply R_head; [local|]. intros d. repeat (destruct (_ =? _)%Z; [first [apply R_same, R_map_err; assumption | apply R_plain; local]|]). apply R_plain; local.
  - apply (@R_reserve _ _ (fun n => hmap VMap (fun m => [Made (VMap m)]) (h_entries _ _ _ _ n 0 []))). intros n.
    apply R_map; [intros m; reflexivity | apply R_entries; assumption].
  - apply (@R_reserve _ _ (fun n => hmap VSet (fun m => [Made (VSet m)]) (h_keys _ _ n 0 []))). intros n.
    apply R_map; [intros m; reflexivity | apply R_keys; assumption].
  - apply R_same, R_fields. eapply forall_left, H.
  - unfold h_enum. destruct (discriminants _) as [ds|]; [|apply R_plain; local].
    apply R_head; [local|]. intros d. destruct (find_disc d ds 0) as [i|]; [|apply R_plain; local].
    rewrite nth_error_map. destruct (nth_error vs i) as [x|] eqn:Hx; cbn [option_map]; [|apply R_plain; local].
    rewrite Forall_forall in H. pose proof (nth_error_In _ _ Hx) as Hi.
    apply R_same, R_fields. eapply forall_left, (H x Hi).
Qed.

Lemma C77_lemma t i i' r es : in_bounds i -> hdecode t i = (i', r, es) ->
  2 * length (reserved es) <= input_position i' - input_position i /\ Forall (fun p => (Z.of_nat (snd p) <= 65535)%Z) (reserved es).
Proof. intros Hw E. destruct (proj1 (room_all t) _ _ _ _ Hw E) as (_ & Hp & Hf). split; [unfold input_position; lia | exact Hf]. Qed.
