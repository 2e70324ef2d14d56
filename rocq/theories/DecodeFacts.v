(* What every decoder does to an input: a tree of reads. *)
From Coq Require Import Lia ZifyBool ZifyNat ZifyN.
From Verif Require Import Base BaseFacts Streams StreamFacts Utf8 Types TypesFacts Traits Decode.
Set Implicit Arguments.

Lemma dread_into_read n i : dread_into n i = dread n i.
Proof.
  unfold dread_into, dread. rewrite read_into_read, repeat_length.
  destruct (input_read i n) as [i' [bs|e|p]]; reflexivity.
Qed.

(* ---- Local: the decoder reads, and chooses what to do next from what it has read *)
Inductive Local {A : Type} : D A -> Prop :=
| L_ret m r : (forall i, m i = (i, r)) -> Local m
| L_read m n k : (forall i, m i = dbind (dread n) k i) -> (forall bs, length bs = n -> Local (k bs)) -> Local m.

Lemma L_ext {A} (m m' : D A) : Local m -> (forall i, m' i = m i) -> Local m'.
Proof.
  intros H He. destruct H as [m r Hr | m n k Hr Hk].
  - apply (@L_ret _ m' r). intros i. rewrite He. apply Hr.
  - apply (@L_read _ m' n k); [intros i; rewrite He; apply Hr | exact Hk].
Qed.

Lemma L_ok {A} (a : A) : Local (dok a).
Proof. apply (@L_ret _ (dok a) (Ok a)). reflexivity. Qed.
Lemma L_error {A} e : Local (@derror A e).
Proof. apply (@L_ret _ (derror e) (Err e)). reflexivity. Qed.
Lemma L_panic {A} p : Local (@dpanic A p).
Proof. apply (@L_ret _ (dpanic p) (Panic p)). reflexivity. Qed.
Lemma L_lift {A} (r : res derr A) : Local (dlift r).
Proof. apply (@L_ret _ (dlift r) r). reflexivity. Qed.

Lemma L_bind {A B} (m : D A) (k : A -> D B) : Local m -> (forall a, Local (k a)) -> Local (dbind m k).
Proof.
  intros Hm Hk. induction Hm as [m r Hr | m n k' Hr Hk' IH].
  - destruct r as [a|e|p].
    + apply L_ext with (m := k a); [apply Hk|]. intros i. unfold dbind. rewrite Hr. reflexivity.
    + apply (@L_ret _ _ (Err e)). intros i. unfold dbind. rewrite Hr. reflexivity.
    + apply (@L_ret _ _ (Panic p)). intros i. unfold dbind. rewrite Hr. reflexivity.
  - apply (@L_read _ _ n (fun bs => dbind (k' bs) k)).
    + intros i. unfold dbind at 1. rewrite Hr. unfold dbind. destruct (dread n i) as [i' [bs|e|p]]; reflexivity.
    + exact IH.
Qed.

Lemma L_dread n : Local (dread n).
Proof.
  apply (@L_read _ _ n (fun bs => dok bs)).
  - intros i. unfold dbind. destruct (dread n i) as [i' [bs|e|p]]; reflexivity.
  - intros bs _. apply L_ok.
Qed.
Lemma L_dread_into n : Local (dread_into n).
Proof. apply L_ext with (m := dread n); [apply L_dread|]. intros i. apply dread_into_read. Qed.

Lemma L_map {A B} (f : A -> B) m : Local m -> Local (dmap f m).
Proof. intros H. apply L_bind; [exact H | intros a; apply L_ok]. Qed.

Lemma L_map_err {A} f (m : D A) : Local m -> Local (dmap_err f m).
Proof.
  intros Hm. induction Hm as [m r Hr | m n k' Hr Hk' IH].
  - destruct r as [a|e|p].
    + apply (@L_ret _ _ (Ok a)). intros i. unfold dmap_err. rewrite Hr. reflexivity.
    + apply (@L_ret _ _ (Err (f e))). intros i. unfold dmap_err. rewrite Hr. reflexivity.
    + apply (@L_ret _ _ (Panic p)). intros i. unfold dmap_err. rewrite Hr. reflexivity.
  - apply (@L_read _ _ n (fun bs => dmap_err f (k' bs))).
    + intros i. unfold dmap_err at 1. rewrite Hr. unfold dbind, dread.
      destruct (input_read i n) as [i' [bs|e|p]]; reflexivity.
    + exact IH.
Qed.

Lemma L_unsigned w : Local (dec_unsigned w).
Proof. apply L_map, L_dread_into. Qed.
Lemma L_signed w : Local (dec_signed w).
Proof. apply L_map, L_dread_into. Qed.
Lemma L_int i : Local (dec_int i).
Proof. destruct i; cbn [dec_int isigned]; first [apply L_unsigned | apply L_signed]. Qed.
Lemma L_items {A} (f : D A) n : Local f -> forall i, Local (dec_items f n i).
Proof.
  intros Hf. induction n as [|n IH]; intros i; cbn [dec_items]; [apply L_ok|].
  apply L_bind; [apply L_map_err, Hf | intros a; apply L_map, IH].
Qed.
Lemma L_fields conv fs : Forall Local fs -> Local (dec_fields conv fs).
Proof.
  induction 1 as [|f fs Hf Hfs IH]; cbn [dec_fields]; [apply L_ok|].
  apply L_bind; [apply L_map_err, Hf | intros a; apply L_map, IH].
Qed.
Lemma L_entries fk fv n : Local fk -> Local fv -> forall i acc, Local (dec_entries fk fv n i acc).
Proof.
  intros Hk Hv. induction n as [|n IH]; intros i acc; cbn [dec_entries]; [apply L_ok|].
  apply L_bind; [apply L_map_err, Hk | intros k]. apply L_bind; [apply L_map_err, Hv | intros v; apply IH].
Qed.
Lemma L_keys fk n : Local fk -> forall i acc, Local (dec_keys fk n i acc).
Proof.
  intros Hk. induction n as [|n IH]; intros i acc; cbn [dec_keys]; [apply L_ok|].
  apply L_bind; [apply L_map_err, Hk | intros k; apply IH].
Qed.

Ltac local :=
  lazymatch goal with
  | |- Local (dok _) => apply L_ok
  | |- Local (derror _) => apply L_error
  | |- Local (dpanic _) => apply L_panic
  | |- Local (dlift _) => apply L_lift
  | |- Local (dmap _ _) => apply L_map; local
  | |- Local (dmap_err _ _) => apply L_map_err; local
  | |- Local (dbind _ _) => apply L_bind; [local | intros ?; local]
  | |- Local (dread _) => apply L_dread
  | |- Local (dec_unsigned _) => apply L_unsigned
  | |- Local (dec_signed _) => apply L_signed
  | |- Local (dec_int _) => apply L_int
  | |- Local dec_u8 => apply L_unsigned
  | |- Local dec_usize => apply L_unsigned
  | |- Local dec_isize => apply L_signed
  | |- Local dec_bool => apply L_map, L_unsigned
  | |- Local dec_ip4 => apply L_map, L_unsigned
  | |- Local dec_ip6 => apply L_map, L_unsigned
  | |- Local (dec_items _ _ _) => apply L_items; local
  | |- Local (dec_entries _ _ _ _ _) => apply L_entries; local
  | |- Local (dec_keys _ _ _ _) => apply L_keys; local
  | |- Local (dec_vec _) => unfold dec_vec; local
  | |- Local dec_string => unfold dec_string; local
  | |- Local (dec_sized_str _) => unfold dec_sized_str; local
  | |- Local dec_cstring => unfold dec_cstring; local
  | |- Local (dec_sized_slice _ _) => unfold dec_sized_slice; local
  | |- Local dec_char => unfold dec_char; local
  | |- Local (dec_nonzero _) => unfold dec_nonzero; local
  | |- Local (dec_option _) => unfold dec_option; local
  | |- Local (dec_result _ _) => unfold dec_result; local
  | |- Local (dec_sock4 _) => unfold dec_sock4; local
  | |- Local (dec_sock6 _) => unfold dec_sock6; local
  | |- Local dec_ip_addr => unfold dec_ip_addr; local
  | |- Local dec_sock_addr => unfold dec_sock_addr; local
  | |- Local (dec_bound _) => unfold dec_bound; local
  | |- Local dec_duration => unfold dec_duration; local
  | |- Local dec_time => unfold dec_time; local
  | |- Local (dec_map _ _) => unfold dec_map; local
  | |- Local (dec_set _) => unfold dec_set; local
  | |- Local (if ?b then _ else _) => destruct b; local
  | |- Local (match ?x with Some _ => _ | None => _ end) => destruct x eqn:?; local
  | |- Local _ => try assumption
  end.

(* the element type of the owned form of a Cow *)
Lemma decode_local t : Local (decode t).
Proof.
  assert (H : Local (decode t) /\ match t with TSlice t => Local (decode t) | _ => True end); [|apply H].
  induction t using ty_ind_strong; (split; [|try exact I]); cbn [decode];
    repeat match goal with H : _ /\ _ |- _ => destruct H end; try (local; fail).
  - apply L_map, L_fields, forall_map. apply Forall_impl with (2 := H). intros a Ha. apply Ha.
  - apply L_map. destruct t; local.
  - apply L_map, L_fields, forall_map. apply Forall_impl with (2 := H). intros a Ha. apply Ha.
  - unfold dec_enum. destruct (discriminants _) as [ds|]; local.
    match goal with Hn : nth_error (map _ vs) _ = Some _ |- _ => apply nth_error_map_inv in Hn; rename Hn into Hn' end.
    rename Hn' into Hn. destruct Hn as (x & Hx & ->).
    rewrite Forall_forall in H. apply nth_error_In in Hx. pose proof (H _ Hx) as Hf.
    apply L_fields, forall_map. apply Forall_impl with (2 := Hf). intros b Hb. apply Hb.
Qed.
