(* C129. *)
From Coq Require Import Lia Bool.
From Verif Require Import Base Types TypesFacts Traits SourceNames SourceSyntax SourceMeaning SourceEncode SourceDecode SourceRun SourceText SourceUnsized SourceHeaders SpecSource SpecDecode SpecHeaders
  SpecUnsized HeaderProofs HeaderTypes.

Lemma decided_one {A} (f : nat -> A) a b : Decided f a -> Decided f b -> a = b.
Proof. intros [d H] [e K]. rewrite <- (H (d + e)%nat) by lia. apply K. lia. Qed.

Lemma cow_known t : unsized t = false -> size_known src_decode_impls src_decode_unsized (TCow t) = true.
Proof. intros H. destruct t; try discriminate H; reflexivity. Qed.
Lemma cow_unknown t : unsized t = true -> size_known src_decode_impls src_decode_unsized (TCow t) = false.
Proof. intros H. destruct t; try discriminate H; reflexivity. Qed.

Lemma dec_headers t : of_rust t -> Decided (fun n => error_of n id_Decode t) (option_map rust_dety (dec_ety t)).
Proof. intros H. exact (decode_headers t H). Qed.

Lemma C129_lemma : forall t, of_rust t -> unsized t = false -> Decodable src_decode_impls src_decode_unsized t ->
  Decodable src_decode_impls src_decode_unsized (TCow t).
Proof.
  intros t Ht Hu [[e He] Hk]. split.
  - pose proof (decided_one _ _ _ He (dec_headers t Ht)) as E.
    assert (Hc : of_rust (TCow t)) by exact Ht. pose proof (dec_headers (TCow t) Hc) as D.
    assert (Ed : dec_ety (TCow t) = dec_ety t) by (destruct t; try discriminate Hu; reflexivity). rewrite Ed, <- E in D. exists e. exact D.
  - change (negb (size_known src_decode_impls src_decode_unsized (TCow t)) ||
      contains (fun u => negb (size_known src_decode_impls src_decode_unsized u)) t = false).
    rewrite (cow_known t Hu). exact Hk.
Qed.
Lemma C129_refuted_lemma : forall t, unsized t = true -> ~ Decodable src_decode_impls src_decode_unsized (TCow t).
Proof.
  intros t Hu [_ H].
  change (negb (size_known src_decode_impls src_decode_unsized (TCow t)) ||
    contains (fun u => negb (size_known src_decode_impls src_decode_unsized u)) t = false) in H.
  rewrite (cow_unknown t Hu) in H. discriminate.
Qed.

(* ---- exactly when *)
Definition cow_of_unsized (t : ty) : bool := match t with TCow b => unsized b | _ => false end.
Definition sk := size_known src_decode_impls src_decode_unsized.

Lemma has_size t : dec_ety t <> None -> unsized t = false.
Proof. destruct t; cbn; congruence. Qed.

Lemma all_same_sized l e : all_same_d l e = true -> forall ts, map dec_ety ts = l -> Forall (fun t => dec_ety t <> None) ts.
Proof.
  revert e. induction l as [|[a|] l IH]; intros e H ts E; destruct ts as [|t ts]; try discriminate E; [constructor| |discriminate H].
  injection E as E1 E2. cbn in H. apply andb_prop in H as [_ H]. constructor; [congruence|]. now apply (IH e).
Qed.
Lemma tuple_parts ts : dec_ety (TTuple ts) <> None -> Forall (fun t => dec_ety t <> None) ts.
Proof.
  cbn [dec_ety]. destruct ts as [|t ts]; [constructor|]. cbn [map]. destruct (dec_ety t) eqn:E; [|congruence]. intros H. constructor; [congruence|].
  destruct (all_same_d (map dec_ety ts) d) eqn:K; [|congruence]. now apply (all_same_sized _ _ K).
Qed.
Lemma generic_parts ts : all_generic_d (map dec_ety ts) = true -> Forall (fun t => dec_ety t <> None) ts.
Proof.
  induction ts as [|t ts IH]; [constructor|]. cbn. destruct (dec_ety t) eqn:E; [|discriminate]. intros H. apply andb_prop in H as [_ H]. constructor; [congruence|auto].
Qed.
Ltac fin H W0 := try discriminate W0;
  repeat match goal with H : Forall _ (_ :: _) |- _ => inversion H; subst; clear H end;
  unfold sk, size_known; cbn -[unsized];
  repeat match goal with H : unsized _ = false |- _ => rewrite ?H; clear H end; reflexivity.
Lemma tuple_known ts : of_rust (TTuple ts) -> Forall (fun t => unsized t = false) ts -> sk (TTuple ts) = true.
Proof.
  intros W H. unfold of_rust in W. cbn [contains unlike_rust] in W. apply orb_false_elim in W as [W _]. apply orb_false_elim in W as [W0 W].
  do 13 (destruct ts as [|? ts]; [fin H W0|]). discriminate W.
Qed.

Definition same (t : ty) : Prop := contains (fun u => negb (sk u)) t = contains cow_of_unsized t.
Lemma same_list ts : Forall same ts -> existsb (contains (fun u => negb (sk u))) ts = existsb (contains cow_of_unsized) ts.
Proof. induction 1 as [|t ts H _ IH]; [reflexivity|]. cbn [existsb]. now rewrite H, IH. Qed.
Lemma inside : forall ts, Forall (fun t => of_rust t -> dec_ety t <> None -> same t) ts -> existsb (contains unlike_rust) ts = false -> Forall (fun t => dec_ety t <> None) ts -> Forall same ts.
Proof.
  induction 1 as [|u ts H _ IH]; [constructor|]. cbn [existsb]. intros W D. apply orb_false_elim in W as [W1 W2]. inversion D; subst. constructor; auto.
Qed.
Lemma struct_known ts : sk (TStruct ts) = true. Proof. reflexivity. Qed.
Lemma enum_known r ts : sk (TEnum r ts) = true. Proof. reflexivity. Qed.

Theorem all_same_types t : of_rust t -> dec_ety t <> None -> same t.
Proof.
  unfold of_rust. induction t using ty_ind_strong; intros W D; try (now destruct D);
    try (assert (K : dec_ety t <> None) by (let E := fresh in intros E; apply D; cbn [dec_ety]; rewrite E; reflexivity);
         specialize (IHt W K); unfold same in *; cbn [contains cow_of_unsized orb]; rewrite IHt; pose proof (has_size _ K) as Hu;
         match goal with |- negb (sk ?u) || _ = _ => replace (sk u) with true; [reflexivity|destruct t; try discriminate Hu; reflexivity] end).
  all: try reflexivity.
  all: try (destruct i; reflexivity).
  - cbn [contains unlike_rust orb] in W. apply orb_false_elim in W as [W1 W2].
    cbn [dec_ety] in D. destruct (dec_ety t1) eqn:E1; [|congruence]. destruct (dec_ety t2) eqn:E2; [|congruence].
    assert (K1 : dec_ety t1 <> None) by congruence. assert (K2 : dec_ety t2 <> None) by congruence.
    unfold same in *. cbn [contains cow_of_unsized orb]. rewrite IHt1, IHt2 by (assumption || congruence).
    replace (sk (TResult t1 t2)) with true; [reflexivity|].
    apply has_size in K1, K2. clear - K1 K2. unfold sk, size_known. cbn -[unsized]. now rewrite K1, K2.
  - pose proof (tuple_parts _ D) as P. pose proof W as W'. cbn [contains] in W'. apply orb_false_elim in W' as [_ W'].
    unfold same. cbn [contains cow_of_unsized orb]. rewrite (same_list ts) by now apply inside.
    rewrite tuple_known; [reflexivity|exact W|]. eapply Forall_impl; [|exact P]. exact has_size.
  - assert (K : dec_ety t <> None) by (destruct w; cbn [dec_ety] in D; congruence).
    assert (Wt : contains unlike_rust t = false) by (cbn [contains] in W; now apply orb_false_elim in W).
    unfold same in *. cbn [contains cow_of_unsized orb]. rewrite (IHt Wt K).
    replace (sk (TWrap w t)) with true; [reflexivity|]. pose proof (has_size _ K) as Hu. clear IHt.
    destruct w; cbn [dec_ety] in D; try congruence; unfold sk, size_known; try (cbn -[unsized]; now rewrite Hu).
    destruct t; try discriminate W; try reflexivity; match goal with i : ity |- _ => destruct i; try discriminate W; reflexivity end.
  - destruct (unsized t) eqn:Hu.
    + unfold same. cbn [contains cow_of_unsized]. rewrite Hu. unfold sk at 1. now rewrite cow_unknown.
    + assert (K : dec_ety t <> None) by (destruct t; try discriminate Hu; exact D).
      unfold same in *. cbn [contains cow_of_unsized]. rewrite Hu. unfold sk at 1. rewrite cow_known by exact Hu. exact (IHt W K).
  - assert (K : dec_ety t <> None) by exact D. specialize (IHt W K). unfold same in *. cbn [contains cow_of_unsized orb]. rewrite IHt.
    replace (sk (TLock l t)) with true; [reflexivity|]. apply has_size in K. destruct l; unfold sk, size_known; cbn -[unsized]; now rewrite K.
  - cbn [contains unlike_rust orb] in W. apply orb_false_elim in W as [W1 W2].
    cbn [dec_ety] in D. destruct (dec_ety t1) eqn:E1; [|congruence]. destruct (dec_ety t2) eqn:E2; [|congruence].
    assert (K1 : dec_ety t1 <> None) by congruence. assert (K2 : dec_ety t2 <> None) by congruence.
    unfold same in *. cbn [contains cow_of_unsized orb]. rewrite IHt1, IHt2 by (assumption || congruence).
    replace (sk (THashMap t1 t2)) with true; [reflexivity|].
    apply has_size in K1, K2. clear - K1 K2. unfold sk, size_known. cbn -[unsized]. now rewrite K1, K2.
  - unfold same. cbn [contains cow_of_unsized orb]. rewrite struct_known. cbn [negb orb]. apply same_list. apply inside; [assumption|exact W|].
    apply generic_parts. cbn [dec_ety] in D. destruct (all_generic_d (map dec_ety ts)); congruence.
  - unfold same. cbn [contains cow_of_unsized orb]. rewrite enum_known. cbn [negb orb].
    cbn [dec_ety] in D. destruct (forallb (fun x => all_generic_d (map dec_ety (snd x))) vs) eqn:E; [|congruence]. clear D.
    cbn [contains unlike_rust orb] in W.
    induction vs as [|v vs IH]; [reflexivity|]. cbn [forallb existsb] in *. apply andb_prop in E as [E1 E2]. apply orb_false_elim in W as [W1 W2].
    inversion H; subst. rewrite (same_list (snd v)); [now rewrite IH|]. apply inside; [assumption|exact W1|]. now apply generic_parts.
Qed.

Lemma C129_exact_lemma : forall t, of_rust t ->
  (Decodable src_decode_impls src_decode_unsized t <->
   (exists e, Decided (fun n => error_of n id_Decode t) (Some e)) /\ contains (fun u => match u with TCow b => unsized b | _ => false end) t = false).
Proof.
  intros t W. split; intros [[e He] H]; (split; [now exists e|]);
    (assert (D : dec_ety t <> None) by (intros D; pose proof (dec_headers t W) as K; rewrite D in K; pose proof (decided_one _ _ _ He K); discriminate));
    pose proof (all_same_types t W D) as S; unfold same, sk in S; [rewrite S in H|rewrite S]; exact H.
Qed.

(* ---- Encode *)
Notation ek := (size_known src_encode_impls src_encode_unsized).
Ltac fine := unfold size_known; cbn -[unsized];
  repeat match goal with |- context [unsized ?t] => destruct (unsized t) end; reflexivity.
Lemma C129_encode_lemma t : of_rust t -> ek t = negb (existsb unsized (by_value t)).
Proof.
  intros W. destruct t; try reflexivity; try (match goal with i : ity |- _ => destruct i; reflexivity end); try fine.
  - unfold of_rust in W. cbn [contains unlike_rust] in W. apply orb_false_elim in W as [W _]. apply orb_false_elim in W as [W0 W].
    do 13 (destruct ts as [|? ts]; [try discriminate W0; unfold size_known; cbn -[unsized]; rewrite ?orb_false_r, ?negb_orb, ?andb_true_r; first [reflexivity|fine]|]). discriminate W.
  - destruct w; try fine.
    destruct t; try discriminate W; try reflexivity; match goal with i : ity |- _ => destruct i; try discriminate W; reflexivity end.
  - destruct l; fine.
Qed.
