(* The headers of the source say what Traits.v says. *)
From Coq Require Import Lia.
From Verif Require Import Base Utf8 Types TypesFacts Traits ErrorText SourceNames SourceSyntax SourceMeaning SourceText SourceRun SourceHeaders SpecHeaders SpecSource.

Lemma int_name_eqb a b : name_eqb (int_name a) (int_name b) = ity_eqb a b.
Proof. destruct a, b; reflexivity. Qed.
Lemma bool_int a : name_eqb id_bool (int_name a) = false /\ name_eqb (int_name a) id_bool = false.
Proof. destruct a; now split. Qed.

Lemma rust_ety_eqb x y : rty_eqb (rust_ety x) (rust_ety y) = ety_eqb x y.
Proof.
  revert y. induction x; destruct y; try reflexivity.
  all: cbn -[name_eqb]; rewrite ?IHx, ?IHx1, ?IHx2, ?int_name_eqb, ?andb_true_r; reflexivity.
Qed.
Lemma rust_dety_eqb x y : rty_eqb (rust_dety x) (rust_dety y) = dety_eqb x y.
Proof.
  revert y. induction x; destruct y; try reflexivity.
  all: repeat match goal with d : option ity |- _ => destruct d end.
  all: cbn -[name_eqb]; rewrite ?IHx, ?IHx1, ?IHx2, ?int_name_eqb, ?(proj1 (bool_int _)), ?(proj2 (bool_int _)), ?andb_true_r; reflexivity.
Qed.

(* to any depth that suffices *)
Definition Eventually (P : nat -> Prop) : Prop := exists d, forall n, d <= n -> P n.
Lemma ev_and P Q : Eventually P -> Eventually Q -> Eventually (fun n => P n /\ Q n).
Proof. intros [a A] [b B]. exists (a + b). intros n L. split; [apply A | apply B]; lia. Qed.
Lemma ev_step (P Q : nat -> Prop) : Eventually P -> (forall n, P n -> Q (S n)) -> Eventually Q.
Proof. intros [a A] H. exists (S a). intros [|n] L; [lia|]. apply H, A. lia. Qed.
Lemma ev_now (Q : nat -> Prop) : (forall n, Q (S n)) -> Eventually Q.
Proof. intros H. exists 1. intros [|n] L; [lia|]. apply H. Qed.
Lemma ev_true : Eventually (fun _ => True).
Proof. now exists 0. Qed.

Lemma bounds_cons h e im st se self s p bs :
  bounds h e im st se self ((s, p) :: bs) = match bound h e im st se self s p with Some se => bounds h e im st se self bs | None => None end.
Proof. reflexivity. Qed.
Lemma ty_of_int d : ty_of [] (YPath [(int_name d, [])]) = Some (TInt d).
Proof. destruct d; reflexivity. Qed.

Ltac reckon := cbv -[holds error_of rust_ety rust_dety into_generic_ety into_generic_dety into_infallible_ety into_infallible_dety
  ety_is_error dety_is_error ety_eqb dety_eqb bounds ty_of int_name int_ety].
Ltac reckon_all := cbv -[holds error_of rust_ety rust_dety into_generic_ety into_generic_dety into_infallible_ety into_infallible_dety
  ety_is_error dety_is_error ety_eqb dety_eqb bounds ty_of int_name int_ety] in *.
Ltac step := cbn [holds error_of]; reckon.

(* the errors of the integers, which discriminants are *)
Lemma int_error d : Eventually (fun n => error_of n id_Encode (TInt d) = Some (rust_ety (int_ety d)) /\ error_of n id_Decode (TInt d) = Some (plain id_Infallible)).
Proof. apply ev_now. intros n. destruct d; split; reflexivity. Qed.
Lemma bool_error : Eventually (fun n => error_of n id_Decode TBool = Some (plain id_Infallible)).
Proof. apply ev_now. reflexivity. Qed.
Lemma int_holds d tr : In tr [id_Encode; id_Decode; id_Display; id_Debug; id_PrimitiveDiscriminant] -> Eventually (fun n => holds n (plain (int_name d)) tr [] = true).
Proof.
  intros H. apply (ev_step _ _ (int_error d)). intros n [A B]. repeat (destruct H as [<-|H]); [| | | | |destruct H].
  - step. rewrite ty_of_int, A. reflexivity.
  - step. rewrite ty_of_int, B. reflexivity.
  - now destruct d.
  - now destruct d.
  - now destruct d.
Qed.
Lemma int_error_generic d : Eventually (fun n => holds n (rust_ety (int_ety d)) id_Into [plain id_GenericEncodeError] = true).
Proof. apply ev_now. intros n. destruct d; reflexivity. Qed.
Lemma int_error_infallible d : Eventually (fun n => holds n (rust_ety (int_ety d)) id_Into [plain id_Infallible] = match int_ety d with YInfallible => true | _ => false end).
Proof. apply ev_now. intros n. destruct d; reflexivity. Qed.
Lemma infallible_holds tr a : In (tr, a) [(id_Into, [plain id_Infallible]); (id_Into, [plain id_GenericDecodeError]); (id_Display, []); (id_Error, [])] ->
  Eventually (fun n => holds n (plain id_Infallible) tr a = true).
Proof. intros H. apply ev_now. intros n. repeat (destruct H as [[= <- <-]|H]); [| | | |destruct H]; reflexivity. Qed.

Ltac settle_with b := destruct b; reckon.
Ltac settle :=
  reckon_all; step;
  repeat match goal with
  | |- context [bounds _ _ _ _ _ _ (_ :: _)] => rewrite bounds_cons; reckon
  | |- context [bounds _ _ _ _ _ _ []] => progress cbn [bounds]
  | H : holds _ _ _ _ = _ |- _ => progress (rewrite H; reckon)
  | H : error_of _ _ _ = _ |- _ => progress (rewrite H; reckon)
  | |- context [ty_of [] (YPath [(int_name _, [])])] => rewrite ty_of_int; reckon
  | H : ty_of _ _ = _ |- _ => progress (rewrite H; reckon)
  end.
(* [settle], then cases on what is left *)
Ltac cases :=
  repeat match goal with
  | |- context [match ?b with true => _ | false => _ end] =>
    lazymatch type of b with bool => lazymatch b with match _ with _ => _ end => fail | _ => destruct b; reckon; settle end end
  end; try reflexivity.

Lemma into_generic_enc_headers y : Eventually (fun n => holds n (rust_ety y) id_Into [plain id_GenericEncodeError] = into_generic_ety y).
Proof.
  induction y; cbn [rust_ety into_generic_ety]; try (apply ev_now; intros n; reflexivity).
  - apply (ev_step _ _ (ev_and _ _ IHy1 IHy2)). intros n [A B]. settle; cases.
  - apply (ev_step _ _ IHy). intros n A. settle; cases.
  - apply (ev_step _ _ (ev_and _ _ IHy (ev_and _ _ (int_error d) (ev_and _ _ (int_error_generic d) (int_holds d id_Encode ltac:(left; reflexivity)))))). intros n (A & (B & B') & C & C').
    settle; cases.
Qed.
Lemma into_infallible_enc_headers y : Eventually (fun n => holds n (rust_ety y) id_Into [plain id_Infallible] = into_infallible_ety y).
Proof.
  induction y; cbn [rust_ety into_infallible_ety]; try (apply ev_now; intros n; reflexivity).
  - apply (ev_step _ _ (ev_and _ _ IHy1 IHy2)). intros n [A B]. settle; cases.
  - apply (ev_step _ _ IHy). intros n A. settle; cases.
  - apply (ev_step _ _ (ev_and _ _ IHy (ev_and _ _ (int_error d) (ev_and _ _ (int_error_infallible d) (int_holds d id_Encode ltac:(left; reflexivity)))))). intros n (A & (B & B') & C & C').
    destruct (int_ety d); settle; cases.
Qed.
Lemma into_enc_headers x y : Eventually (fun n => holds n (rust_ety x) id_Into [rust_ety y] = into_ety x y).
Proof.
  unfold into_ety.
  destruct y; try (apply ev_now; intros n; cbn [holds]; unfold implements; cbn [name_eqb]; rewrite rust_ety_eqb; reflexivity).
  - destruct (into_infallible_enc_headers x) as [d D]. exists d. intros n L. change (rust_ety YInfallible) with (plain id_Infallible). rewrite (D n L).
    destruct x; reflexivity.
  - destruct (into_generic_enc_headers x) as [d D]. exists d. intros n L. change (rust_ety YGeneric) with (plain id_GenericEncodeError). rewrite (D n L).
    destruct x; reflexivity.
Qed.
Lemma debug_holds t : Eventually (fun n => holds n t id_Debug [] = true).
Proof. apply ev_now. reflexivity. Qed.
Lemma usize_display : Eventually (fun n => holds n (plain id_usize) id_Display [] = true).
Proof. apply ev_now. reflexivity. Qed.
Lemma int_error_error d tr : In tr [id_Display; id_Error] -> Eventually (fun n => holds n (rust_ety (int_ety d)) tr [] = true).
Proof. intros H. apply ev_now. intros n. repeat (destruct H as [<-|H]); [destruct d; reflexivity.. | destruct H]. Qed.
Lemma display_enc_headers y : Eventually (fun n => holds n (rust_ety y) id_Display [] = ety_is_error y).
Proof.
  induction y; cbn [rust_ety ety_is_error]; try (apply ev_now; intros n; reflexivity).
  - apply (ev_step _ _ (ev_and _ _ IHy1 IHy2)). intros n [A B]. settle; cases.
  - apply (ev_step _ _ (ev_and _ _ IHy usize_display)). intros n [A B]. settle; cases.
  - apply (ev_step _ _ (ev_and _ _ (ev_and _ _ IHy (ev_and _ _ (int_error d) (int_holds d id_Encode ltac:(cbn; tauto))))
      (ev_and _ _ (int_holds d id_Display ltac:(cbn; tauto)) (int_error_error d id_Display ltac:(cbn; tauto))))). intros n ((A & (B & B') & C) & C' & E).
    settle; cases.
  - apply (ev_step _ _ IHy). intros n A. settle; cases.
Qed.
Lemma error_enc_headers y : Eventually (fun n => holds n (rust_ety y) id_Error [] = ety_is_error y).
Proof.
  induction y; cbn [rust_ety ety_is_error]; try (apply ev_now; intros n; reflexivity).
  - apply (ev_step _ _ (ev_and _ _ IHy1 IHy2)). intros n [A B]. settle; cases.
  - apply (ev_step _ _ (ev_and _ _ IHy (ev_and _ _ (display_enc_headers (YItem y)) (debug_holds (rust_ety (YItem y)))))).
    cbn [rust_ety ety_is_error]. intros n (A & B & C). settle; cases.
  - apply (ev_step _ _ (ev_and _ _ (ev_and _ _ (ev_and _ _ IHy (ev_and _ _ (int_error d) (int_holds d id_Encode ltac:(cbn; tauto)))) (int_holds d id_Debug ltac:(cbn; tauto)))
      (ev_and _ _ (int_holds d id_Display ltac:(cbn; tauto)) (int_error_error d id_Error ltac:(cbn; tauto))))). intros n (((A & (B & B') & C) & F) & C' & E).
    settle; cases.
  - apply (ev_step _ _ IHy). intros n A. settle; cases.
Qed.

(* ---- the errors of decoding *)
Ltac disc d := destruct d as [d|].
Lemma disc_error d : Eventually (fun n => error_of n id_Decode (match d with Some r => TInt r | None => TBool end) = Some (plain id_Infallible)).
Proof. destruct d as [r|]; [|apply bool_error]. destruct (int_error r) as [k K]. exists k. intros n L. apply (K n L). Qed.
Definition disc_name (d : option ity) : name := match d with Some r => int_name r | None => id_bool end.
Lemma disc_type d : ty_of [] (YPath [(disc_name d, [])]) = Some (match d with Some r => TInt r | None => TBool end).
Proof. destruct d as [r|]; [apply ty_of_int | reflexivity]. Qed.
Lemma rust_dety_enum d f : rust_dety (ZEnum d f) = applied id_EnumDecodeError [plain (disc_name d); rust_dety f].
Proof. destruct d; reflexivity. Qed.
Lemma disc_holds d tr : In tr [id_Decode; id_Display; id_Debug] -> Eventually (fun n => holds n (plain (disc_name d)) tr [] = true).
Proof.
  intros H. destruct d as [r|]; [apply int_holds; revert H; cbn; tauto|].
  apply (ev_step _ _ bool_error). intros n A. repeat (destruct H as [<-|H]); [| | |destruct H]; try reflexivity.
  step. change (ty_of [] _) with (Some TBool). cbv iota. now rewrite A.
Qed.
Lemma disc_primitive d : Eventually (fun n => holds n (plain (disc_name d)) id_PrimitiveDiscriminant [] = match d with Some _ => true | None => false end).
Proof. destruct d as [r|]; [apply int_holds; cbn; tauto|]. apply ev_now. reflexivity. Qed.

Lemma into_generic_dec_headers y : Eventually (fun n => holds n (rust_dety y) id_Into [plain id_GenericDecodeError] = into_generic_dety y).
Proof.
  induction y; try (apply ev_now; intros n; reflexivity).
  - apply (ev_step _ _ (ev_and _ _ IHy1 IHy2)). intros n [A B]. cbn [rust_dety into_generic_dety]. settle; cases.
  - apply (ev_step _ _ IHy). intros n A. cbn [rust_dety into_generic_dety]. settle; cases.
  - rewrite rust_dety_enum. assert (E : into_generic_dety (ZEnum d y) = match d with Some _ => true | None => false end && into_generic_dety y) by now destruct d.
    rewrite E; clear E. generalize (disc_type d) (disc_error d) (disc_holds d id_Decode ltac:(cbn; tauto)) (disc_primitive d).
    generalize (disc_name d) (match d with Some _ => true | None => false end) (match d with Some r => TInt r | None => TBool end). intros x b t T P Q R.
    apply (ev_step _ _ (ev_and _ _ (ev_and _ _ IHy P) (ev_and _ _ (ev_and _ _ Q R) (infallible_holds id_Into [plain id_GenericDecodeError] ltac:(cbn; tauto))))).
    intros n ((A & B) & (C & F) & G). settle; cases.
Qed.
Lemma into_infallible_dec_headers y : Eventually (fun n => holds n (rust_dety y) id_Into [plain id_Infallible] = into_infallible_dety y).
Proof.
  induction y; try (apply ev_now; intros n; reflexivity).
  - apply (ev_step _ _ (ev_and _ _ IHy1 IHy2)). intros n [A B]. cbn [rust_dety into_infallible_dety]. settle; cases.
  - rewrite rust_dety_enum. cbn [into_infallible_dety].
    generalize (disc_type d) (disc_error d) (disc_holds d id_Decode ltac:(cbn; tauto)).
    generalize (disc_name d) (match d with Some r => TInt r | None => TBool end). intros x t T P Q.
    apply (ev_step _ _ (ev_and _ _ (ev_and _ _ IHy P) (ev_and _ _ Q (infallible_holds id_Into [plain id_Infallible] ltac:(cbn; tauto))))).
    intros n ((A & B) & C & G). settle; cases.
Qed.
Lemma display_dec_headers y : Eventually (fun n => holds n (rust_dety y) id_Display [] = dety_is_error y).
Proof.
  induction y; try (apply ev_now; intros n; reflexivity).
  - apply (ev_step _ _ (ev_and _ _ IHy1 IHy2)). intros n [A B]. cbn [rust_dety dety_is_error]. settle; cases.
  - apply (ev_step _ _ (ev_and _ _ IHy usize_display)). intros n [A B]. cbn [rust_dety dety_is_error]. settle; cases.
  - rewrite rust_dety_enum. cbn [dety_is_error].
    generalize (disc_type d) (disc_error d) (disc_holds d id_Decode ltac:(cbn; tauto)) (disc_holds d id_Display ltac:(cbn; tauto)).
    generalize (disc_name d) (match d with Some r => TInt r | None => TBool end). intros x t T P Q R.
    apply (ev_step _ _ (ev_and _ _ (ev_and _ _ IHy P) (ev_and _ _ (ev_and _ _ Q R) (infallible_holds id_Display [] ltac:(cbn; tauto))))).
    intros n ((A & B) & (C & F) & G). settle; cases.
Qed.
Lemma error_dec_headers y : Eventually (fun n => holds n (rust_dety y) id_Error [] = dety_is_error y).
Proof.
  induction y; try (apply ev_now; intros n; reflexivity).
  - apply (ev_step _ _ (ev_and _ _ IHy1 IHy2)). intros n [A B]. cbn [rust_dety dety_is_error]. settle; cases.
  - apply (ev_step _ _ (ev_and _ _ IHy (ev_and _ _ (display_dec_headers (ZItem y)) (debug_holds (rust_dety (ZItem y)))))).
    cbn [rust_dety dety_is_error]. intros n (A & B & C). settle; cases.
  - rewrite rust_dety_enum. cbn [dety_is_error].
    generalize (disc_type d) (disc_error d) (disc_holds d id_Decode ltac:(cbn; tauto)) (disc_holds d id_Display ltac:(cbn; tauto)) (disc_holds d id_Debug ltac:(cbn; tauto)).
    generalize (disc_name d) (match d with Some r => TInt r | None => TBool end). intros x t T P Q R S.
    apply (ev_step _ _ (ev_and _ _ (ev_and _ _ IHy P) (ev_and _ _ (ev_and _ _ Q (ev_and _ _ R S)) (infallible_holds id_Error [] ltac:(cbn; tauto))))).
    intros n ((A & B) & (C & F & F') & G). settle; cases.
Qed.
