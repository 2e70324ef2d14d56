(* Which types implement SizedEncode, and the errors of Rust. *)
From Coq Require Import Lia.
From Verif Require Import Base Utf8 Types TypesFacts Traits Sized SizedTypes SpecDecode SourceNames SourceSyntax SourceHeaders SpecHeaders HeaderProofs HeaderTypes SizeHeaders AvailProofs ErrorProofs.

Lemma rust_ety_inj x y : rust_ety x = rust_ety y -> x = y.
Proof. intros H. apply ety_eqb_eq. rewrite <- rust_ety_eqb, H, rust_ety_eqb. apply ety_eqb_refl. Qed.
Lemma rust_dety_inj x y : rust_dety x = rust_dety y -> x = y.
Proof. intros H. apply dety_eqb_eq. rewrite <- rust_dety_eqb, H, rust_dety_eqb. apply dety_eqb_refl. Qed.

Lemma sum_some size_of ts : Forall (fun t => sized t = true -> max_size size_of t <> None) ts -> forallb sized ts = true -> sum_opt (map (max_size size_of) ts) <> None.
Proof.
  intros H. induction H as [|t ts T _ IH]; [discriminate|]. cbn [forallb map sum_opt]. intros S. apply andb_prop in S. destruct S as [S S'].
  specialize (T S). specialize (IH S'). destruct (max_size size_of t); [|easy]. destruct (sum_opt _); [discriminate|easy].
Qed.
Lemma sized_constant size_of t : sized t = true -> max_size size_of t <> None.
Proof.
  induction t using ty_ind_strong; cbn [sized max_size]; intros S; try discriminate.
  all: try (now apply IHt).
  all: try (specialize (IHt S); now destruct (max_size size_of t)).
  - apply andb_prop in S. destruct S as [S _]. apply andb_prop in S. destruct S as [A B]. specialize (IHt1 A). specialize (IHt2 B). now destruct (max_size size_of t1), (max_size size_of t2).
  - apply andb_prop in S. destruct S as [S _]. now apply sum_some.
  - apply andb_prop in S. destruct S as [S _]. now apply sum_some.
  - apply andb_prop in S. destruct S as [S _]. clear - H S. 
    assert (E : Forall (fun o : option N => o <> None) (map (fun x => option_map (N.add (int_size r)) (sum_opt (map (max_size size_of) (snd x)))) vs)).
    { induction H as [|v vs V _ IH]; [constructor|]. cbn [forallb map] in *. apply andb_prop in S. destruct S as [S S']. constructor; [|now apply IH].
      pose proof (sum_some _ _ V S). now destruct (sum_opt _). }
    revert E. generalize (map (fun x => option_map (N.add (int_size r)) (sum_opt (map (max_size size_of) (snd x)))) vs). intros l E.
    induction E as [|o l O _ IH]; [discriminate|]. cbn [max_opt]. destruct o; [|easy]. destruct (max_opt l); [discriminate|easy].
Qed.

Lemma sized_unmixed t : sized t = true -> contains mixed_result t = false.
Proof.
  induction t using ty_ind_strong; cbn [sized contains mixed_result orb]; intros S; try reflexivity; try discriminate.
  all: try (now apply IHt).
  - apply andb_prop in S. destruct S as [S E]. apply andb_prop in S. destruct S as [A B]. rewrite (IHt1 A), (IHt2 B).
    destruct (enc_ety t1); [|reflexivity]. destruct (enc_ety t2); [|reflexivity]. now rewrite E.
  - apply andb_prop in S. destruct S as [S _]. induction H as [|t ts T _ IH]; [reflexivity|]. cbn [forallb existsb] in *. apply andb_prop in S. now rewrite (T (proj1 S)), (IH (proj2 S)).
  - apply andb_prop in S. destruct S as [S _]. induction H as [|t ts T _ IH]; [reflexivity|]. cbn [forallb existsb] in *. apply andb_prop in S. now rewrite (T (proj1 S)), (IH (proj2 S)).
  - apply andb_prop in S. destruct S as [S _]. induction H as [|v vs V _ IH]; [reflexivity|]. cbn [forallb existsb] in *. apply andb_prop in S. rewrite (IH (proj2 S)), orb_false_r. destruct S as [S _].
    induction V as [|t ts T _ IH']; [reflexivity|]. cbn [forallb existsb] in *. apply andb_prop in S. now rewrite (T (proj1 S)), (IH' (proj2 S)).
Qed.

Lemma same_some ts e : all_same (map enc_ety ts) e = true -> Forall (fun t => enc_ety t <> None) ts.
Proof.
  induction ts as [|t ts IH]; [constructor|]. cbn [map all_same]. destruct (enc_ety t) eqn:E; [|discriminate]. intros H. apply andb_prop in H. constructor; [congruence|now apply IH].
Qed.
Lemma generic_some ts : all_generic (map enc_ety ts) = true -> Forall (fun t => enc_ety t <> None) ts.
Proof.
  induction ts as [|t ts IH]; [constructor|]. cbn [map all_generic]. destruct (enc_ety t) eqn:E; [|discriminate]. intros H. apply andb_prop in H. constructor; [congruence|now apply IH].
Qed.
Lemma sum_parts size_of ts : sum_opt (map (max_size size_of) ts) <> None -> Forall (fun t => max_size size_of t <> None) ts.
Proof.
  induction ts as [|t ts IH]; [constructor|]. cbn [map sum_opt]. destruct (max_size size_of t) eqn:E; [|easy]. intros H. constructor; [congruence|]. apply IH. now destruct (sum_opt _).
Qed.
Lemma all_sized size_of ts : Forall (fun t => enc_ety t <> None -> max_size size_of t <> None -> contains mixed_result t = false -> sized t = true) ts ->
  Forall (fun t => enc_ety t <> None) ts -> sum_opt (map (max_size size_of) ts) <> None -> existsb (contains mixed_result) ts = false -> forallb sized ts = true.
Proof.
  intros H E M X. apply sum_parts in M. induction H as [|t ts T _ IH]; [reflexivity|]. cbn [forallb existsb] in *. inversion_clear E. inversion_clear M. apply orb_false_elim in X.
  rewrite T by tauto. now apply IH.
Qed.
Lemma unmixed_sized size_of t : enc_ety t <> None -> max_size size_of t <> None -> contains mixed_result t = false -> sized t = true.
Proof.
  induction t using ty_ind_strong; intros E M X; try reflexivity.
  all: try (now destruct M).
  all: try (cbn [enc_ety max_size contains mixed_result orb sized] in *; apply IHt; (assumption || (now destruct (enc_ety t)) || (now destruct (max_size size_of t)))).
  - cbn [enc_ety max_size contains mixed_result sized] in *. destruct (enc_ety t1) as [x|]; [|easy]. destruct (enc_ety t2) as [y|]; [|easy].
    apply orb_false_elim in X. destruct X as [Y X]. apply orb_false_elim in X. destruct X as [A B]. apply negb_false_iff in Y.
    destruct (max_size size_of t1); [|easy]. destruct (max_size size_of t2); [|easy]. rewrite IHt1, IHt2 by easy. exact Y.
  - assert (F : Forall (fun t => enc_ety t <> None) ts).
    { cbn [enc_ety] in E. destruct ts as [|t ts]; [constructor|]. cbn [map] in E. destruct (enc_ety t) as [e|] eqn:Et; [|easy]. destruct (all_same _ e) eqn:S; [|easy]. constructor; [congruence|]. exact (same_some _ _ S). }
    cbn [max_size contains mixed_result orb sized] in *. rewrite (all_sized _ _ H F M X). now destruct (enc_ety (TTuple ts)).
  - assert (F : Forall (fun t => enc_ety t <> None) ts). { cbn [enc_ety] in E. destruct (all_generic _) eqn:G; [|easy]. now apply generic_some. }
    cbn [max_size contains mixed_result orb sized] in *. rewrite (all_sized _ _ H F M X). now destruct (enc_ety (TStruct ts)).
  - assert (F : forallb (fun v : option Z * list ty => all_generic (map enc_ety (snd v))) vs = true). { cbn [enc_ety] in E. now destruct (forallb _ vs). }
    cbn [sized]. destruct (enc_ety (TEnum r vs)); [|easy]. rewrite andb_true_r. clear E. cbn [max_size contains mixed_result orb] in *.
    induction H as [|v vs V _ IH]; [reflexivity|]. cbn [forallb existsb map max_opt] in *. apply andb_prop in F. apply orb_false_elim in X.
    destruct (sum_opt _) eqn:S in M; [|easy]. cbn [option_map] in M. rewrite (all_sized size_of _ V (generic_some _ (proj1 F))) by (congruence || tauto). apply IH; [|tauto|tauto]. now destruct (max_opt _).
Qed.
Lemma C117_exact size_of t : enc_ety t <> None -> max_size size_of t <> None -> (sized t = true <-> contains mixed_result t = false).
Proof. intros E M. split; [apply sized_unmixed | now apply unmixed_sized with size_of]. Qed.
