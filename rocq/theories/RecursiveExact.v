(* The lemmas behind C93_survivors and C93_exact. *)
From Coq Require Import Lia.
From Verif Require Import Base Streams StreamFacts Types Traits Encode Decode Spec SpecCalls SpecDecode SpecEq SpecSurvive SpecReach SurviveProofs WriteProofs
  Recursive SpecRecursive RecursiveFacts RecursiveLemmas SpecRecursiveExact.
Set Implicit Arguments.

Lemma comes_back_iff defs k n v bs : comes_back defs k n v bs <-> exists i' v', decode (unroll defs n k) (input_new bs) = (i', Ok v') /\ SameValue (unroll defs n k) v' v.
Proof.
  split.
  - intros (v' & HS & H). destruct (H n (le_n n)) as [i' E]. exists i', v'. auto.
  - intros (i' & v' & E & HS). exists v'. split; [exact HS|]. intros m Hm. exists i'. rewrite (@depth_decode defs k n m); [exact E | | exact Hm].
    unfold depth_suffices. rewrite E. discriminate.
Qed.
Lemma C93_survivors_lemma checks defs k n v bs : EnumsOk (unroll defs n k) -> dec_ety (unroll defs n k) <> None -> wt (unroll defs n k) v ->
  Appends (encode checks (unroll defs n k) v) bs (Ok tt) -> (comes_back defs k n v bs <-> Survives (unroll defs n k) v).
Proof. intros H1 H2 H3 H4. rewrite comes_back_iff. apply (@C104_lemma checks _ _ _ H1 H2 H3 H4). Qed.
Lemma C93_exact_lemma checks defs k : (forall n, EnumsOk (unroll defs n k) /\ dec_ety (unroll defs n k) <> None) ->
  ((forall n v bs, wt (unroll defs n k) v -> Appends (encode checks (unroll defs n k) v) bs (Ok tt) -> comes_back defs k n v bs) <->
   forall n, occurs a_fleeting (unroll defs n k) = false).
Proof.
  intros H. split; intros HH n; destruct (H n) as [H1 H2].
  - apply (@C13_exact_lemma checks _ H1 H2). intros v bs Hv Ha. apply comes_back_iff. apply (HH n v bs Hv Ha).
  - intros v bs Hv Ha. apply comes_back_iff. apply (proj2 (@C13_exact_lemma checks _ H1 H2) (HH n) v bs Hv Ha).
Qed.

(* ---- `enum List` keeps all its values; `struct Tags` does not *)
Lemma list_fine n : EnumsOk (unroll list_defs n 0) /\ (exists d, dec_ety (unroll list_defs n 0) = Some d /\ into_generic_dety d = true) /\
  occurs a_fleeting (unroll list_defs n 0) = false.
Proof.
  induction n as [|n (H1 & (d & H2 & H2') & H3)]; [refine (conj I (conj _ eq_refl)); eexists; split; reflexivity|].
  cbn [unroll list_defs inst_def map inst fst snd]. refine (conj _ (conj _ _)).
  - cbn. repeat split; try assumption; try (repeat constructor; cbn; lia).
  - cbn. rewrite H2, H2'. eexists. split; reflexivity.
  - cbn. rewrite H3. rewrite !andb_false_r. reflexivity.
Qed.
Lemma list_decodes n : EnumsOk (unroll list_defs n 0) /\ dec_ety (unroll list_defs n 0) <> None.
Proof. destruct (list_fine n) as (H & (d & H1 & _) & _). split; [exact H | rewrite H1; discriminate]. Qed.
Lemma list_kept n : occurs a_fleeting (unroll list_defs n 0) = false.
Proof. apply list_fine. Qed.
