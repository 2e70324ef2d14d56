(* The samples meet the hypotheses of the properties. *)
From Coq Require Import Lia.
From Verif Require Import Base BaseFacts Streams Utf8 Types TypesFacts Traits Encode Decode Spec SpecCalls SpecDecode SpecValues RoundTrip ComputeFacts Samples.
Local Open Scope Z_scope.

Lemma sample_enum_ok : EnumsOk sample_enum.
Proof.
  cbn. repeat split; try exact I.
  - repeat constructor; unfold in_ity; cbn; lia.
  - repeat constructor; cbn; intuition lia.
Qed.

Lemma sample_enums_ok : EnumsOk sample_ty.
Proof. cbn [sample_ty EnumsOk map fold_right]. pose proof sample_enum_ok. tauto. Qed.

Ltac wt_tac :=
  repeat first
    [ exact I | lia | discriminate
    | match goal with
      | |- _ /\ _ => split
      | |- Forall _ _ => constructor
      | |- NoDup _ => constructor
      | |- ~ _ => cbn; intuition (try lia; try discriminate)
      | |- in_ity _ _ => unfold in_ity; cbn
      | |- enum_ok _ _ => unfold enum_ok; cbn
      end
    | progress cbn ].

Lemma sample_wt : wt sample_ty sample_val.
Proof.
  cbn. wt_tac.
  - exists [104; 233]. split; [repeat constructor | reflexivity].
  - exists [97]. split; [repeat constructor | reflexivity].
Qed.

Lemma sample_appends : Appends (encode true sample_ty sample_val) sample_bytes (Ok tt).
Proof. apply (appends_by_run true 100); vm_compute; reflexivity. Qed.

Lemma sample_yields : Yields (decode sample_ty) sample_bytes sample_val.
Proof. apply yields_by_run. vm_compute. reflexivity. Qed.

Lemma sample_round_trips : RoundTrips sample_ty sample_val.
Proof. cbn. repeat constructor. Qed.
