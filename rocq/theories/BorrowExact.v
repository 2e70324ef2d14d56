(* The exact form of C33. *)
From Coq Require Import Lia.
From Verif Require Import Base Streams Utf8 Types Traits Encode Decode Spec SpecCalls SpecDecode SpecPeak SpecWork SpecEq SpecSurvive SpecReach SpecValues SpecBorrowExact
  BaseFacts TypesFacts Utf8Facts WireFacts AcceptFacts ValueProofs DecodeProofs DeriveProofs EncodeProofs EncodeFacts EncodeCases PeakProofs SurviveProofs ReachProofs WriteProofs RoundTrip FallibleProofs.
Set Implicit Arguments.

Definition Crosses (ch : bool) (o b : ty) (mk : val -> val) : Prop :=
  forall v bs, wt b v -> Appends (encode ch b v) bs (Ok tt) -> exists i' v', decode o (input_new bs) = (i', Ok v') /\ SameValue o v' (mk v).

(* what has the same values and encodings *)
Lemma crosses_same ch o b mk : EnumsOk o -> dec_ety o <> None ->
  (forall v, wt b v -> wt o (mk v)) -> (forall w, wt o w -> exists v, w = mk v /\ wt b v) -> (forall v out, wt b v -> encode ch o (mk v) out = encode ch b v out) ->
  (Crosses ch o b mk <-> occurs a_fleeting o = false).
Proof.
  intros He Hd H1 H2 H3. rewrite <- (@C13_exact_lemma ch o He Hd). split.
  - intros H w bs Hw Ha. destruct (H2 w Hw) as (v & -> & Hv). apply (H v bs Hv). intros out. rewrite <- (H3 v out Hv). exact (Ha out).
  - intros H v bs Hv Ha. apply (H (mk v) bs (H1 v Hv)). intros out. rewrite (H3 v out Hv). exact (Ha out).
Qed.

Lemma long_refused ch t n vs bs : wt (TSlice t) (VSeq vs) -> (n < length vs)%nat -> Appends (encode ch (TSlice t) (VSeq vs)) bs (Ok tt) ->
  exists lb rest, bs = lb ++ rest /\ Refuses (decode (TSizedSlice t n)) lb (DLen (DLength n (length vs))).
Proof.
  intros Hw Hn Ha. apply appends_wire in Ha; [|exact Hw]. inversion Ha; subst.
  match goal with H : WireLen _ lb |- _ => rename H into Hl end. eexists lb, _. split; [reflexivity|].
  cbn [decode]. unfold dec_sized_slice. eapply R_bind_last; [apply P_len; exact Hl|]. rewrite Nat2Z.id.
  replace (n <? length vs)%nat with true by (symmetry; apply Nat.ltb_lt; exact Hn). apply R_error.
Qed.

Lemma fitting_iff ch o b : EnumsOk o -> dec_ety o <> None -> (forall w, wt o w -> wt b w) -> (forall v out, encode ch o v out = encode ch b v out) ->
  (forall v bs, wt b v -> Appends (encode ch b v) bs (Ok tt) -> wt o v) -> (Crosses ch o b (fun v => v) <-> occurs a_fleeting o = false).
Proof.
  intros He Hd H1 H2 H3. rewrite <- (@C13_exact_lemma ch o He Hd). split.
  - intros H w bs Hw Ha. apply (H w bs (H1 w Hw)). intros out. rewrite <- H2. exact (Ha out).
  - intros H v bs Hv Ha. apply (H v bs (H3 v bs Hv Ha)). intros out. rewrite H2. exact (Ha out).
Qed.
Lemma crosses_less ch o b : EnumsOk o -> dec_ety o <> None -> (forall w, wt o w -> wt b w) -> (forall v out, encode ch o v out = encode ch b v out) ->
  Crosses ch o b (fun v => v) -> occurs a_fleeting o = false.
Proof.
  intros He Hd H1 H2 H. apply (@C13_exact_lemma ch o He Hd).
  intros w bs Hw Ha. apply (H w bs (H1 w Hw)). intros out. rewrite <- H2. exact (Ha out).
Qed.

Lemma sized_slice_exact ch t n : EnumsOk (TSizedSlice t n) -> dec_ety (TSizedSlice t n) <> None ->
  (Crosses ch (TSizedSlice t n) (TSlice t) (fun v => v) <-> occurs a_fleeting (TSizedSlice t n) = false /\ (writable t = false \/ (65535 <= Z.of_nat n)%Z)).
Proof.
  intros He Hd.
  assert (E1 : forall w, wt (TSizedSlice t n) w -> wt (TSlice t) w) by (intros [] H; try exact H; exact (proj2 H)).
  assert (E2 : forall v out, encode ch (TSizedSlice t n) v out = encode ch (TSlice t) v out) by reflexivity.
  split.
  - intros H. split; [exact (@crosses_less ch _ _ He Hd E1 E2 H)|]. destruct (writable t) eqn:W; [|left; reflexivity]. right.
    destruct (Z_le_gt_dec 65535 (Z.of_nat n)) as [L|L]; [exact L|exfalso].
    assert (He' : EnumsOk t) by exact He. destruct (@ready_exists t He' W) as (v & R). destruct (@ready_repeat t v (Datatypes.S n) R) as (R1 & R2 & R3).
    assert (V : wt (TSlice t) (VSeq (repeat v (Datatypes.S n)))) by exact R1.
    assert (P : Representable (TSlice t) (VSeq (repeat v (Datatypes.S n)))) by (cbn [Representable]; rewrite repeat_length; split; [lia|exact R2]).
    assert (Q : has_lowest_second (VSeq (repeat v (Datatypes.S n))) = false) by exact R3.
    destruct (@C10_lemma ch _ _ V (or_intror Q)) as (bs & [[_ Ha]|[Hc _]]); [|exact (Hc P)].
    destruct (H _ _ V Ha) as (i' & v' & D & _).
    destruct (@long_refused ch t n _ bs V) as (lb & rest & -> & F); [rewrite repeat_length; lia|exact Ha|].
    specialize (F [] rest). cbn [app length] in F. unfold input_new in D. rewrite F in D. discriminate D.
  - intros [F R]. apply (@fitting_iff ch _ _ He Hd E1 E2); [|exact F]. intros v bs Hv Ha.
    pose proof (@appends_representable ch _ _ _ Hv Ha) as P. destruct v; try exact Hv. cbn [wt Representable] in *. split; [|exact Hv].
    destruct R as [R|R]; [|lia]. destruct P as [_ P]. destruct vs as [|v vs]; [cbn; lia|exfalso].
    inversion P; inversion Hv; subst. rewrite (@writable_of t v) in R; [discriminate|assumption|assumption].
Qed.

Lemma sized_str_exact ch n : Crosses ch (TSizedStr n) TStr (fun v => v) <-> occurs a_fleeting (TSizedStr n) = false /\ (65535 <= Z.of_nat n)%Z.
Proof.
  assert (He : EnumsOk (TSizedStr n)) by exact I. assert (Hd : dec_ety (TSizedStr n) <> None) by discriminate.
  assert (E1 : forall w, wt (TSizedStr n) w -> wt TStr w) by (intros [] H; try exact H; exact (proj2 H)).
  assert (E2 : forall v out, encode ch (TSizedStr n) v out = encode ch TStr v out) by reflexivity.
  split.
  - intros H. split; [reflexivity|]. destruct (Z_le_gt_dec 65535 (Z.of_nat n)) as [L|L]; [exact L|exfalso].
    assert (V : wt TStr (VStr (repeat x61 (Datatypes.S n)))).
    { exact (proj1 (ascii_text (Datatypes.S n))). }
    assert (P : Representable TStr (VStr (repeat x61 (Datatypes.S n)))) by (cbn [Representable]; rewrite repeat_length; lia).
    destruct (@C10_lemma ch _ _ V (or_intror eq_refl)) as (bs & [[_ Ha]|[Hc _]]); [|exact (Hc P)].
    destruct (H _ _ V Ha) as (i' & v' & D & _).
    pose proof (@C33_long_lemma ch n _ bs V) as F. rewrite repeat_length in F. specialize (F (le_n _) Ha [] []).
    rewrite app_nil_r in F. cbn [app length] in F. unfold input_new in D. rewrite F in D. discriminate D.
  - intros [F R]. apply (@fitting_iff ch _ _ He Hd E1 E2); [|exact F]. intros v bs Hv Ha.
    pose proof (@appends_representable ch _ _ _ Hv Ha) as P. destruct v; try exact Hv. cbn [wt Representable] in *. split; [lia|exact Hv].
Qed.

Lemma C33_exact_lemma ch o b mk : Borrows o b mk -> EnumsOk o -> dec_ety o <> None ->
  (Crosses ch o b mk <-> occurs a_fleeting o = false /\ roomy o b).
Proof.
  intros Hb He Hd.
  assert (K : forall P : Prop, (Crosses ch o b mk <-> occurs a_fleeting o = false) -> P -> (Crosses ch o b mk <-> occurs a_fleeting o = false /\ P)) by tauto.
  destruct Hb.
  1-7: apply K; [|try exact I; destruct t; exact I]; apply crosses_same; try assumption.
  all: try (intros v Hv; exact Hv); try (intros w Hw; exists w; split; [reflexivity|exact Hw]); try (intros v out Hv; reflexivity).
  1-3: intros [] Hw; try destruct Hw; eexists; split; [reflexivity|eassumption].
  - exact (@sized_slice_exact ch t n He Hd).
  - exact (sized_str_exact ch n).
Qed.

Lemma C33_values_lemma ch o b mk v bs : Borrows o b mk -> EnumsOk o -> dec_ety o <> None -> wt b v -> Appends (encode ch b v) bs (Ok tt) ->
  ((exists i' v', decode o (input_new bs) = (i', Ok v') /\ SameValue o v' (mk v)) <-> wt o (mk v) /\ Survives o (mk v)).
Proof.
  intros Hb He Hd Hv Ha.
  assert (K : wt o (mk v) -> Appends (encode ch o (mk v)) bs (Ok tt) ->
    ((exists i' v', decode o (input_new bs) = (i', Ok v') /\ SameValue o v' (mk v)) <-> wt o (mk v) /\ Survives o (mk v))).
  { intros W A. rewrite (@C104_lemma ch o (mk v) bs He Hd W A). tauto. }
  destruct Hb; try (apply K; [exact Hv|exact Ha]).
  - destruct v; try (exfalso; exact Hv). destruct (le_lt_dec (length vs) n) as [L|L]; [apply K; [split; [exact L|exact Hv]|exact Ha]|].
    split; [|intros [[W _] _]; lia]. intros (i' & v' & D & _). exfalso.
    destruct (@long_refused ch t n _ bs Hv L Ha) as (lb & rest & -> & F). specialize (F [] rest). cbn [app length] in F. unfold input_new in D. rewrite F in D. discriminate D.
  - destruct v; try (exfalso; exact Hv). match goal with H : wt TStr (VStr ?x) |- _ => rename x into s end.
    destruct (le_lt_dec (length s) n) as [L|L]; [apply K; [split; [exact L|exact Hv]|exact Ha]|].
    split; [|intros [[W _] _]; lia]. intros (i' & v' & D & _). exfalso.
    pose proof (@C33_long_lemma ch n _ bs Hv L Ha [] []) as F. rewrite app_nil_r in F. cbn [app length] in F. unfold input_new in D. rewrite F in D. discriminate D.
Qed.
