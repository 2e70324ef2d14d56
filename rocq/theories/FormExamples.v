(* C103: crossing from one type to another, and types that look alike and are not. *)
From Coq Require Import Lia.
From Verif Require Import Base BaseFacts Streams StreamFacts Utf8 Types TypesFacts Traits Encode Decode Spec SpecCalls SpecForm ComputeFacts
  PortableProofs FormProofs.
Set Implicit Arguments.

Lemma C103_crossing_lemma checks t t' v bs : wt t v -> RoundTrips t v -> Appends (encode checks t v) bs (Ok tt) -> ReadsLike t t' ->
  exists v', Yields (decode t') bs v' /\ content true t' v' = content true t (norm v).
Proof.
  intros Hv Hr Ha Hl. pose proof (@wt_norm_accepts checks t v bs Hv Hr Ha) as Hy.
  pose proof (Hy [] []) as H0. rewrite app_nil_r in H0. cbn [app length Nat.add] in H0.
  pose proof (@reads_like _ _ _ _ _ Hl H0) as (v' & H & Hc). exists v'. split; [|exact Hc]. apply yields_by_run. exact H.
Qed.

Section Pairs.
  Variables a b c : ty.
  Lemma C103_reads_lemma :
    ReadsLike (TVec a) (TLinked a) /\ ReadsLike (TVec a) (TCow (TSlice a)) /\ ReadsLike TString (TCow TStr) /\ ReadsLike TCString (TCow TCStr) /\
    ReadsLike (TTuple [a; b; c]) (TStruct [a; b; c]) /\ ReadsLike (TTuple [a; TTuple [b; c]]) (TTuple [TTuple [a; b]; c]) /\
    ReadsLike (TTuple [a; TTuple [b; c]]) (TTuple [a; b; c]) /\ ReadsLike (TStruct [a]) a /\ ReadsLike (TTuple [a; TUnit; b]) (TTuple [a; b]) /\
    ReadsLike (TArray a 3) (TTuple [a; a; a]) /\ ReadsLike (TArray (TArray a 2) 2) (TArray a 4) /\ ReadsLike (TRange a) (TTuple [a; a]) /\
    ReadsLike (TRange a) (TRangeInclusive a) /\ ReadsLike (TRangeFrom a) a /\
    ReadsLike (TWrap WBox a) a /\ ReadsLike (TLock Mutex (TRefCell a)) a /\
    ReadsLike TBool (TOption TUnit) /\ ReadsLike (TOption a) (TResult TUnit a) /\
    ReadsLike (TBound a) (TEnum U8 [(None, [a]); (None, [a]); (None, [])]) /\
    ReadsLike TIpAddr (TEnum U8 [(Some 4%Z, [TIpv4]); (Some 6%Z, [TIpv6])]) /\
    ReadsLike TSockV4 (TTuple [TIpv4; TInt U16]) /\
    ReadsLike TSockAddr (TEnum U8 [(Some 4%Z, [TSockV4]); (Some 6%Z, [TSockV6])]).
  Proof.
    unfold ReadsLike. repeat split; cbn [forms flat_map map repeat concat fst snd]; rewrite ?app_nil_r; try reflexivity; rewrite ?app_assoc; reflexivity.
  Qed.
  Lemma C103_writes_lemma n : WritesLike (TSlice a) (TSizedSlice a n) /\ WritesLike (TVec a) (TSizedSlice a n) /\ WritesLike TStr (TSizedStr n) /\ WritesLike TString (TSizedStr n).
  Proof. repeat split. Qed.
End Pairs.

Section Inside.
  Variables t t' : ty.
  Variable reading : bool.
  Notation Like t t' := (forms reading t = forms reading t').
  Lemma C103_inside_lemma : Like t t' ->
    Like (TOption t) (TOption t') /\ Like (TVec t) (TVec t') /\ (forall w, Like (TWrap w t) (TWrap w t')) /\ (forall n, Like (TArray t n) (TArray t' n)) /\
    (forall e, Like (TResult t e) (TResult t' e)) /\ (forall e, Like (TResult e t) (TResult e t')) /\
    (forall pre post, Like (TTuple (pre ++ t :: post)) (TTuple (pre ++ t' :: post))) /\
    (forall pre post, Like (TStruct (pre ++ t :: post)) (TStruct (pre ++ t' :: post))) /\
    (forall r vs ws d pre post, Like (TEnum r (vs ++ (d, pre ++ t :: post) :: ws)) (TEnum r (vs ++ (d, pre ++ t' :: post) :: ws)) \/
       discriminants (map fst (vs ++ (d, pre ++ t :: post) :: ws)) = None).
  Proof.
    intros E. cbn [forms]. rewrite E. repeat split; intros; try reflexivity; try (rewrite !flat_map_app; cbn [flat_map]; rewrite E; reflexivity).
    rewrite !map_app. cbn [map fst snd]. destruct (discriminants _) as [ds|]; [left | right; reflexivity].
    rewrite !flat_map_app. cbn [flat_map]. rewrite E. reflexivity.
  Qed.
End Inside.

(* An enumeration like Option writes the same octets, but it refuses sign octets which Option accepts. A SizedSlice that is not full does not read what
   a Vec does. A set writes no length. *)
Definition option_like := TEnum U8 [(None, []); (None, [TInt U8])].
Lemma C103_limits_lemma :
  (forall checks v o, in_ity U8 v -> fst (encode checks (TOption (TInt U8)) (VSome (VInt v)) o) = fst (encode checks option_like (VEnum 1 [VInt v]) o)) /\
  (exists i, (exists i' v, decode (TOption (TInt U8)) i = (i', Ok v)) /\ (exists i' e, decode option_like i = (i', Err e))) /\
  (exists i, (exists i', decode (TVec (TInt U8)) i = (i', Ok (VSeq [VInt 7]))) /\ (exists i' p, decode (TSizedSlice (TInt U8) 2) i = (i', Panic p))) /\
  (exists bs bs', bs <> bs' /\ Appends (encode true (TVec (TInt U8)) (VSeq [VInt 7])) bs (Ok tt) /\ Appends (encode true (THashSet (TInt U8)) (VSet [VInt 7])) bs' (Ok tt)).
Proof.
  split; [|split; [|split]].
  - intros checks v o _. cbn [encode]. unfold enc_enum. cbn. unfold enc_bool, enc_u8, eseq, emap_err, eok, enc_num. cbn.
    destruct (ewrite [x01] o) as [o1 [[]|e|p]]; try reflexivity.
    destruct (ewrite (le_bytes 1 v) o1) as [o2 [[]|e|p]] eqn:E; cbn in *; rewrite ?E; reflexivity.
  - exists (Input [x02; x05] 0). split; do 2 eexists; vm_compute; reflexivity.
  - exists (Input [x01; x00; x07] 0). split; [eexists | do 2 eexists]; vm_compute; reflexivity.
  - exists [x01; x00; x07], [x07]. split; [discriminate|]. split; apply (appends_by_run true 9); vm_compute; reflexivity.
Qed.
