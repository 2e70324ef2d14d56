(* C103: types of the same form are interchangeable. *)
From Coq Require Import Lia.
From Verif Require Import Base Streams Types Encode Decode Spec SpecCalls SpecForm ComputeFacts FormProofs FormExamples.
Set Implicit Arguments.

(* C103: values of the same content, of types that are written in the same form, have the same effect on an output, and the same outcome; only an error
   may be presented differently. *)
Theorem C103_written_alike : forall checks t t' v v', WritesLike t t' -> wt t v -> wt t' v' -> content false t v = content false t' v' -> forall o,
  fst (encode checks t' v' o) = fst (encode checks t v o) /\
  match snd (encode checks t v o) with
  | Ok _ => snd (encode checks t' v' o) = Ok tt
  | Err e => exists e', snd (encode checks t' v' o) = Err e'
  | Panic p => snd (encode checks t' v' o) = Panic p
  end.
Proof. exact writes_like. Qed.
Print Assumptions C103_written_alike.

(* types that are read in the same form accept the same octets, as the same content, and refuse the same octets *)
Theorem C103_read_alike : forall t t' i i' r, ReadsLike t t' -> decode t i = (i', r) ->
  match r with
  | Ok v => exists v', decode t' i = (i', Ok v') /\ content true t' v' = content true t v
  | Err _ => exists e, decode t' i = (i', Err e)
  | Panic p => decode t' i = (i', Panic p)
  end.
Proof. exact reads_like. Qed.
Print Assumptions C103_read_alike.

(* what was written as a value of one type is read as the value of the other type with the same content *)
Theorem C103_crossing : forall checks t t' v bs, wt t v -> RoundTrips t v -> Appends (encode checks t v) bs (Ok tt) -> ReadsLike t t' ->
  exists v', Yields (decode t') bs v' /\ content true t' v' = content true t (norm v).
Proof. exact C103_crossing_lemma. Qed.
Print Assumptions C103_crossing.

(* the content says all about a value that its encoding does *)
Theorem C103_content : forall reading t v w, wt t v -> wt t w -> content reading t (norm v) = content reading t (norm w) -> norm v = norm w.
Proof. exact faithful. Qed.
Print Assumptions C103_content.

(* which types are alike: regrouping, naming and flattening of fields, pointers and cells, lists, and the library's own enumerations; *)
Theorem C103_alike : forall a b c,
  ReadsLike (TVec a) (TLinked a) /\ ReadsLike (TVec a) (TCow (TSlice a)) /\ ReadsLike TString (TCow TStr) /\ ReadsLike TCString (TCow TCStr) /\
  ReadsLike (TTuple [a; b; c]) (TStruct [a; b; c]) /\ ReadsLike (TTuple [a; TTuple [b; c]]) (TTuple [TTuple [a; b]; c]) /\
  ReadsLike (TTuple [a; TTuple [b; c]]) (TTuple [a; b; c]) /\ ReadsLike (TStruct [a]) a /\ ReadsLike (TTuple [a; TUnit; b]) (TTuple [a; b]) /\
  ReadsLike (TArray a 3) (TTuple [a; a; a]) /\ ReadsLike (TArray (TArray a 2) 2) (TArray a 4) /\ ReadsLike (TRange a) (TTuple [a; a]) /\
  ReadsLike (TRange a) (TRangeInclusive a) /\ ReadsLike (TRangeFrom a) a /\
  ReadsLike (TWrap WBox a) a /\ ReadsLike (TLock Mutex (TRefCell a)) a /\
  ReadsLike TBool (TOption TUnit) /\ ReadsLike (TOption a) (TResult TUnit a) /\
  ReadsLike (TBound a) (TEnum U8 [(None, [a]); (None, [a]); (None, [])]) /\
  ReadsLike TIpAddr (TEnum U8 [(Some 4%Z, [TIpv4]); (Some 6%Z, [TIpv6])]) /\
  ReadsLike TSockV4 (TTuple [TIpv4; TInt U16]) /\
  ReadsLike TSockAddr (TEnum U8 [(Some 4%Z, [TSockV4]); (Some 6%Z, [TSockV6])]).
Proof. exact C103_reads_lemma. Qed.
Print Assumptions C103_alike.

(* for writing also the containers of fixed capacity; *)
Theorem C103_alike_writing : forall a n,
  WritesLike (TSlice a) (TSizedSlice a n) /\ WritesLike (TVec a) (TSizedSlice a n) /\ WritesLike TStr (TSizedStr n) /\ WritesLike TString (TSizedStr n).
Proof. exact C103_writes_lemma. Qed.
Print Assumptions C103_alike_writing.

(* and whatever has parts that are alike *)
Theorem C103_alike_inside : forall t t' reading, forms reading t = forms reading t' ->
  let Like a b := forms reading a = forms reading b in
  Like (TOption t) (TOption t') /\ Like (TVec t) (TVec t') /\ (forall w, Like (TWrap w t) (TWrap w t')) /\ (forall n, Like (TArray t n) (TArray t' n)) /\
  (forall e, Like (TResult t e) (TResult t' e)) /\ (forall e, Like (TResult e t) (TResult e t')) /\
  (forall pre post, Like (TTuple (pre ++ t :: post)) (TTuple (pre ++ t' :: post))) /\
  (forall pre post, Like (TStruct (pre ++ t :: post)) (TStruct (pre ++ t' :: post))) /\
  (forall r vs ws d pre post, Like (TEnum r (vs ++ (d, pre ++ t :: post) :: ws)) (TEnum r (vs ++ (d, pre ++ t' :: post) :: ws)) \/
     discriminants (map fst (vs ++ (d, pre ++ t :: post) :: ws)) = None).
Proof. exact C103_inside_lemma. Qed.
Print Assumptions C103_alike_inside.

(* types that one might take to be alike, and that are not *)
Theorem C103_limits :
  (forall checks v o, in_ity U8 v -> fst (encode checks (TOption (TInt U8)) (VSome (VInt v)) o) = fst (encode checks option_like (VEnum 1 [VInt v]) o)) /\
  (exists i, (exists i' v, decode (TOption (TInt U8)) i = (i', Ok v)) /\ (exists i' e, decode option_like i = (i', Err e))) /\
  (exists i, (exists i', decode (TVec (TInt U8)) i = (i', Ok (VSeq [VInt 7]))) /\ (exists i' p, decode (TSizedSlice (TInt U8) 2) i = (i', Panic p))) /\
  (exists bs bs', bs <> bs' /\ Appends (encode true (TVec (TInt U8)) (VSeq [VInt 7])) bs (Ok tt) /\ Appends (encode true (THashSet (TInt U8)) (VSet [VInt 7])) bs' (Ok tt)).
Proof. exact C103_limits_lemma. Qed.
Print Assumptions C103_limits.

(* a message with a position, a list of names and an optional range; later the position becomes two fields, the list a LinkedList of borrowed text, and the
   range a pair in a Box *)
Definition old_message := TStruct [TStruct [TInt I16; TInt I16]; TVec TString; TOption (TRange (TInt U8))].
Definition new_message := TStruct [TInt I16; TInt I16; TLinked (TCow TStr); TOption (TWrap WBox (TTuple [TInt U8; TInt U8]))].
Definition old_value := VTuple [VTuple [VInt (-2); VInt 3]; VSeq [VStr [x68; x69]; VStr []]; VSome (VRange (VInt 4) (VInt 9))].
Definition new_value := VTuple [VInt (-2); VInt 3; VSeq [VCow false (VStr [x68; x69]); VCow true (VStr [])]; VSome (VWrap (VTuple [VInt 4; VInt 9]))].
Definition message_bytes := [xfe; xff; x03; x00; x02; x00; x02; x00; x68; x69; x00; x00; x01; x04; x09].
Example C103_case : WritesLike old_message new_message /\ ReadsLike old_message new_message /\ wt old_message old_value /\ wt new_message new_value /\
  content false old_message old_value = content false new_message new_value /\ RoundTrips old_message old_value /\
  Appends (encode true old_message old_value) message_bytes (Ok tt) /\ Yields (decode new_message) message_bytes (norm new_value).
Proof.
  assert (H : valid_utf8 [x68; x69]) by (exists [104; 105]%Z; split; [repeat constructor | reflexivity]).
  assert (H0 : valid_utf8 []) by (exists []; split; [constructor | reflexivity]).
  split; [reflexivity|]. split; [reflexivity|].
  split; [cbn; unfold in_ity; cbn; repeat split; try lia; repeat constructor; assumption|].
  split; [cbn; unfold in_ity; cbn; repeat split; try lia; repeat constructor; assumption|].
  split; [reflexivity|]. split; [cbn; repeat split; repeat constructor|].
  split; [apply (appends_by_run true 40); vm_compute; reflexivity | apply yields_by_run; vm_compute; reflexivity].
Qed.
