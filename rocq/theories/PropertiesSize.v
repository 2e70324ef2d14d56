(* C35, C36, C40: MAX_ENCODED_SIZE. [size_of] is core::mem::size_of, which the constant of Result uses; the theorems hold for every such
   function. [max_size] is `None` for types without the trait. *)
From Coq Require Import Lia.
From Verif Require Import Base Streams Utf8 Types Encode Decode Sized Spec SpecCalls SpecDecode SpecSize SpecPeak SpecValues
  SizeProofs TightProofs PeakProofs IntakeProofs DeriveProofs DeriveMore Refutations ComputeFacts Samples SampleFacts.
Local Open Scope N_scope.

(* C35: [SizeOk] excludes SizedSlice, and Result whose parts have encodings larger than their memory. *)
Theorem C35_max_bounds_encode_partial : forall size_of checks t n v o o' r, max_size size_of t = Some n -> SizeOk size_of t -> wt t v ->
  (output_position o <= output_capacity o)%nat -> encode checks t v o = (o', r) ->
  N.of_nat (output_position o' - output_position o) <= n.
Proof. exact C35_lemma. Qed.
Print Assumptions C35_max_bounds_encode_partial.

(* so with that much room encoding does not run out of it *)
Theorem C35_room_partial : forall size_of checks t n v o, max_size size_of t = Some n -> SizeOk size_of t -> wt t v ->
  (output_position o <= output_capacity o)%nat -> n <= N.of_nat (output_remaining o) ->
  forall o' e, encode checks t v o <> (o', Panic (POutput e)).
Proof. exact C35_room_lemma. Qed.
Print Assumptions C35_room_partial.

(* a SizedSlice, and a Result, that write more *)
Theorem C35_max_bounds_encode_refuted :
  (exists t v n o o', (forall size_of, max_size size_of t = Some n) /\ wt t v /\ output_position o = 0%nat /\
     encode true t v o = (o', Ok tt) /\ n < N.of_nat (output_position o')) /\
  (forall size_of, size_of (TOption (TNonZero U8)) = 1 -> size_of TUnit = 0 ->
     exists t v n o o', max_size size_of t = Some n /\ wt t v /\ output_position o = 0%nat /\
     encode true t v o = (o', Ok tt) /\ n < N.of_nat (output_position o')).
Proof. exact C35_refutation. Qed.
Print Assumptions C35_max_bounds_encode_refuted.

(* for every type that has the constant: it is right exactly if the largest encoding, worked out in SpecPeak.v, is no larger *)
Theorem C35_exact : forall size_of checks t n, max_size size_of t = Some n -> EnumsOk t -> (Bounded checks t n <-> or_zero (peak t) <= n).
Proof. exact C35_exact_lemma. Qed.
Print Assumptions C35_exact.

Example C35_exact_case : forall size_of, (* SizedSlice<u16, 4>, wrong; SizedSlice<Option<u16>, 0>, wrong; of Infallible, wrong too: the empty one has a length *)
  (max_size size_of (TSizedSlice (TInt U16) 4) = Some 8 /\ peak (TSizedSlice (TInt U16) 4) = Some 10) /\
  (max_size size_of (TSizedSlice (TOption (TInt U16)) 0) = Some 0 /\ peak (TSizedSlice (TOption (TInt U16)) 0) = Some 2) /\
  (max_size size_of (TSizedSlice TInfallible 7) = Some 0 /\ peak (TSizedSlice TInfallible 7) = Some 2) /\
  (* and right although there is a SizedSlice in it: the variant cannot be made *)
  (let t := TEnum U8 [(None, [TSizedSlice (TInt U16) 4; TInfallible]); (None, [TInt U8])] in max_size size_of t = Some 9 /\ peak t = Some 2) /\
  (size_of (TOption (TNonZero U8)) = 1 -> size_of TUnit = 0 ->
    let t := TResult (TOption (TNonZero U8)) TUnit in max_size size_of t = Some 2 /\ peak t = Some 3).
Proof. intros size_of. repeat split; cbn; rewrite ?H, ?H0; reflexivity. Qed.

Example C35_case : forall size_of, max_size size_of sized_sample = Some 23 /\ SizeOk size_of sized_sample /\
  exists bs, Appends (encode true sized_sample sized_value) bs (Ok tt) /\ length bs = 23%nat.
Proof.
  intros size_of. split; [reflexivity|]. split; [cbn; tauto|].
  eexists. split; [apply (appends_by_run true 40); vm_compute; reflexivity | reflexivity].
Qed.

(* C36: whatever the outcome, for types without SizedStr and enums without variants; on success, also with these. *)
Theorem C36_max_bounds_decode_partial : forall size_of t n i i' r, max_size size_of t = Some n -> SizeOk size_of t -> contains overreads t = false ->
  decode t i = (i', r) -> N.of_nat (input_position i' - input_position i) <= n.
Proof. exact C36_lemma. Qed.
Print Assumptions C36_max_bounds_decode_partial.

Theorem C36_max_bounds_decode_success_partial : forall size_of t n i i' v, max_size size_of t = Some n -> SizeOk size_of t -> EnumsOk t -> in_bounds i ->
  decode t i = (i', Ok v) -> N.of_nat (input_position i' - input_position i) <= n.
Proof. exact C36_success_lemma. Qed.
Print Assumptions C36_max_bounds_decode_success_partial.

Theorem C36_max_bounds_decode_refuted :
  (exists t n i i' e, (forall size_of, max_size size_of t = Some n) /\ decode t i = (i', Err e) /\ n < N.of_nat (input_position i' - input_position i)) /\
  (exists t n i i' v, (forall size_of, max_size size_of t = Some n) /\ decode t i = (i', Ok v) /\ n < N.of_nat (input_position i' - input_position i)) /\
  (exists t n i i' e, t = TEnum U8 [] /\ (forall size_of, max_size size_of t = Some n) /\ decode t i = (i', Err e) /\
     n < N.of_nat (input_position i' - input_position i)).
Proof. exact C36_refutation. Qed.
Print Assumptions C36_max_bounds_decode_refuted.

(* for every type: what successful decoding takes at most, worked out in SpecPeak.v *)
Theorem C36_largest : forall t, EnumsOk t ->
  match intake t with
  | Some n => Takes t n /\ TakesAtMost t n
  | None => forall i i' v, in_bounds i -> decode t i <> (i', Ok v)
  end.
Proof. exact C36_largest_lemma. Qed.
Print Assumptions C36_largest.

Theorem C36_exact : forall size_of t n, max_size size_of t = Some n -> EnumsOk t -> (TakesAtMost t n <-> or_zero (intake t) <= n).
Proof. exact C36_exact_lemma. Qed.
Print Assumptions C36_exact.

Example C36_exact_case : intake (TSizedSlice (TInt U16) 4) = Some 10 /\ intake (TVec (TInt U16)) = Some 131072 /\
  intake (THashMap (TInt U8) TString) = Some 4295032832 /\ intake (TCow (TSlice TBool)) = Some 65537 /\
  intake (TSizedSlice TInfallible 7) = None /\ peak (TSizedSlice TInfallible 7) = Some 2.
Proof. repeat split. Qed.

Example C36_case : forall size_of, max_size size_of (TArray sample_enum 3) = Some 18 /\ SizeOk size_of (TArray sample_enum 3) /\
  contains overreads (TArray sample_enum 3) = false.
Proof. intros size_of. split; [reflexivity|]. split; [cbn; tauto | reflexivity]. Qed.

(* C40 *)
Theorem C40_struct_max : forall size_of ts n,
  max_size size_of (TStruct ts) = Some n <-> exists ns, Forall2 (fun t m => max_size size_of t = Some m) ts ns /\ n = sum ns.
Proof. exact C40_struct_lemma. Qed.
Print Assumptions C40_struct_max.

Theorem C40_enum_max : forall size_of r vs n,
  max_size size_of (TEnum r vs) = Some n <->
  exists nss, Forall2 (fun x ns => Forall2 (fun t m => max_size size_of t = Some m) (snd x) ns) vs nss /\
              n = match vs with [] => 0 | _ => int_size r + largest (map sum nss) end.
Proof. exact C40_enum_lemma. Qed.
Print Assumptions C40_enum_max.

(* it is attained if the fields attain theirs *)
Theorem C40_struct_attained : forall checks ts ns, Forall2 (Attains checks) ts ns -> Attains checks (TStruct ts) (sum ns).
Proof. exact C40_struct_attained_lemma. Qed.
Print Assumptions C40_struct_attained.

Theorem C40_enum_attained : forall checks r vs nss, enum_ok r vs -> vs <> [] ->
  (forall k d, Assigned (map fst vs) k d -> int_fits r d) ->
  Forall2 (fun x ns => Forall2 (Attains checks) (snd x) ns) vs nss ->
  Attains checks (TEnum r vs) (int_size r + largest (map sum nss)).
Proof. exact C40_enum_attained_lemma. Qed.
Print Assumptions C40_enum_attained.

(* and it is a bound if those of the fields are *)
Theorem C40_struct_bound : forall checks ts ns, Forall2 (Bounded checks) ts ns -> Bounded checks (TStruct ts) (sum ns).
Proof. exact C40_struct_bound_lemma. Qed.
Print Assumptions C40_struct_bound.

Theorem C40_enum_bound : forall checks r vs nss, Forall2 (fun x ns => Forall2 (Bounded checks) (snd x) ns) vs nss ->
  Bounded checks (TEnum r vs) (int_size r + largest (map sum nss)).
Proof. exact C40_enum_bound_lemma. Qed.
Print Assumptions C40_enum_bound.

Example C40_case : forall size_of, max_size size_of sample_enum = Some 6 /\ Attains true sample_enum 6.
Proof.
  intros size_of. split; [reflexivity|].
  exists (VEnum 1 [VBool true; VInt (-2)]), [x46; x01; xfe; xff; xff; xff].
  split; [cbn; wt_tac|]. split; [apply (appends_by_run true 40); vm_compute; reflexivity | reflexivity].
Qed.

(* C78: [Exact] excludes types with parts that have no value, SizedSlice, SizedStr of more than 65535 octets, enums with discriminants
   that have no encoding, and Result whose parts differ in memory from their encodings. *)
Theorem C78_max_attained_partial : forall size_of checks t n, max_size size_of t = Some n -> Exact size_of t -> Attains checks t n.
Proof. exact C78_lemma. Qed.
Print Assumptions C78_max_attained_partial.

(* Result<Option<u32>, ()>; an enum of which the larger variant has no value; and texts that are too long to be encoded *)
Theorem C78_max_attained_refuted : forall size_of, size_of (TOption (TInt U32)) = 8 -> size_of TUnit = 0 ->
  (exists t n, t = TResult (TOption (TInt U32)) TUnit /\ max_size size_of t = Some n /\ (exists v, wt t v) /\ forall checks, ~ Attains checks t n) /\
  (exists t n, t = TEnum U8 [(None, []); (None, [TInt U64; TInfallible])] /\ max_size size_of t = Some n /\ (exists v, wt t v) /\
     forall checks, ~ Attains checks t n) /\
  (exists n, max_size size_of (TSizedStr n) = Some (2 + N.of_nat n) /\ forall checks, ~ Attains checks (TSizedStr n) (2 + N.of_nat n)).
Proof. exact C78_refutation. Qed.
Print Assumptions C78_max_attained_refuted.

(* for every type without hash collections, [peak] is the size of the largest encoding *)
Theorem C78_largest : forall checks t, contains is_hash t = false -> EnumsOk t ->
  match peak t with
  | Some n => Attains checks t n /\ Bounded checks t n
  | None => forall v bs, wt t v -> ~ Appends (encode checks t v) bs (Ok tt)
  end.
Proof. exact C78_largest_lemma. Qed.
Print Assumptions C78_largest.

(* so the constant is the least possible exactly if it is that *)
Theorem C78_exact : forall size_of checks t n, max_size size_of t = Some n -> EnumsOk t -> (Attains checks t n /\ Bounded checks t n <-> peak t = Some n).
Proof. exact C78_exact_lemma. Qed.
Print Assumptions C78_exact.

Example C78_largest_case : peak sized_sample = Some 23 /\ peak (TVec TString) = Some (2 + 65535 * 65537) /\ peak (TTuple [TInt U8; TInfallible]) = None /\
  peak (TEnum Usize [(Some 65535%Z, [TInt U8]); (None, [TInt U64])]) = Some 3.
Proof. repeat split. Qed.

Example C78_case : forall size_of, max_size size_of sized_sample = Some 23 /\ Exact size_of sized_sample.
Proof.
  intros size_of. split; [reflexivity|]. cbn. split; [exact I|]. split; [lia|]. split; [|tauto]. split; [|split; [discriminate|]].
  - unfold enum_ok. cbn. split; [repeat constructor; cbn; lia|]. repeat constructor; cbn; intuition discriminate.
  - split; [intros; exact I | tauto].
Qed.

(* C79: every encoding of a type of [Uniform] is as long as MAX_ENCODED_SIZE says, whatever the value, and decoding consumes as much. *)
Theorem C79_uniform_encode : forall size_of checks t n v bs, max_size size_of t = Some n -> Uniform size_of t -> wt t v ->
  Appends (encode checks t v) bs (Ok tt) -> N.of_nat (length bs) = n.
Proof. exact C79_encode_lemma. Qed.
Print Assumptions C79_uniform_encode.

Theorem C79_uniform_decode : forall size_of t n i i' v, max_size size_of t = Some n -> Uniform size_of t -> EnumsOk t -> in_bounds i ->
  decode t i = (i', Ok v) -> N.of_nat (input_position i') = N.of_nat (input_position i) + n.
Proof. exact C79_decode_lemma. Qed.
Print Assumptions C79_uniform_decode.

(* so item k of an array stands at k times that size, and of a vector two octets later *)
Theorem C79_array_item : forall size_of checks t n m vs bs k v, max_size size_of t = Some n -> Uniform size_of t -> wt (TArray t m) (VSeq vs) ->
  Appends (encode checks (TArray t m) (VSeq vs)) bs (Ok tt) -> nth_error vs k = Some v ->
  Appends (encode checks t v) (firstn (N.to_nat n) (skipn (k * N.to_nat n) bs)) (Ok tt).
Proof. exact C79_array_lemma. Qed.
Print Assumptions C79_array_item.

Theorem C79_vec_item : forall size_of checks t n vs bs k v, max_size size_of t = Some n -> Uniform size_of t -> wt (TVec t) (VSeq vs) ->
  Appends (encode checks (TVec t) (VSeq vs)) bs (Ok tt) -> nth_error vs k = Some v ->
  Appends (encode checks t v) (firstn (N.to_nat n) (skipn (2 + k * N.to_nat n) bs)) (Ok tt).
Proof. exact C79_vec_lemma. Qed.
Print Assumptions C79_vec_item.

Example C79_case : forall size_of, let t := TStruct [TEnum I8 [(Some (-3)%Z, [TInt U32]); (None, [TArray (TInt U8) 4])]; TChar; TDuration] in
  max_size size_of t = Some 21 /\ Uniform size_of t /\ EnumsOk t /\
  exists bs, Appends (encode true t (VTuple [VEnum 1 [VSeq [VInt 1; VInt 2; VInt 3; VInt 4]]; VChar 97; VDuration 5 6])) bs (Ok tt) /\ length bs = 21%nat.
Proof.
  intros size_of t. split; [reflexivity|]. split; [|split].
  - cbn. split; [|tauto]. split; [|tauto]. intros x y [<-|[<-|[]]] [<-|[<-|[]]]; reflexivity.
  - cbn. repeat split; try exact I; unfold enum_ok; cbn; repeat constructor; cbn; try lia; intuition discriminate.
  - eexists. split; [apply (appends_by_run true 40); vm_compute; reflexivity | reflexivity].
Qed.
