(* C15, C16, C18-C28, C31, C34: decoding. *)
From Coq Require Import Lia.
From Verif Require Import Base Streams Utf8 Types Traits Encode Decode Spec SpecCalls SpecDecode SpecValues
  SpecAlike DecodeProofs AlikeProofs PanicProofs Refutations ComputeFacts Samples SampleFacts.

(* C15: a call that returns depends only on the bytes it consumed. *)
Theorem C15_decode_locality : forall t i i' r, in_bounds i -> decode t i = (i', r) -> (forall p, r <> Panic p) ->
  forall j, in_bounds j ->
  firstn (input_position i' - input_position i) (unread j) = firstn (input_position i' - input_position i) (unread i) ->
  decode t j = (Input (i_buf j) (input_position j + (input_position i' - input_position i)), r).
Proof. exact C15_lemma. Qed.
Print Assumptions C15_decode_locality.

Example C15_case :
  decode sample_ty (Input (xaa :: sample_bytes ++ [xbb]) 1) = (Input (xaa :: sample_bytes ++ [xbb]) 30, Ok sample_val) /\
  decode (TVec (TNonZero U8)) (Input [x02; x00; x00; x05] 0) = (Input [x02; x00; x00; x05] 3, Err (DItem 0 DNonZero)).
Proof. vm_compute. split; reflexivity. Qed.

(* C16: cut short, the same bytes make it panic on a read. *)
Theorem C16_truncation : forall t i i' r, in_bounds i -> decode t i = (i', r) -> (forall p, r <> Panic p) ->
  forall n, n < input_position i' - input_position i ->
  forall j, in_bounds j -> unread j = firstn n (unread i) ->
  exists j' e, decode t j = (j', Panic (PInput e)).
Proof. exact C16_lemma. Qed.
Print Assumptions C16_truncation.

Example C16_case :
  decode sample_ty (input_new (firstn 28 sample_bytes)) = (Input (firstn 28 sample_bytes) 25, Panic (PInput (StreamError 28 25 4))).
Proof. vm_compute. reflexivity. Qed.

(* C18: for types without `char`. *)
Theorem C18_decoded_values_valid_partial : forall t i i' v, EnumsOk t -> char_free t = true -> in_bounds i ->
  decode t i = (i', Ok v) -> wt t v.
Proof. exact C18_lemma. Qed.
Print Assumptions C18_decoded_values_valid_partial.

Theorem C18_decoded_values_valid_refuted : exists i i' v, in_bounds i /\ decode TChar i = (i', Ok v) /\ ~ wt TChar v.
Proof. exact C18_refutation. Qed.
Print Assumptions C18_decoded_values_valid_refuted.

Example C18_case : EnumsOk sample_ty /\ char_free sample_ty = true /\ in_bounds (input_new sample_bytes) /\
  decode sample_ty (input_new sample_bytes) = (Input sample_bytes 29, Ok sample_val).
Proof. split; [exact sample_enums_ok|]. split; [reflexivity|]. split; [cbn; unfold in_bounds; cbn; lia | vm_compute; reflexivity]. Qed.

(* C19: also the surrogates from DE00 to DFFF are accepted; everything else is as claimed. *)
Theorem C19_char_partial : forall cp bs, (0 <= cp < 2 ^ 32)%Z -> le_repr 4 cp bs ->
  (is_scalar cp = true \/ (56832 <= cp <= 57343)%Z -> Yields (decode TChar) bs (VChar cp)) /\
  (is_scalar cp = false /\ ~ (56832 <= cp <= 57343)%Z -> Refuses (decode TChar) bs (DChar cp)).
Proof. exact C19_lemma. Qed.
Print Assumptions C19_char_partial.

Theorem C19_char_refuted : exists cp bs, is_scalar cp = false /\ le_repr 4 cp bs /\ Yields (decode TChar) bs (VChar cp).
Proof. exact C19_refutation. Qed.
Print Assumptions C19_char_refuted.

Example C19_case : is_scalar 8364 = true /\ Yields (decode TChar) [xac; x20; x00; x00] (VChar 8364) /\
  is_scalar 55296 = false /\ Refuses (decode TChar) [x00; xd8; x00; x00] (DChar 55296).
Proof.
  split; [reflexivity|]. split; [apply yields_by_run; vm_compute; reflexivity|].
  split; [reflexivity | apply refuses_by_run; vm_compute; reflexivity].
Qed.

(* C20: for types without bool, Option, Result, Duration, SizedSlice, HashMap and HashSet inside. *)
Theorem C20_canonical_partial : forall checks t bs v, EnumsOk t -> strict t = true -> wt t v ->
  checks = false \/ has_lowest_second v = false ->
  Yields (decode t) bs v -> Appends (encode checks t v) bs (Ok tt).
Proof. exact C20_lemma. Qed.
Print Assumptions C20_canonical_partial.

(* What is left to encodings of the other types, those with SizedSlice, HashMap or HashSet apart: signs other than 0 and 1, and times with
   more than a second of nanoseconds. So all encodings of a value that are accepted have one length; *)
Theorem C20_alike_partial : forall t bs bs' v, EnumsOk t -> contains drops_items t = false ->
  Yields (decode t) bs v -> Yields (decode t) bs' v -> Alike bs bs' /\ length bs = length bs'.
Proof. exact C20_alike_lemma. Qed.
Print Assumptions C20_alike_partial.

(* and encoding what was decoded gives one of them. *)
Theorem C20_normal_partial : forall checks t bs v, EnumsOk t -> contains drops_items t = false -> wt t v ->
  checks = false \/ has_lowest_second v = false ->
  Yields (decode t) bs v -> exists bs', Appends (encode checks t v) bs' (Ok tt) /\ Yields (decode t) bs' v /\ Alike bs bs'.
Proof. exact C20_normal_lemma. Qed.
Print Assumptions C20_normal_partial.

Theorem C20_canonical_refuted :
  (exists bs v, wt TBool v /\ Yields (decode TBool) bs v /\ ~ Appends (encode true TBool v) bs (Ok tt)) /\
  (exists bs v, wt TDuration v /\ Yields (decode TDuration) bs v /\ ~ Appends (encode true TDuration v) bs (Ok tt)).
Proof. exact C20_refutation. Qed.
Print Assumptions C20_canonical_refuted.

Example C20_case : EnumsOk (TVec (TStruct [TString; TNonZero U16])) /\ strict (TVec (TStruct [TString; TNonZero U16])) = true /\
  Yields (decode (TVec (TStruct [TString; TNonZero U16]))) [x01; x00; x01; x00; x61; x05; x00] (VSeq [VTuple [VStr [x61]; VInt 5]]) /\
  contains drops_items (TOption (TTuple [TBool; TDuration])) = false /\
  (let t := TOption (TTuple [TBool; TDuration]) in let v := VSome (VTuple [VBool true; VDuration 2 1]) in
   Yields (decode t) [x07; xff; x01; x00; x00; x00; x00; x00; x00; x00; x01; xca; x9a; x3b] v /\
   Yields (decode t) [x01; x01; x02; x00; x00; x00; x00; x00; x00; x00; x01; x00; x00; x00] v).
Proof. split; [cbn; tauto|]. repeat split; try (apply yields_by_run; vm_compute; reflexivity). Qed.

(* C21: a panic is a read beyond the input, an overflowing Duration, or comes from the type Infallible. *)
Theorem C21_decode_panics : forall t i i' p, EnumsOk t -> dec_ety t <> None -> in_bounds i -> decode t i = (i', Panic p) ->
  (exists e, p = PInput e /\ se_capacity e = input_capacity i /\ se_capacity e < se_position e + se_count e) \/
  (p = PDuration /\ contains is_duration t = true) \/ (p = PInfallible /\ contains is_infallible t = true).
Proof. exact C21_lemma. Qed.
Print Assumptions C21_decode_panics.

Example C21_case : dec_ety sample_ty <> None /\
  snd (decode (TVec (TInt U8)) (input_new [xff; xff; x01])) = Panic (PInput (StreamError 3 3 1)) /\
  snd (decode TDuration (input_new (repeat xff 12))) = Panic PDuration.
Proof. split; [discriminate|]. vm_compute. split; reflexivity. Qed.

(* C22 *)
Theorem C22_decode_moves_forward : forall t i i' r, in_bounds i -> decode t i = (i', r) ->
  i_buf i' = i_buf i /\ input_position i <= input_position i' <= input_capacity i.
Proof. exact C22_lemma. Qed.
Print Assumptions C22_decode_moves_forward.

Example C22_case : in_bounds (Input (xaa :: sample_bytes) 1) /\
  decode sample_ty (Input (xaa :: sample_bytes) 1) = (Input (xaa :: sample_bytes) 30, Ok sample_val).
Proof. split; [unfold in_bounds; cbn; lia | vm_compute; reflexivity]. Qed.

(* C23 *)
Theorem C23_sign_octet : forall i b r, unread i = b :: r -> let i1 := Input (i_buf i) (i_pos i + 1) in
  (b = x00 ->
     decode TBool i = (i1, Ok (VBool false)) /\
     (forall t, decode (TOption t) i = (i1, Ok VNone)) /\
     (forall t e, decode (TResult t e) i =
        match decode t i1 with (i2, Ok v) => (i2, Ok (VOk v)) | (i2, Err x) => (i2, Err (DField x)) | (i2, Panic p) => (i2, Panic p) end)) /\
  (b <> x00 ->
     decode TBool i = (i1, Ok (VBool true)) /\
     (forall t, decode (TOption t) i =
        match decode t i1 with (i2, Ok v) => (i2, Ok (VSome v)) | (i2, Err x) => (i2, Err x) | (i2, Panic p) => (i2, Panic p) end) /\
     (forall t e, decode (TResult t e) i =
        match decode e i1 with (i2, Ok v) => (i2, Ok (VErr v)) | (i2, Err x) => (i2, Err (DField x)) | (i2, Panic p) => (i2, Panic p) end)).
Proof. exact C23_lemma. Qed.
Print Assumptions C23_sign_octet.

Example C23_case : unread (input_new [x80; x05]) = x80 :: [x05] /\
  decode (TOption (TInt U8)) (input_new [x80; x05]) = (Input [x80; x05] 2, Ok (VSome (VInt 5))).
Proof. vm_compute. split; reflexivity. Qed.

(* C24 *)
Theorem C24_nonzero : forall i bs, length bs = wire_width i ->
  (bs = repeat x00 (wire_width i) -> Refuses (decode (TNonZero i)) bs DNonZero) /\
  (bs <> repeat x00 (wire_width i) ->
     exists z, in_ity i z /\ z <> 0%Z /\ WireInt i z bs /\ Yields (decode (TNonZero i)) bs (VInt z)).
Proof. exact C24_lemma. Qed.
Print Assumptions C24_nonzero.

Example C24_case : length [x00; x00; x01; x00] = wire_width U32 /\ Yields (decode (TNonZero U32)) [x00; x00; x01; x00] (VInt 65536).
Proof. split; [reflexivity | apply yields_by_run; vm_compute; reflexivity]. Qed.

(* C25: [valid_utf8] (Types.v) is a concatenation of encodings of scalar values. The index [k] is the length of the longest valid
   prefix. *)
Theorem C25_string : forall s lb, WireLen (length s) lb ->
  (valid_utf8 s -> Yields (decode TString) (lb ++ s) (VStr s)) /\
  (~ valid_utf8 s -> exists k c, nth_error s k = Some c /\ valid_utf8 (firstn k s) /\
     (forall n, k < n <= length s -> ~ valid_utf8 (firstn n s)) /\
     Refuses (decode TString) (lb ++ s) (DBad (DUtf8 c k))).
Proof. exact C25_lemma. Qed.
Print Assumptions C25_string.

Example C25_case :
  Yields (decode TString) [x04; x00; x61; xe2; x82; xac] (VStr [x61; xe2; x82; xac]) /\
  Refuses (decode TString) [x04; x00; x61; xed; xa0; x80] (DBad (DUtf8 xed 1)).
Proof. split; [apply yields_by_run | apply refuses_by_run]; vm_compute; reflexivity. Qed.

(* C26 *)
Theorem C26_cstring : forall s lb, WireLen (length s) lb ->
  (~ In x00 s -> Yields (decode TCString) (lb ++ s) (VStr s)) /\
  (forall k, nth_error s k = Some x00 -> ~ In x00 (firstn k s) -> Refuses (decode TCString) (lb ++ s) (DCString k)).
Proof. exact C26_lemma. Qed.
Print Assumptions C26_cstring.

Example C26_case : Yields (decode TCString) [x02; x00; x61; xff] (VStr [x61; xff]) /\
  Refuses (decode TCString) [x03; x00; x61; x00; x00] (DCString 1).
Proof. split; [apply yields_by_run | apply refuses_by_run]; vm_compute; reflexivity. Qed.

(* C27: only the octet is consumed, and it is in the error. (What follows the assigned octets is in [Accepts], C69.) *)
Theorem C27_unassigned : forall b,
  (~ In b [x00; x01; x02] -> forall t, Refuses (decode (TBound t)) [b] (DUnassigned U8 (b2z b))) /\
  (~ In b [x04; x06] -> Refuses (decode TIpAddr) [b] (DUnassigned U8 (b2z b)) /\ Refuses (decode TSockAddr) [b] (DUnassigned U8 (b2z b))).
Proof. exact C27_lemma. Qed.
Print Assumptions C27_unassigned.

Example C27_case : ~ In x05 [x04; x06] /\ Refuses (decode TIpAddr) [x05] (DUnassigned U8 5).
Proof. split; [cbn; intuition discriminate | apply refuses_by_run; vm_compute; reflexivity]. Qed.

(* C28 *)
Theorem C28_duration : forall s n sb nb, (0 <= s < 2 ^ 64)%Z -> (0 <= n < 2 ^ 32)%Z -> le_repr 8 s sb -> le_repr 4 n nb ->
  ((time_ns s n < 2 ^ 64 * 1000000000)%Z ->
     exists s' n', time_ns s' n' = time_ns s n /\ (0 <= s' < 2 ^ 64)%Z /\ (0 <= n' < 1000000000)%Z /\
       Yields (decode TDuration) (sb ++ nb) (VDuration s' n')) /\
  ((2 ^ 64 * 1000000000 <= time_ns s n)%Z ->
     forall pre post, decode TDuration (Input (pre ++ (sb ++ nb) ++ post) (length pre)) =
       (Input (pre ++ (sb ++ nb) ++ post) (length pre + 12), Panic PDuration)).
Proof. exact C28_lemma. Qed.
Print Assumptions C28_duration.

Example C28_case :      (* one second and 2.5 * 10^9 nanoseconds *)
  Yields (decode TDuration) ([x01; x00; x00; x00; x00; x00; x00; x00] ++ [x00; xf9; x02; x95]) (VDuration 3 500000000).
Proof. apply yields_by_run; vm_compute; reflexivity. Qed.

(* C31: reading a length and entries gives the map with the last value of each key. *)
Theorem C31_map_partial : forall k v l lb bss, EnumsOk k -> EnumsOk v -> WireLen (length l) lb ->
  Forall2 (fun p b => exists x y, b = x ++ y /\ Yields (decode k) x (fst p) /\ Yields (decode v) y (snd p)) l bss ->
  exists m, Yields (decode (THashMap k v)) (lb ++ concat bss) (VMap m) /\ NoDup (map fst m) /\
    forall a b, In (a, b) m <-> exists l1 l2, l = l1 ++ (a, b) :: l2 /\ ~ In a (map fst l2).
Proof. exact C31_map_lemma. Qed.
Print Assumptions C31_map_partial.

Theorem C31_set_partial : forall k l lb bss, EnumsOk k -> WireLen (length l) lb -> Forall2 (fun p b => Yields (decode k) b p) l bss ->
  exists s, Yields (decode (THashSet k)) (lb ++ concat bss) (VSet s) /\ NoDup s /\ forall a, In a s <-> In a l.
Proof. exact C31_set_lemma. Qed.
Print Assumptions C31_set_partial.

(* but the encoder writes no length, so what it writes is read as something else *)
Theorem C31_set_refuted : exists v bs v', wt (THashSet (TInt U8)) v /\ Appends (encode true (THashSet (TInt U8)) v) bs (Ok tt) /\
  Yields (decode (THashSet (TInt U8))) bs v' /\ v = VSet [VInt 1; VInt 0; VInt 5] /\ v' = VSet [VInt 5].
Proof. exact set_lost. Qed.
Print Assumptions C31_set_refuted.

Theorem C31_map_refuted : exists v bs v', wt (THashMap (TInt U8) (TInt U8)) v /\ Appends (encode true (THashMap (TInt U8) (TInt U8)) v) bs (Ok tt) /\
  Yields (decode (THashMap (TInt U8) (TInt U8))) bs v' /\ v = VMap [(VInt 1, VInt 0); (VInt 5, VInt 6)] /\ v' = VMap [(VInt 5, VInt 6)].
Proof. exact map_lost. Qed.
Print Assumptions C31_map_refuted.

Example C31_case :
  Yields (decode (THashMap (TInt U8) TBool)) [x03; x00; x07; x00; x08; x00; x07; x01] (VMap [(VInt 7, VBool true); (VInt 8, VBool false)]).
Proof. apply yields_by_run; vm_compute; reflexivity. Qed.

(* C34 *)
Theorem C34_declared_length : forall t i i' v, in_bounds i ->
  match t with TVec _ | TLinked _ | TString | TCString => True | _ => False end ->
  decode t i = (i', Ok v) -> declares (unread i) (seq_length v) /\ (Z.of_nat (seq_length v) <= 65535)%Z.
Proof. exact C34_lemma. Qed.
Print Assumptions C34_declared_length.

Theorem C34_array_length : forall t n i i' v, in_bounds i -> decode (TArray t n) i = (i', Ok v) -> exists vs, v = VSeq vs /\ length vs = n.
Proof. exact C34_array_lemma. Qed.
Print Assumptions C34_array_length.

Example C34_case : decode (TVec (TInt U8)) (input_new [x03; x00; x01; x02; x03]) =
  (Input [x03; x00; x01; x02; x03] 5, Ok (VSeq [VInt 1; VInt 2; VInt 3])).
Proof. vm_compute. reflexivity. Qed.

(* C69: decoding succeeds exactly on the octets that the independent relation [Accepts] of SpecDecode.v gives the type. *)
Theorem C69_decode_exact : forall t, EnumsOk t -> forall bs v, Yields (decode t) bs v <-> Accepts t bs v.
Proof. exact accepts_iff. Qed.
Print Assumptions C69_decode_exact.

Theorem C69_decode_consumes : forall t i i' v, EnumsOk t -> in_bounds i -> decode t i = (i', Ok v) ->
  exists bs post, unread i = bs ++ post /\ i' = Input (i_buf i) (i_pos i + length bs) /\ Accepts t bs v.
Proof. exact decode_exact. Qed.
Print Assumptions C69_decode_consumes.

Example C69_case : EnumsOk sample_ty /\ Accepts sample_ty sample_bytes sample_val.
Proof. split; [exact sample_enums_ok | apply (C69_decode_exact sample_ty sample_enums_ok); exact sample_yields]. Qed.
