(* C60-C64, C71: SizedStr. *)
From Verif Require Import Base Streams Utf8 Types Encode Decode Spec SpecCalls Mem SizedSlice SizedStr SpecContainers SizedStrProofs SizedTextProofs CodeContainerProofs
  Utf8Facts ComputeFacts.

(* C60: after any history. The text and the octets are readable: no undefined read, and no text that is not UTF-8. *)
Theorem C60_always_text : forall n w s, StrReachable n w s ->
  exists bs, st_as_str s = Done bs /\ st_as_bytes s = Done bs /\ valid_utf8 bs /\ length bs <= n /\ st_length s = length bs /\ st_capacity s = n.
Proof. exact @C60_lemma. Qed.
Print Assumptions C60_always_text.

(* collected from U+00E9, U+20AC, with no room for the second; then cloned; then changed to "ab" *)
Example C60_case : exists s s' s'', st_from_iter list_next 4 [233; 8364]%Z = Done (s, []) /\ st_clone s = Done s' /\ st_change s' [x61; x62] = Done s'' /\
  StrReachable 4 false s'' /\ st_as_str s = Done [xc3; xa9] /\ st_as_str s'' = Done [x61; x62].
Proof.
  eexists. eexists. eexists. split; [vm_compute; reflexivity|]. split; [vm_compute; reflexivity|]. split; [vm_compute; reflexivity|].
  split; [|split; vm_compute; reflexivity].
  eapply SR_change with (bs := [x61; x62]); [eapply SR_clone; [eapply (@SR_from_utf8 4 [xc3; xa9]); vm_compute; reflexivity | vm_compute; reflexivity] | | |];
    [apply from_utf8_valid; reflexivity | reflexivity | vm_compute; reflexivity].
Qed.

(* C61: `new`, and the conversions from str, String and by parsing, which all call it *)
Theorem C61_new : forall n s, valid_utf8 s ->
  (length s <= n -> exists st, st_new n s = Done (inr st) /\ st_as_str st = Done s /\ st_capacity st = n) /\
  (n < length s -> st_new n s = Done (inl (SmallBuffer (LengthError n (length s))))).
Proof. exact @C61_new_lemma. Qed.
Print Assumptions C61_new.

Theorem C61_char : forall n c, is_scalar c = true ->
  (len_utf8 c <= n -> exists st, st_from_char n c = Done (inr st) /\ st_as_str st = Done (encode_utf8 c)) /\
  (n < len_utf8 c -> st_from_char n c = Done (inl (SmallBuffer (LengthError n (len_utf8 c))))).
Proof. exact @C61_char_lemma. Qed.
Print Assumptions C61_char.

(* the index reported is that of the end of the longest prefix that is UTF-8 *)
Theorem C61_from_utf8 : forall n bs,
  (n < length bs -> st_from_utf8 n bs = Done (inl (SmallBuffer (LengthError n (length bs))))) /\
  (length bs <= n -> valid_utf8 bs -> exists st, st_from_utf8 n bs = Done (inr st) /\ st_as_str st = Done bs /\ st_capacity st = n) /\
  (length bs <= n -> ~ valid_utf8 bs -> exists c k, st_from_utf8 n bs = Done (inl (BadUtf8 c k)) /\ nth_error bs k = Some c /\
     valid_utf8 (firstn k bs) /\ forall m, k < m <= length bs -> ~ valid_utf8 (firstn m bs)).
Proof. exact @C61_from_utf8_lemma. Qed.
Print Assumptions C61_from_utf8.

Example C61_case : st_from_utf8 3 [x61; xc3; xa9] = Done (inr (SSlice [Some x61; Some xc3; Some xa9] 3)) /\
  st_from_utf8 3 [x61; xc3; x61] = Done (inl (BadUtf8 xc3 1)) /\ st_from_utf8 1 [xff; xff] = Done (inl (SmallBuffer (LengthError 1 2))).
Proof. vm_compute. repeat split. Qed.

(* C62: for any iterator, without an end included; [cs] are the chars kept. *)
Theorem C62_collect : forall St (next : iterator St Z) n st, (forall a c b, next a = (Some c, b) -> is_scalar c = true) ->
  exists s st' cs st1, st_from_iter next n st = Done (s, st') /\ st_as_str s = Done (flat_map encode_utf8 cs) /\
    length (flat_map encode_utf8 cs) <= n /\ Pulls next st cs st1 /\
    (next st1 = (None, st') \/ exists c, next st1 = (Some c, st') /\ n < length (flat_map encode_utf8 (cs ++ [c]))).
Proof. exact @C62_lemma. Qed.
Print Assumptions C62_collect.

(* U+0061 for ever; and a char that does not fit, though a later one would *)
Example C62_case : st_from_iter (fun k => (Some 97%Z, S k)) 2 0 = Done (SSlice [Some x61; Some x61] 2, 3) /\
  st_from_iter list_next 3 [97; 8364; 98]%Z = Done (SSlice [Some x61; Some x00; Some x00] 1, [98%Z]).
Proof. vm_compute. split; reflexivity. Qed.

(* C63 *)
Theorem C63_encode : forall checks n m w s x, StrReachable n w s -> st_as_str s = Done x ->
  exists e, st_encode s = Done e /\ (forall o, e o = encode checks TStr (VStr x) o) /\ (forall o, e o = encode checks (TSizedStr m) (VStr x) o).
Proof. exact @C63_encode_lemma. Qed.
Print Assumptions C63_encode.

Theorem C63_decode : forall checks n x bs, valid_utf8 x -> Appends (encode checks TStr (VStr x)) bs (Ok tt) -> length x <= n ->
  forall pre post, exists s, st_decode n (Input (pre ++ bs ++ post) (length pre)) = (Input (pre ++ bs ++ post) (length pre + length bs), Ok (Done s)) /\
    st_as_str s = Done x /\ st_capacity s = n.
Proof. exact @C63_lemma. Qed.
Print Assumptions C63_decode.

Theorem C63_long : forall checks n x bs, valid_utf8 x -> Appends (encode checks TStr (VStr x)) bs (Ok tt) -> n < length x ->
  Refuses (st_decode n) bs (DLen (DLength n (length x))).
Proof. exact @C63_long_lemma. Qed.
Print Assumptions C63_long.

(* nothing else is accepted *)
Theorem C63_only : forall n i i' s, in_bounds i -> st_decode n i = (i', Ok (Done s)) ->
  exists x bs post, st_as_str s = Done x /\ (forall checks, Appends (encode checks TStr (VStr x)) bs (Ok tt)) /\
    SpecCalls.unread i = bs ++ post /\ i' = Input (i_buf i) (input_position i + length bs).
Proof. exact @C63_exact_lemma. Qed.
Print Assumptions C63_only.

(* a SizedStr among other types is decoded as it is here, and no decoding is undefined *)
Theorem C63_decode_in_types : forall n i i' r, st_decode n i = (i', r) ->
  match r with
  | Ok o => exists s bs, o = Done s /\ st_as_str s = Done bs /\ decode (TSizedStr n) i = (i', Ok (VStr bs))
  | Err e => decode (TSizedStr n) i = (i', Err e)
  | Panic p => decode (TSizedStr n) i = (i', Panic p)
  end.
Proof. exact @C63_decode_lemma. Qed.
Print Assumptions C63_decode_in_types.

Example C63_case : valid_utf8 [x61; xc3; xa9] /\ Appends (encode true TStr (VStr [x61; xc3; xa9])) [x03; x00; x61; xc3; xa9] (Ok tt) /\
  st_decode 5 (input_new [x03; x00; x61; xc3; xa9; x07]) =
    (Input [x03; x00; x61; xc3; xa9; x07] 5, Ok (Done (SSlice [Some x61; Some xc3; Some xa9; Some x00; Some x00] 3))).
Proof. split; [apply from_utf8_valid; reflexivity|]. split; [apply (appends_by_run true 9); vm_compute; reflexivity | vm_compute; reflexivity]. Qed.

(* C64: when neither `default` nor `clone` was in the history *)
Theorem C64_raw_parts_partial : forall n s bs, StrReachable n true s -> st_as_str s = Done bs ->
  exists buf, st_into_raw_parts s = Done (buf, length bs) /\ length buf = n /\ firstn (length bs) buf = bs.
Proof. exact @C64_raw_lemma. Qed.
Print Assumptions C64_raw_parts_partial.

(* the text, when there is some; but the capacity is its length *)
Theorem C64_string_partial : forall n w s bs, StrReachable n w s -> st_as_str s = Done bs -> bs <> [] ->
  st_into_boxed_str true s = Done bs /\ st_into_string true s = Done (bs, length bs).
Proof. exact @C64_string_lemma. Qed.
Print Assumptions C64_string_partial.

(* `into_bytes`: a SizedSlice of the same capacity, with the octets of the text *)
Theorem C64_bytes : forall n w s x, StrReachable n w s -> st_as_str s = Done x ->
  ss_as_slice (st_into_bytes s) = Done x /\ ss_length (st_into_bytes s) = length x /\ ss_capacity (st_into_bytes s) = n.
Proof. exact @C64_bytes_lemma. Qed.
Print Assumptions C64_bytes.

Theorem C64_conversions_refuted :
  (* an uninitialised octet *)
  (forall n, 0 < n -> StrReachable n false (st_default n) /\ st_into_raw_parts (st_default n) = Undefined UUninit) /\
  (exists s s', StrReachable 2 true s /\ st_clone s = Done s' /\ st_as_str s = Done [x61] /\ st_into_raw_parts s = Done ([x61; x00], 1) /\
     StrReachable 2 false s' /\ st_as_str s' = Done [x61] /\ st_into_raw_parts s' = Undefined UUninit) /\
  (* another capacity *)
  (exists s, StrReachable 2 true s /\ st_into_string true s = Done ([x61], 1)) /\
  (* an allocation of size zero *)
  (forall n, exists s, StrReachable n true s /\ st_as_str s = Done [] /\ st_into_string true s = Undefined UZeroAlloc).
Proof. exact @C64_refutation. Qed.
Print Assumptions C64_conversions_refuted.

Example C64_case : exists s, st_new 4 [xc3; xa9] = Done (inr s) /\ StrReachable 4 true s /\ st_into_raw_parts s = Done ([xc3; xa9; x00; x00], 2) /\
  st_into_string true s = Done ([xc3; xa9], 2).
Proof.
  eexists. split; [reflexivity|]. split; [|split; vm_compute; reflexivity].
  apply (@SR_new 4 [xc3; xa9]); [apply from_utf8_valid; reflexivity | reflexivity].
Qed.

(* C71 *)
Theorem C71_equality : forall n m w w' s s' x y, StrReachable n w s -> StrReachable m w' s' -> st_as_str s = Done x -> st_as_str s' = Done y ->
  exists b, st_eq s s' = Done b /\ st_eq_str s y = Done b /\ (b = true <-> x = y).
Proof. exact @C71_eq_lemma. Qed.
Print Assumptions C71_equality.

Theorem C71_order : forall n m w w' s s' x y, StrReachable n w s -> StrReachable m w' s' -> st_as_str s = Done x -> st_as_str s' = Done y ->
  exists c, st_cmp s s' = Done c /\ st_cmp_str s y = Done c /\
    (c = Eq <-> x = y) /\
    (c = Lt <-> LexLess eq (fun a b => (b2z a < b2z b)%Z) x y) /\
    (c = Gt <-> LexLess eq (fun a b => (b2z a < b2z b)%Z) y x).
Proof. exact @C71_cmp_lemma. Qed.
Print Assumptions C71_order.

(* the same calls of the hasher as str makes *)
Theorem C71_hash : forall n w s x, StrReachable n w s -> st_as_str s = Done x -> st_hash s = Done (str_hash x).
Proof. exact @C71_hash_lemma. Qed.
Print Assumptions C71_hash.

Example C71_case : exists s s', st_new 2 [x61] = Done (inr s) /\ st_new 3 [x61; x62] = Done (inr s') /\ st_eq s s' = Done false /\ st_cmp s s' = Done Lt /\
  st_cmp s' s = Done Gt /\ st_hash s = Done (str_hash [x61]) /\ StrReachable 2 true s.
Proof.
  eexists. eexists. split; [reflexivity|]. split; [reflexivity|]. split; [reflexivity|]. split; [reflexivity|]. split; [reflexivity|]. split; [reflexivity|].
  apply (@SR_new 2 [x61]); [apply from_utf8_valid; reflexivity | reflexivity].
Qed.

(* C96 *)
Theorem C96_str_lengths : forall n w s bs, StrReachable n w s -> st_as_str s = Done bs ->
  st_length s = length bs /\ st_capacity s = n /\ (st_is_empty s = true <-> bs = []) /\ (st_is_full s = true <-> length bs = n).
Proof. exact @C96_str_lemma. Qed.
Print Assumptions C96_str_lengths.

Example C96_str_case : exists s, st_new 2 [xc3; xa9] = Done (inr s) /\ st_is_full s = true /\ st_is_empty s = false /\ st_length s = 2.
Proof. eexists. split; [vm_compute; reflexivity|]. repeat split. Qed.

(* C98: a range of octets is given out exactly if it is cut between characters; otherwise the call panics *)
Theorem C98_range : forall n w s x a b, StrReachable n w s -> st_as_str s = Done x ->
  (forall y, st_index_range s a b = Done y <->
     exists p q, x = p ++ y ++ q /\ length p = a /\ length (p ++ y) = b /\ valid_utf8 p /\ valid_utf8 y /\ valid_utf8 q) /\
  ((forall y, st_index_range s a b <> Done y) -> st_index_range s a b = Panics PIndex).
Proof. exact @C98_range_lemma. Qed.
Print Assumptions C98_range.

(* the characters are those of the text, each with the number of octets before it *)
Theorem C98_chars : forall n w s x, StrReachable n w s -> st_as_str s = Done x ->
  exists cs l, st_chars s = Done cs /\ st_char_indices s = Done l /\
    Forall (fun c => is_scalar c = true) cs /\ x = flat_map encode_utf8 cs /\
    map snd l = cs /\ (forall k i c, nth_error l k = Some (i, c) -> i = length (flat_map encode_utf8 (firstn k cs))).
Proof. exact @C98_chars_lemma. Qed.
Print Assumptions C98_chars.

(* U+0061, U+20AC, U+1F600 *)
Example C98_case : exists s, st_from_iter list_next 8 [97; 8364; 128512]%Z = Done (s, []) /\ StrReachable 8 true s /\
  st_as_str s = Done [x61; xe2; x82; xac; xf0; x9f; x98; x80] /\ st_char_indices s = Done [(0, 97%Z); (1, 8364%Z); (4, 128512%Z)] /\
  st_index_range s 1 4 = Done [xe2; x82; xac] /\ st_index_range s 1 3 = Panics PIndex.
Proof.
  eexists. split; [vm_compute; reflexivity|]. split; [|repeat split; vm_compute; reflexivity].
  apply (@SR_new 8 [x61; xe2; x82; xac; xf0; x9f; x98; x80]); [apply from_utf8_valid; reflexivity | vm_compute; reflexivity].
Qed.
