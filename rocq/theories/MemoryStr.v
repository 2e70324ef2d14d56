(* The functions of SizedStr, run from their text: proofs. *)
From Coq Require Import Lia.
From Verif Require Import Base Streams Utf8 Utf8Facts Types Mem SizedSlice SizedStr.
From Verif Require Import SourceNames SourceSyntax SourceMeaning SourceMemory SourceSizedSlice SourceSizedStr SpecMemory MemoryRules MemoryCells MemorySized.

(* the octets of a string, if they are there *)
Ltac at_octets := rewrite ?Nat.add_0_l;
  lazymatch goal with |- context [mem_slice (raw ?a) ?b ?n] => rewrite (slice_raw _ a b n); let E := fresh "E" in destruct (mem_slice a b n) eqn:E; cbn [ends omap obind go_on]; [|reflexivity|reflexivity] end.
(* they are a `str` *)
Ltac at_text :=
  at_octets; go; repeat (rewrite slice_raw, ?Nat.add_0_l; match goal with E : mem_slice ?a ?b ?n = _ |- context [mem_slice ?a ?b ?n] => rewrite E end; cbn [omap obind go_on]; go);
  try match goal with H : k_text ?c = _ |- context [k_text ?c ?a] => rewrite H; let E := fresh "E" in destruct (from_utf8 a) eqn:E; cbn [ends omap obind go_on]; [reflexivity|] end.

Section Str.
Variables (St : Type) (c : mctx byte St).
Implicit Types (s : sstr) (rest : list (mobj byte St)) (d : list (mval byte)).
Ltac start := intros; unfold called, str_obj, sized_obj, within, st_capacity, st_length, st_is_empty, st_is_full, ss_capacity, ss_length, ss_is_empty, ss_is_full, st_as_str, st_as_bytes in *.
Notation here s rest d := (Memory (str_obj 1 :: sized_obj 2 s :: OBuf (raw (ss_buf s)) :: rest) d).
Notation fits s := (ss_len s <= length (ss_buf s)).

Lemma text_str_capacity : forall s rest d, k_len c = length (ss_buf s) ->
  called c id_SizedStr src_impl_SizedStr_N_capacity [MRef 0] (here s rest d) = (here s rest d, FDone (MNum (st_capacity s))).
Proof. start. go. now rewrite H. Qed.
Lemma text_str_len : forall s rest d,
  called c id_SizedStr src_impl_SizedStr_N_len [MRef 0] (here s rest d) = (here s rest d, FDone (MNum (st_length s))).
Proof. start. go. reflexivity. Qed.
Lemma text_str_is_empty : forall s rest d,
  called c id_SizedStr src_impl_SizedStr_N_is_empty [MRef 0] (here s rest d) = (here s rest d, FDone (MBool (st_is_empty s))).
Proof. start. go. reflexivity. Qed.
Lemma text_str_is_full : forall s rest d, k_len c = length (ss_buf s) ->
  called c id_SizedStr src_impl_SizedStr_N_is_full [MRef 0] (here s rest d) = (here s rest d, FDone (MBool (st_is_full s))).
Proof. start. go. now rewrite H. Qed.
Lemma text_str_as_ptr : forall f s rest d, f = src_impl_SizedStr_N_2_as_ptr \/ f = src_impl_SizedStr_N_2_as_mut_ptr ->
  called c id_SizedStr f [MRef 0] (here s rest d) = (here s rest d, FDone (MPtr 2 0 (st_capacity s) 0)).
Proof. start. destruct H as [-> | ->]; go; reflexivity. Qed.
Lemma text_str_as_bytes : forall f s rest d, fits s -> f = src_impl_SizedStr_N_2_as_bytes \/ f = src_AsRef_slice_SizedStr_N_as_ref ->
  ends (called c id_SizedStr f [MRef 0] (here s rest d)) (st_as_bytes s) (fun _ => (here s rest d, FDone (MSlice 2 0 (ss_len s)))).
Proof. start. destruct H0 as [-> | ->]; go; at_octets; go; reflexivity. Qed.
Lemma text_str_as_str : forall f s rest d, fits s -> octets c ->
  f = src_impl_SizedStr_N_2_as_str \/ f = src_impl_SizedStr_N_2_as_mut_str \/ f = src_AsMut_str_SizedStr_N_as_mut \/ f = src_AsRef_OsStr_SizedStr_N_as_ref \/
  f = src_AsRef_Path_SizedStr_N_as_ref \/ f = src_AsRef_str_SizedStr_N_as_ref \/ f = src_Borrow_str_SizedStr_N_borrow \/ f = src_BorrowMut_str_SizedStr_N_borrow_mut \/
  f = src_Deref_SizedStr_N_deref \/ f = src_DerefMut_SizedStr_N_deref_mut ->
  ends (called c id_SizedStr f [MRef 0] (here s rest d)) (st_as_str s) (fun _ => (here s rest d, FDone (MText 2 0 (ss_len s)))).
Proof.
  start. destruct H0. destruct H1 as [-> | [-> | [-> | [-> | [-> | [-> | [-> | [-> | [-> | ->]]]]]]]]]; go; at_text; go; reflexivity.
Qed.
Lemma text_str_views : forall f q s a rest d, fits s -> octets c ->
  (f = src_Debug_SizedStr_N_fmt /\ q = id_Debug \/ f = src_Display_SizedStr_N_fmt /\ q = id_Display) ->
  ends (called c id_SizedStr f [MRef 0; a] (here s rest d)) (st_as_str s) (fun _ => (here s rest d, FDone (MCon q [MText 2 0 (ss_len s)]))).
Proof.
  start. destruct H0. destruct H1 as [[-> ->] | [-> ->]]; go; at_text; go; rewrite slice_raw, ?Nat.add_0_l, E; cbn [omap obind go_on]; go; reflexivity.
Qed.
Lemma text_str_chars : forall f q s rest d, fits s -> octets c ->
  (f = src_impl_SizedStr_N_chars /\ q = id_chars \/ f = src_impl_SizedStr_N_char_indices /\ q = id_char_indices \/ f = src_ToSocketAddrs_SizedStr_N_to_socket_addrs /\ q = id_to_socket_addrs) ->
  ends (called c id_SizedStr f [MRef 0] (here s rest d)) (st_as_str s) (fun _ => (here s rest d, FDone (MCon q [MText 2 0 (ss_len s)]))).
Proof. start. destruct H0. destruct H1 as [[-> ->] | [[-> ->] | [-> ->]]]; go; at_text; go; reflexivity. Qed.

(* ---- comparisons *)

Lemma text_str_eq : forall s s' rest d, fits s -> fits s' -> octets c ->
  let m := here s (str_obj 4 :: sized_obj 5 s' :: OBuf (raw (ss_buf s')) :: rest) d in
  ends (called c id_SizedStr src_PartialEq_SizedStr_M_SizedStr_N_eq [MRef 0; MRef 3] m) (st_eq s s') (fun b => (m, FDone (MBool b))).
Proof.
  start. subst m. destruct H1. unfold st_eq, st_as_str, st_as_bytes. go. at_text. go. at_text. go.
  rewrite !slice_raw, ?Nat.add_0_l, ?E, ?E1. cbn [omap obind]. go. rewrite !slice_raw, ?Nat.add_0_l, ?E, ?E1. cbn [omap obind]. go. now rewrite of_eq.
Qed.
(* a String or `str` *)
Lemma text_str_eq_str : forall f s pre ys post rest d, fits s -> octets c -> f = src_PartialEq_ref_SizedStr_N_eq \/ f = src_PartialEq_String_SizedStr_N_eq ->
  let m := here s (within pre ys post :: rest) d in
  ends (called c id_SizedStr f [MRef 0; MText 3 (length pre) (length ys)] m) (st_eq_str s ys) (fun b => (m, FDone (MBool b))).
Proof.
  start. subst m. destruct H0. unfold st_eq_str, st_as_str, st_as_bytes.
  destruct H1 as [-> | ->]; go; at_text; go; rewrite !slice_raw, ?Nat.add_0_l, ?E; cbn [omap obind]; go; now rewrite firstn_all, of_eq.
Qed.
Lemma text_str_cmp : forall s s' rest d, fits s -> fits s' -> octets c ->
  let m := here s (str_obj 4 :: sized_obj 5 s' :: OBuf (raw (ss_buf s')) :: rest) d in
  ends (called c id_SizedStr src_Ord_SizedStr_N_cmp [MRef 0; MRef 3] m) (st_cmp s s') (fun o => (m, FDone (MOrd o))).
Proof.
  start. subst m. destruct H1. unfold st_cmp, st_as_str, st_as_bytes. go. at_text. go. at_text. go.
  rewrite !slice_raw, ?Nat.add_0_l, ?E, ?E1. cbn [omap obind]. go. rewrite !slice_raw, ?Nat.add_0_l, ?E, ?E1. cbn [omap obind]. go. now rewrite of_cmp.
Qed.
Lemma partial_of_total : forall x y, slice_partial_cmp (fun a b => Some (byte_cmp a b)) x y = Some (slice_cmp byte_cmp x y).
Proof. induction x as [|a x IH]; intros [|b y]; cbn [slice_partial_cmp slice_cmp]; try reflexivity. destruct (byte_cmp a b); [apply IH|reflexivity|reflexivity]. Qed.
Lemma text_str_partial_cmp : forall s s' rest d, fits s -> fits s' -> octets c ->
  let m := here s (str_obj 4 :: sized_obj 5 s' :: OBuf (raw (ss_buf s')) :: rest) d in
  ends (called c id_SizedStr src_PartialOrd_SizedStr_M_SizedStr_N_partial_cmp [MRef 0; MRef 3] m) (st_cmp s s') (fun o => (m, FDone (order_val (Some o)))).
Proof.
  start. subst m. destruct H1. unfold st_cmp, st_as_str, st_as_bytes. go. at_text. go. at_text. go.
  rewrite !slice_raw, ?Nat.add_0_l, ?E, ?E1. cbn [omap obind]. go. rewrite !slice_raw, ?Nat.add_0_l, ?E, ?E1. cbn [omap obind]. go. now rewrite of_partial, partial_of_total.
Qed.
Lemma text_str_partial_cmp_str : forall f s pre ys post rest d, fits s -> octets c ->
  f = src_PartialOrd_ref_SizedStr_N_partial_cmp \/ f = src_PartialOrd_String_SizedStr_N_partial_cmp ->
  let m := here s (within pre ys post :: rest) d in
  ends (called c id_SizedStr f [MRef 0; MText 3 (length pre) (length ys)] m) (st_cmp_str s ys) (fun o => (m, FDone (order_val (Some o)))).
Proof.
  start. subst m. destruct H0. unfold st_cmp_str, st_as_str, st_as_bytes.
  destruct H1 as [-> | ->]; go; at_text; go; rewrite !slice_raw, ?Nat.add_0_l, ?E; cbn [omap obind]; go; now rewrite firstn_all, of_partial, partial_of_total.
Qed.
Lemma text_str_hash : forall s hs rest d, fits s -> octets c ->
  ends (called c id_SizedStr src_Hash_SizedStr_N_hash [MRef 0; MRef 3] (here s (OHasher hs :: rest) d)) (st_hash s)
    (fun hs' => (here s (OHasher (hs ++ hs') :: rest) d, FDone (MTup []))).
Proof.
  start. destruct H0. unfold st_hash, st_as_str, st_as_bytes. go. at_text. go. rewrite !slice_raw, ?Nat.add_0_l, ?E. cbn [omap obind]. go. now rewrite of_text_hash.
Qed.
(* `Index` and `IndexMut` *)
Lemma text_str_index_range : forall f s a b rest d, fits s -> octets c -> f = src_Index_I_SizedStr_N_index \/ f = src_IndexMut_I_SizedStr_N_index_mut ->
  ends (called c id_SizedStr f [MRef 0; MSpan a b] (here s rest d)) (st_index_range s a b) (fun _ => (here s rest d, FDone (MText 2 a (b - a)))).
Proof.
  start. destruct H0. unfold st_index_range, st_as_str, st_as_bytes. destruct H1 as [-> | ->]; go; at_text; go; rewrite !slice_raw, ?Nat.add_0_l, ?E; cbn [omap obind]; go; rewrite of_start.
  all: destruct ((a <=? b) && is_char_boundary a0 a && is_char_boundary a0 b); go; reflexivity.
Qed.
(* ---- constructors *)

(* `from_raw_parts` copies the array *)
Lemma text_str_from_raw_parts : forall bs len rest d, k_len c = length bs ->
  called c id_SizedStr src_impl_SizedStr_N_2_from_raw_parts [MSlice 0 0 (length bs); MNum len] (Memory (OBuf (filled bs) :: rest) d) =
  let s := SSlice (map Some bs) len in
  if k_checks c && negb (len <=? length bs) then (Memory (OBuf (filled bs) :: rest) d, FFail PAssert)
  else (Memory (OBuf (filled bs) :: rest ++ [OBuf (raw (ss_buf s)); sized_obj (1 + length rest) s; str_obj (2 + length rest)]) d, FDone (MRef (3 + length rest))).
Proof.
  start. cbv zeta. cbn [ss_buf ss_len]. rewrite raw_filled, map_length. cbn [Nat.add].
  go. branch X1; go; rewrite ?H.
  - branch X2; cbn [negb]; go; rewrite ?X1; go; [|reflexivity]. rewrite skipn_O, firstn_all2 by sizes. rewrite ?Nat.add_1_r, ?Nat.add_succ_r, ?Nat.add_0_r, ?H. reflexivity.
  - cbn [negb]; go; rewrite ?X1; go. rewrite skipn_O, firstn_all2 by sizes. rewrite ?Nat.add_1_r, ?Nat.add_succ_r, ?Nat.add_0_r, ?H. reflexivity.
Qed.

Lemma zeros_length : forall n bs, length bs <= n -> length (map Some bs ++ skipn (length bs) (repeat (Some x00) n)) = n.
Proof. intros. sizes. Qed.
Lemma zeros_raw : forall n, repeat (Some (MItem x00)) n = raw (repeat (Some x00) n).
Proof. unfold raw. induction n as [|n IH]; cbn; [reflexivity|now rewrite IH]. Qed.
Lemma copied : forall pre bs post n, length bs <= n ->
  firstn 0 (repeat (Some (MItem x00)) n) ++ firstn (length bs) (skipn (length pre) (pre ++ filled bs ++ post)) ++ skipn (0 + length bs) (repeat (Some (MItem x00)) n) =
  raw (map Some bs ++ skipn (length bs) (repeat (Some x00) n)).
Proof. intros. cbn [firstn app Nat.add]. rewrite taken_mid0, firstn_all by sizes. now rewrite zeros_raw, skipn_raw, raw_app, raw_filled. Qed.

(* with the build known *)
Ltac along X := repeat first [progress go | rewrite X; cbn [andb orb negb]; cbv beta iota zeta].
Ltac numerals := rewrite ?Nat.add_1_r, ?Nat.add_succ_r, ?Nat.add_0_r; cbn [Nat.add].
Ltac the_string := cbn [omap obind ends ss_buf ss_len]; rewrite ?zeros_length by assumption; rewrite ?skipn_O, ?firstn_all2 by (rewrite raw_length, zeros_length by assumption; lia); numerals; reflexivity.
Lemma text_str_unchecked : forall pre bs post rest d, octets c ->
  let m := Memory (within pre bs post :: rest) d in
  let r := called c id_SizedStr src_impl_SizedStr_N_2_from_utf8_unchecked [MSlice 0 (length pre) (length bs)] m in
  if k_checks c && negb (length bs <=? k_len c) then r = (m, FFail PAssert)
  else ends r (st_unchecked (k_len c) bs) (fun s => (Memory (within pre bs post :: rest ++ made (1 + length rest) s) d, FDone (MRef (4 + length rest)))).
Proof.
  start. destruct H. subst m r. unfold st_unchecked, mem_copy, made, sized_obj, str_obj. rewrite repeat_length. destruct (k_checks c) eqn:X1; destruct (length bs <=? k_len c) eqn:X2; known_as X2; cbn [andb negb].
  - along X1. rewrite of_lit, copied by assumption. along X1. the_string.
  - along X1. reflexivity.
  - along X1. rewrite of_lit, copied by assumption. along X1. the_string.
  - along X1. reflexivity.
Qed.
Lemma text_str_new : forall f pre bs post rest d, octets c ->
  f = src_impl_SizedStr_N_new \/ f = src_FromStr_SizedStr_N_from_str \/ f = src_TryFrom_ref_SizedStr_N_try_from \/ f = src_TryFrom_String_SizedStr_N_try_from ->
  ends (called c id_SizedStr f [MText 0 (length pre) (length bs)] (Memory (within pre bs post :: rest) d)) (st_new (k_len c) bs) (string_result (within pre bs post :: rest) d).
Proof.
  start. destruct H. unfold st_new, st_unchecked, mem_copy, string_result, made, string_error_obj, string_error_val, length_obj, sized_obj, str_obj, within. rewrite repeat_length.
  destruct H0 as [-> | [-> | [-> | ->]]]; go; branch X2; go; try (numerals; reflexivity); destruct (k_checks c) eqn:X1; along X1; rewrite of_lit, copied by assumption; along X1; the_string.
Qed.
Lemma text_str_from_utf8 : forall pre bs post rest d, octets c ->
  ends (called c id_SizedStr src_impl_SizedStr_N_2_from_utf8 [MSlice 0 (length pre) (length bs)] (Memory (within pre bs post :: rest) d)) (st_from_utf8 (k_len c) bs)
    (string_result (within pre bs post :: rest) d).
Proof.
  start. destruct H. unfold st_from_utf8, st_unchecked, mem_copy, string_result, made, string_error_obj, string_error_val, length_obj, sized_obj, str_obj, within. rewrite repeat_length.
  go. branch X2; go; [numerals; reflexivity|]. rewrite firstn_all, of_text. destruct (from_utf8 bs) as [i|] eqn:X3; go.
  - branch X4; go.
    + rewrite mem_read_mid. assert (exists b, nth_error bs i = Some b) as [b B] by (destruct (nth_error bs i) eqn:B; [eauto|apply nth_error_None in B; lia]). unfold mem_read. rewrite nth_error_app1 by sizes. unfold filled. rewrite nth_error_map, B. cbn [option_map]. go. numerals. reflexivity.
    + rewrite (proj2 (nth_error_None bs i)) by lia. reflexivity.
  - destruct (k_checks c) eqn:X1; along X1; rewrite of_lit, copied by assumption; along X1; the_string.
Qed.
(* the array in the function comes first *)
Lemma text_str_from_char : forall z rest d, octets c ->
  let o := OBuf (filled (encode_utf8 z ++ skipn (len_utf8 z) (repeat x00 4))) in
  ends (called c id_SizedStr src_TryFrom_char_SizedStr_N_try_from [MChar z] (Memory rest d)) (st_from_char (k_len c) z)
    (string_result (rest ++ [o]) d).
Proof.
  start. destruct H. subst o. unfold st_from_char, st_new, st_unchecked, mem_copy, string_result, made, string_error_obj, string_error_val, length_obj, sized_obj, str_obj, within. rewrite repeat_length, app_length. cbn [length].
  go. change (Z.to_nat 4) with 4. rewrite of_char, of_lit. pose proof (len_encode_utf8 z) as L.
  assert (length (encode_utf8 z) <= 4) as L4 by (rewrite L; unfold len_utf8; repeat match goal with |- context [if ?b then _ else _] => destruct b end; lia).
  go. fold (filled (encode_utf8 z)). cbn [firstn app]. rewrite Nat.add_0_l, <- filled_repeat, skipn_filled, <- filled_app, L. set (tmp := encode_utf8 z ++ skipn (len_utf8 z) (repeat x00 4)).
  assert (T : firstn (len_utf8 z) (skipn 0 (filled tmp)) = filled (encode_utf8 z)).
  { rewrite skipn_O, firstn_filled. subst tmp. rewrite <- L, firstn_app, firstn_all, Nat.sub_diag. cbn [firstn]. now rewrite app_nil_r. }
  assert (LT : length tmp = 4) by (subst tmp; rewrite <- L; sizes). clearbody tmp. 
  branch X2; go; [cbn [ends]; rewrite <- app_assoc; numerals; reflexivity|].
  assert (CP : forall n, firstn 0 (repeat (Some (MItem x00)) n) ++ filled (encode_utf8 z) ++ skipn (0 + len_utf8 z) (repeat (Some (MItem x00)) n) = raw (map Some (encode_utf8 z) ++ skipn (len_utf8 z) (repeat (Some x00) n))).
  { intros. cbn [firstn app Nat.add]. now rewrite zeros_raw, skipn_raw, raw_app, raw_filled. }
  assert (LZ : length (map Some (encode_utf8 z) ++ skipn (len_utf8 z) (repeat (Some x00) (k_len c))) = k_len c) by (rewrite <- L in *; apply zeros_length; assumption).
  rewrite L in *. destruct (k_checks c) eqn:X1; along X1; rewrite of_lit, T, CP; along X1.
  all: cbn [omap obind ends ss_buf ss_len]; rewrite LZ, ?skipn_O, ?firstn_all2 by (rewrite raw_length, LZ; lia); rewrite <- app_assoc; numerals; reflexivity.
Qed.
(* ---- into other types *)

Lemma text_str_into_raw_parts : forall s rest d,
  ends (called c id_SizedStr src_impl_SizedStr_N_2_into_raw_parts [MRef 0] (here s rest d)) (st_into_raw_parts s)
    (fun '(bs, len) => (here s (rest ++ [OBuf (filled bs)]) d, FDone (MTup [MSlice (3 + length rest) 0 (length bs); MNum len]))).
Proof.
  start. unfold st_into_raw_parts. go. at_octets. go. cbn [omap obind ends]. rewrite map_map. fold (filled a). rewrite (slice_length _ _ _ _ _ E). reflexivity.
Qed.
Lemma text_str_into_bytes : forall s rest d,
  called c id_SizedStr src_impl_SizedStr_N_2_into_bytes [MRef 0] (here s rest d) = (here (st_into_bytes s) rest d, FDone (MRef 1)).
Proof. start. go. reflexivity. Qed.
(* the memory of the box; a String keeps it, so that its capacity is its length *)
Lemma text_str_boxed : forall f x s rest d, fits s -> octets c ->
  f = src_impl_SizedStr_N_2_into_boxed_str \/ f = src_impl_SizedStr_N_2_into_string \/ f = src_From_SizedStr_N_Box_str_from \/ f = src_From_SizedStr_N_String_from ->
  ends (called c x f [MRef 0] (here s rest d)) (st_into_boxed_str (k_granted c) s)
    (fun bs => (here s (rest ++ [OBuf (filled bs)]) d, FDone (MText (3 + length rest) 0 (length bs)))).
Proof.
  start. destruct H0. unfold st_into_boxed_str, ss_into_boxed_slice.
  assert (L : firstn 0 (repeat None (ss_len s)) ++ firstn (ss_len s) (skipn 0 (raw (ss_buf s))) ++ skipn (0 + ss_len s) (repeat None (ss_len s)) = raw (firstn (ss_len s) (ss_buf s))).
  { cbn [firstn app skipn Nat.add]. rewrite skipn_all2 by (rewrite repeat_length; lia). now rewrite app_nil_r, firstn_raw. }
  pose proof (slice_of_firstn _ (ss_buf s) (ss_len s) 0) as L2. cbn [Nat.add] in L2.
  destruct H1 as [-> | [-> | [-> | ->]]]; go; unfold no_size; rewrite of_size; destruct (1 * N.of_nat (ss_len s) =? 0)%N; try reflexivity; destruct (k_granted c); go; cbn [negb]; go; try reflexivity.
  all: rewrite L, !slice_raw, L2; destruct (mem_slice (ss_buf s) 0 (ss_len s)) as [xs| |] eqn:E; cbn [omap obind]; go; try reflexivity; rewrite slice_raw, L2; cbn [omap obind]; go.
  all: rewrite of_text; destruct (from_utf8 xs); go; [reflexivity|].
  all: cbn [ends]; rewrite (slice_length _ _ _ _ _ E); apply slice_cells in E; cbn [skipn] in E; rewrite E, raw_filled; reflexivity.
Qed.
(* `from_iter` *)
Lemma chars_drain : forall f (next : iterator St Z) n K rest d, octets c -> (Z.of_nat n < 2 ^ 64)%Z -> k_len c = n ->
  (forall st, k_next c st = let (x, st') := next st in (option_map MChar x, st')) ->
  let ρ len := [(id_len, MNum len); (id_buf, MSlice (S (length rest)) 0 n); (id_iter, MRef 0)] in
  let m st buf := Memory (OUser st :: rest ++ [OBuf (filled buf)]) d in
  let c' := with_self c id_SizedStr f in
  forall fuel fuel' len buf st, n - len < fuel -> n - len < fuel' -> length buf = n -> len <= n ->
  ends (drain c' 0 (turn c' (PVar id_c) src_FromIterator_char_SizedStr_N_from_iter_loop0 (fun ρ' m => K (restore (ρ 0) ρ') m)) fuel (ρ len) (m st buf) K)
    (chars_loop next fuel' n buf len st) (fun '(buf, len, st) => K (ρ len) (m st buf)).
Proof.
  intros * O Z N X ρ m c'. induction fuel as [|fuel IH]; intros * F F' B L; [lia|]. destruct fuel' as [|fuel']; [lia|]. cbn [drain chars_loop].
  subst ρ m c'. go. rewrite X. destruct (next st) as [[z|] st1]; cbn [option_map]; go; [|reflexivity].
  unfold turn at 1, src_FromIterator_char_SizedStr_N_from_iter_loop0 at 1. go. rewrite N. go.
  destruct (n - len <? len_utf8 z) eqn:X2; known_as X2; go; [reflexivity|].
  destruct O. pose proof (len_encode_utf8 z) as LE. go. rewrite of_char. go. fold (filled (encode_utf8 z)).
  rewrite !Nat.add_0_l, firstn_filled, skipn_filled, LE, <- !filled_app.
  assert (1 <= len_utf8 z) by (unfold len_utf8; repeat match goal with |- context [if ?b then _ else _] => destruct b end; lia).
  apply IH; try lia. rewrite !app_length, firstn_length, skipn_length. lia.
Qed.
Lemma text_str_from_iter : forall (next : iterator St Z) st rest d, octets c -> (Z.of_nat (k_len c) < 2 ^ 64)%Z -> k_len c < k_fuel c ->
  (forall st, k_next c st = let (x, st') := next st in (option_map MChar x, st')) ->
  ends (called c id_SizedStr src_FromIterator_char_SizedStr_N_from_iter [MRef 0] (Memory (OUser st :: rest) d)) (st_from_iter next (k_len c) st)
    (fun '(s, st') => (Memory (OUser st' :: rest ++ made (1 + length rest) s) d, FDone (MRef (4 + length rest)))).
Proof.
  start. unfold st_from_iter, made, sized_obj, str_obj. go. destruct H as [Hlit]. rewrite Hlit, <- filled_repeat.
  assert (O : octets c) by (constructor; assumption).
  match goal with |- ends (drain _ _ _ _ _ _ ?K) _ _ => pose proof (chars_drain (call_fn 7 c) next (k_len c) K rest d O H0 eq_refl H2 (k_fuel c) (S (k_len c)) 0 (repeat x00 (k_len c)) st) as P end.
  eapply ends_map; [apply P; [lia|lia|apply repeat_length|lia]|]. clear P. intros [[buf len] st'] E. 
  assert (LB : length buf = k_len c /\ len <= k_len c).
  { clear - E. assert (forall fuel len0 (buf0 : list byte) u, length buf0 = k_len c -> len0 <= k_len c -> chars_loop next fuel (k_len c) buf0 len0 u = Done (buf, len, st') -> length buf = k_len c /\ len <= k_len c) as L.
    { induction fuel as [|fuel IH]; intros * B L; cbn [chars_loop]; [let Q := fresh in intros Q; inversion Q; subst; auto|]. destruct (next u) as [[z|] st1]; [|let Q := fresh in intros Q; inversion Q; subst; auto].
      destruct (k_len c - len0 <? len_utf8 z) eqn:X1; [let Q := fresh in intros Q; inversion Q; subst; auto|]. destruct (length buf0 <? len0 + len_utf8 z) eqn:X2; [let Q := fresh in intros Q; inversion Q|]. known_as X1. known_as X2.
      apply IH; [|lia]. rewrite !app_length, firstn_length, skipn_length, len_encode_utf8. lia. }
    eapply L; [|apply Nat.le_0_l|exact E]. apply repeat_length. }
  destruct LB as [LB LL]. cbv beta iota. destruct (k_checks c) eqn:X1; along X1.
  all: cbn [ss_buf ss_len]; rewrite raw_filled, map_length, LB, skipn_O, firstn_all2 by sizes; numerals; reflexivity.
Qed.
End Str.
