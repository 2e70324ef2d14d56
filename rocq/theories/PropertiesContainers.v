(* C49-C59: SizedSlice and SizedIter. *)
From Coq Require Import Lia Permutation.
From Verif Require Import Base Streams Utf8 Types Encode Decode Spec SpecCalls Mem SizedSlice SizedIter Owned SpecContainers
  SizedSliceProofs ContainerProofs SizedTextProofs SizedIterProofs CodeContainerProofs Samples SampleFacts ComputeFacts.

(* C49: it fits, and is kept; or does not, and the error says by how much. When cloning an item panics, so does `new`. *)
Theorem C49_new : forall A (cl : A -> option A) n data,
  (n < length data -> ss_new cl n data = Done (inl (LengthError n (length data)))) /\
  (forall copies, length data <= n -> Clones cl data copies ->
     exists s, ss_new cl n data = Done (inr s) /\ ss_as_slice s = Done copies /\ ss_capacity s = n) /\
  (length data <= n -> ~ (exists copies, Clones cl data copies) -> ss_new cl n data = Panics PUser).
Proof. exact @C49_new_lemma. Qed.
Print Assumptions C49_new.

Example C49_case : ss_new Some 3 [7; 8] = Done (inr (SSlice [Some 7; Some 8; None] 2)) /\
  ss_new Some 1 [7; 8] = Done (inl (LengthError 1 2)) /\ Clones Some [7; 8] [7; 8].
Proof. split; [reflexivity|]. split; [reflexivity|]. repeat constructor. Qed.

(* C50: either N items, and the iterator is asked no more; or all there were, and then it said None once. *)
Theorem C50_collect : forall St A (next : iterator St A) n st s st', ss_from_iter next n st = (s, st') ->
  exists items, ss_as_slice s = Done items /\ ss_capacity s = n /\
    ((length items = n /\ Pulls next st items st') \/
     (length items < n /\ exists st1, Pulls next st items st1 /\ next st1 = (None, st'))).
Proof. exact @C50_lemma. Qed.
Print Assumptions C50_collect.

Theorem C50_collect_list : forall A (l : list A) n s l', ss_from_iter list_next n l = (s, l') ->
  ss_as_slice s = Done (firstn n l) /\ l' = skipn n l.
Proof. exact @C50_list_lemma. Qed.
Print Assumptions C50_collect_list.

(* an iterator without an end *)
Example C50_case : ss_from_iter (fun k => (Some (k * k), S k)) 3 2 = (SSlice [Some 4; Some 9; Some 16] 3, 5) /\
  ss_from_iter list_next 3 [7; 8] = (SSlice [Some 7; Some 8; None] 2, []).
Proof. split; reflexivity. Qed.

(* C51: whatever the history, there is one sequence of items, and every conversion presents it. *)
Theorem C51_conversions : forall n A (s : sslice A), Reachable n s ->
  exists items, ss_as_slice s = Done items /\ length items = ss_length s /\ ss_length s <= n /\ ss_capacity s = n /\
    it_as_slice (ss_into_iter s) = Done items /\
    (forall cl copies, Clones cl items copies -> exists s', ss_clone cl s = Done s' /\ ss_as_slice s' = Done copies /\ ss_capacity s' = n) /\
    (exists refs addrs, ss_each_ref s = Done refs /\ ss_as_slice refs = Done addrs /\ NoDup addrs /\
       Forall2 (fun a x => ss_deref s a = Done x) addrs items) /\
    (forall k, ss_index s k = match nth_error items k with Some x => Done x | None => Panics PIndex end) /\
    (forall a b, ss_index_range s a b = if (a <=? b) && (b <=? length items) then Done (firstn (b - a) (skipn a items)) else Panics PIndex).
Proof. exact @C51_lemma. Qed.
Print Assumptions C51_conversions.

(* into_vec and into_boxed_slice, when there is something to allocate *)
Theorem C51_into_vec_partial : forall n A (s : sslice A) items size, Reachable n s -> ss_as_slice s = Done items ->
  items <> [] -> (0 < size)%N -> ss_into_boxed_slice size true s = Done items.
Proof. exact @C51_into_vec_lemma. Qed.
Print Assumptions C51_into_vec_partial.

Theorem C51_into_vec_refuted :
  (forall A n size, exists s : sslice A, Reachable n s /\ ss_as_slice s = Done [] /\ ss_into_boxed_slice size true s = Undefined UZeroAlloc) /\
  (exists s : sslice unit, Reachable 1 s /\ ss_as_slice s = Done [tt] /\ ss_into_boxed_slice 0 true s = Undefined UZeroAlloc).
Proof. exact @C51_refutation. Qed.
Print Assumptions C51_into_vec_refuted.

(* made by collecting, cloned, and changed in place *)
Example C51_case : exists s s' s'', ss_from_iter list_next 3 [7; 8] = (s, []) /\ ss_clone (fun x => Some (x + 1)) s = Done s' /\
  ss_index_set s' 1 0 = Done s'' /\ Reachable 3 s'' /\ ss_as_slice s'' = Done [8; 0] /\ ss_into_boxed_slice 8 true s'' = Done [8; 0].
Proof.
  eexists. eexists. eexists. split; [reflexivity|]. split; [reflexivity|]. split; [reflexivity|]. split; [|split; reflexivity].
  apply (@R_set 3 nat (SSlice [Some 8; Some 9; None] 2) 1 0); [|reflexivity].
  apply (@R_clone 3 nat (fun x => Some (x + 1)) (SSlice [Some 7; Some 8; None] 2)); [|reflexivity].
  apply (@R_from_iter 3 _ _ list_next [7; 8] _ []). reflexivity.
Qed.

(* C52 *)
Theorem C52_equality : forall n m A B (eq : A -> B -> bool) s s' x y,
  @Reachable n A s -> @Reachable m B s' -> ss_as_slice s = Done x -> ss_as_slice s' = Done y ->
  exists b, ss_eq eq s s' = Done b /\ ss_eq_slice eq s y = Done b /\ (b = true <-> Forall2 (fun a b => eq a b = true) x y).
Proof. exact @C52_eq_lemma. Qed.
Print Assumptions C52_equality.

Theorem C52_order : forall n m A (cmp : A -> A -> comparison) (s s' : sslice A) x y,
  Reachable n s -> Reachable m s' -> ss_as_slice s = Done x -> ss_as_slice s' = Done y -> (forall a b, cmp b a = CompOpp (cmp a b)) ->
  exists c, ss_cmp cmp s s' = Done c /\
    (c = Eq <-> Forall2 (fun a b => cmp a b = Eq) x y) /\
    (c = Lt <-> LexLess (fun a b => cmp a b = Eq) (fun a b => cmp a b = Lt) x y) /\
    (c = Gt <-> LexLess (fun a b => cmp a b = Eq) (fun a b => cmp a b = Lt) y x).
Proof. exact @C52_cmp_lemma. Qed.
Print Assumptions C52_order.

(* and this order of the contents is total when that of items is *)
Theorem C52_order_total : forall A (cmp : A -> A -> comparison), TotalOrder cmp -> TotalOrder (slice_cmp cmp).
Proof. exact @C52_total_lemma. Qed.
Print Assumptions C52_order_total.

Theorem C52_partial_order : forall n m A (pcmp : A -> A -> option comparison) (s s' : sslice A) x y,
  Reachable n s -> Reachable m s' -> ss_as_slice s = Done x -> ss_as_slice s' = Done y ->
  exists c, ss_partial_cmp pcmp s s' = Done c /\ ss_partial_cmp_slice pcmp s y = Done c /\
    forall cmp, (forall a b, In a x -> In b y -> pcmp a b = Some (cmp a b)) -> c = Some (slice_cmp cmp x y).
Proof. exact @C52_partial_cmp_lemma. Qed.
Print Assumptions C52_partial_order.

Theorem C52_hash : forall n m A B (eq : A -> B -> bool) (hash : A -> list hash_call) (hash' : B -> list hash_call) s s',
  @Reachable n A s -> @Reachable m B s' -> (forall a b, eq a b = true -> hash a = hash' b) ->
  ss_eq eq s s' = Done true -> exists h, ss_hash hash s = Done h /\ ss_hash hash' s' = Done h.
Proof. exact @C52_hash_lemma. Qed.
Print Assumptions C52_hash.

(* two capacities, and other leftovers *)
Example C52_case : exists s s', Reachable 2 s /\ Reachable 3 s' /\ s <> s' /\ ss_eq Nat.eqb s s' = Done true /\
  ss_cmp Nat.compare s s' = Done Eq /\ ss_cmp Nat.compare s (ss_from_array [7; 0]) = Done Lt.
Proof.
  exists (SSlice [Some 7; None] 1), (SSlice [Some 7; None; None] 1). split; [eapply (@R_from_iter _ _ _ list_next [7]); reflexivity|].
  split; [eapply (@R_from_iter _ _ _ list_next [7]); reflexivity|]. split; [discriminate|]. split; [reflexivity|]. split; reflexivity.
Qed.

(* C53: the items are fed in order, as by the slice after its length *)
Theorem C53_borrow_hash_partial : forall n A (hash : A -> list hash_call) (s : sslice A) items, Reachable n s -> ss_as_slice s = Done items ->
  ss_hash hash s = Done (flat_map hash items).
Proof. exact @C53_lemma. Qed.
Print Assumptions C53_borrow_hash_partial.

(* never the same. The slice feeds its length first, the SizedSlice does not; the rest is the same. *)
Theorem C53_borrow_hash_refuted : forall n A (hash : A -> list hash_call) (s : sslice A) items, Reachable n s -> ss_as_slice s = Done items ->
  exists h, ss_hash hash s = Done h /\ slice_hash (flat_map hash) items = HUsize (length items) :: h /\ h <> slice_hash (flat_map hash) items.
Proof. exact @C53_refutation. Qed.
Print Assumptions C53_borrow_hash_refuted.

Example C53_case : Reachable 2 (ss_from_array [7; 8]) /\ ss_hash (fun k => [HUsize k]) (ss_from_array [7; 8]) = Done [HUsize 7; HUsize 8] /\
  slice_hash (flat_map (fun k => [HUsize k])) [7; 8] = [HUsize 2; HUsize 7; HUsize 8].
Proof. split; [constructor; reflexivity|]. split; reflexivity. Qed.

(* C54: the reads and writes of every safe call are defined, apart from those of copy_from_slice with too much data (and of into_vec: C51). *)
Theorem C54_in_bounds_partial : forall n A (s : sslice A), Reachable n s ->
  ss_length s <= ss_capacity s /\ ss_capacity s = n /\
  (forall u, ss_as_slice s <> Undefined u) /\
  (forall cl u, ss_clone cl s <> Undefined u) /\
  (forall u, ss_each_ref s <> Undefined u) /\
  (forall k u, ss_index s k <> Undefined u) /\
  (forall a b u, ss_index_range s a b <> Undefined u) /\
  (forall k x u, ss_index_set s k x <> Undefined u) /\
  (forall hash u, ss_hash hash s <> Undefined u) /\
  (forall data u, length data <= ss_capacity s -> ss_copy_from_slice s data <> Undefined u) /\
  (forall size granted u, (0 < size)%N -> 0 < ss_length s -> ss_into_boxed_slice size granted s <> Undefined u).
Proof. exact @C54_lemma. Qed.
Print Assumptions C54_in_bounds_partial.

Theorem C54_new_in_bounds : forall A (cl : A -> option A) n data u, ss_new cl n data <> Undefined u.
Proof. exact @C54_make_lemma. Qed.
Print Assumptions C54_new_in_bounds.

Theorem C54_in_bounds_refuted : forall n A (s : sslice A) data, Reachable n s -> n < length data -> ss_copy_from_slice s data = Undefined UOutOfBounds.
Proof. exact @C54_refutation. Qed.
Print Assumptions C54_in_bounds_refuted.

Example C54_case : exists s s', Reachable 2 s /\ ss_as_slice s = Done [7] /\ ss_copy_from_slice s [8; 9] = Done s' /\ ss_as_slice s' = Done [8; 9] /\
  ss_copy_from_slice s [8; 9; 10] = Undefined UOutOfBounds.
Proof.
  exists (SSlice [Some 7; None] 1). eexists. split; [eapply (@R_from_iter _ _ _ list_next [7]); reflexivity|]. split; [reflexivity|].
  split; [reflexivity|]. split; reflexivity.
Qed.

(* C55: without nth, and starting from a SizedSlice, no item is dropped or given out twice; none but those it held. *)
Theorem C55_at_most_once_partial : forall n A (s : sslice A) items checks size ops es h, Reachable n s -> ss_as_slice s = Done items ->
  Forall (fun op => forall k, op <> ONth k) ops -> own_run checks size ops (HSlice s) = Done (es, h) ->
  exists rest, Permutation (map ev_item es ++ rest) items.
Proof. exact @C55_at_most_once_lemma. Qed.
Print Assumptions C55_at_most_once_partial.

(* exactly once, if it is converted to a Vec *)
Theorem C55_into_vec_partial : forall n A (s : sslice A) items checks size, Reachable n s -> ss_as_slice s = Done items -> items <> [] -> (0 < size)%N ->
  own_run checks size [OIntoVec; ODrop] (HSlice s) = Done (map Dropped items, HGone).
Proof. exact @C55_into_vec_lemma. Qed.
Print Assumptions C55_into_vec_partial.

(* or iterated over to the end *)
Theorem C55_iterated_partial : forall n A (s : sslice A) items checks size ends, Reachable n s -> ss_as_slice s = Done items ->
  length items <= length ends ->
  exists es h, own_run checks size (OIntoIter :: map ONext ends ++ [ODrop]) (HSlice s) = Done (es, h) /\ Permutation es (map Given items).
Proof. exact @C55_iterated_lemma. Qed.
Print Assumptions C55_iterated_partial.

Theorem C55_dropped_once_refuted :
  (* an item that is never dropped *)
  (exists s : sslice nat, Reachable 1 s /\ ss_as_slice s = Done [7] /\ own_run true 8 [ODrop] (HSlice s) = Done ([], HGone)) /\
  (exists s : sslice nat, Reachable 2 s /\ ss_as_slice s = Done [7; 8] /\ own_run true 8 [OIntoIter; ONext Front; ODrop] (HSlice s) = Done ([Given 7], HGone)) /\
  (* items dropped twice *)
  (forall A (items : list A) checks size, items <> [] -> (0 < size)%N ->
     own_run checks size [OFrom; OIntoVec; ODrop] (HArray items) = Done (map Dropped items ++ map Dropped items, HGone)) /\
  (* an item given twice *)
  (exists s : sslice nat, Reachable 2 s /\ ss_as_slice s = Done [7; 8] /\
     own_run true 8 [OIntoIter; ONth 1; ONext Front; ODrop] (HSlice s) = Done ([Given 8; Given 8], HGone)).
Proof. exact @C55_refutation. Qed.
Print Assumptions C55_dropped_once_refuted.

Example C55_case : Reachable 3 (fst (ss_from_iter list_next 3 [7; 8])) /\ ss_as_slice (fst (ss_from_iter list_next 3 [7; 8])) = Done [7; 8] /\
  own_run true 8 [OIntoIter; ONext Back; ONext Front; ONext Front; ODrop] (HSlice (fst (ss_from_iter list_next 3 [7; 8]))) = Done ([Given 8; Given 7], HGone).
Proof. split; [eapply (@R_from_iter _ _ _ list_next [7; 8]); reflexivity|]. split; reflexivity. Qed.

(* C56: the decoder asks for N items, whatever the length; so the encoding of a sequence must be followed by what is missing. With [ws] empty, it is
   a sequence of exactly N items. *)
Theorem C56_decode_partial : forall checks t n vs bs ws wss, wt (TSlice t) (VSeq vs) -> RoundTrips (TVec t) (VSeq vs) ->
  Appends (encode checks (TSlice t) (VSeq vs)) bs (Ok tt) ->
  Forall2 (fun w b => Yields (decode t) b w) ws wss -> length vs + length ws = n ->
  forall pre post, exists s,
    ss_decode (decode t) n (Input (pre ++ (bs ++ concat wss) ++ post) (length pre)) =
      (Input (pre ++ (bs ++ concat wss) ++ post) (length pre + length (bs ++ concat wss)), Ok s) /\
    ss_as_slice s = Done (map norm vs) /\ ss_capacity s = n.
Proof. exact @C56_lemma. Qed.
Print Assumptions C56_decode_partial.

(* longer sequences are refused from the length alone *)
Theorem C56_long : forall checks t n vs bs, wt (TSlice t) (VSeq vs) -> Appends (encode checks (TSlice t) (VSeq vs)) bs (Ok tt) ->
  n < length vs -> exists lb rest, bs = lb ++ rest /\ length lb = 2 /\ Refuses (ss_decode (decode t) n) lb (DLen (DLength n (length vs))).
Proof. exact @C56_long_lemma. Qed.
Print Assumptions C56_long.

(* a SizedSlice of any capacity encodes as its slice, which the two above are about *)
Theorem C56_encode : forall checks t n m s vs, Reachable n s -> ss_as_slice s = Done vs ->
  exists e, ss_encode (encode checks t) s = Done e /\ (forall o, e o = encode checks (TSlice t) (VSeq vs) o) /\
    (length vs <= m -> forall o, e o = encode checks (TSizedSlice t m) (VSeq vs) o).
Proof. exact @C56_encode_lemma. Qed.
Print Assumptions C56_encode.

(* a SizedSlice among other types is decoded as it is here *)
Theorem C56_decode_in_types : forall t n i i' r, ss_decode (decode t) n i = (i', r) ->
  match r with
  | Ok s => exists vs, ss_as_slice s = Done vs /\ decode (TSizedSlice t n) i = (i', Ok (VSeq vs))
  | Err e => decode (TSizedSlice t n) i = (i', Err e)
  | Panic p => decode (TSizedSlice t n) i = (i', Panic p)
  end.
Proof. exact @C56_decode_lemma. Qed.
Print Assumptions C56_decode_in_types.

(* so a shorter one makes it panic, take what comes after, or fail *)
Theorem C56_decode_refuted :
  (exists s bs i', Reachable 2 s /\ ss_as_slice s = Done [VInt 7] /\
     Appends (encode true (TSizedSlice (TInt U8) 2) (VSeq [VInt 7])) bs (Ok tt) /\
     ss_decode (decode (TInt U8)) 2 (input_new bs) = (i', Panic (PInput (StreamError 3 3 1)))) /\
  (exists bs i' s, Appends (encode true (TSizedSlice (TInt U8) 2) (VSeq [VInt 7])) bs (Ok tt) /\
     ss_decode (decode (TInt U8)) 2 (input_new (bs ++ [x2a; x2b])) = (i', Ok s) /\ input_position i' = length bs + 1 /\ ss_as_slice s = Done [VInt 7]) /\
  (exists bs i' e, Appends (encode true (TSizedSlice (TNonZero U8) 2) (VSeq [VInt 7])) bs (Ok tt) /\
     ss_decode (decode (TNonZero U8)) 2 (input_new (bs ++ [x00])) = (i', Err e)).
Proof. exact @C56_refutation. Qed.
Print Assumptions C56_decode_refuted.

Example C56_case : wt (TSlice sample_ty) (VSeq [sample_val; sample_val]) /\ RoundTrips (TVec sample_ty) (VSeq [sample_val; sample_val]) /\
  Appends (encode true (TSlice sample_ty) (VSeq [sample_val; sample_val])) (x02 :: x00 :: sample_bytes ++ sample_bytes) (Ok tt) /\
  Forall2 (fun w b => Yields (decode (TInt U8)) b w) [VInt 1; VInt 255] [[x01]; [xff]].
Proof.
  split; [exact (Forall_cons _ sample_wt (Forall_cons _ sample_wt (Forall_nil _)))|].
  split; [exact (Forall_cons _ sample_round_trips (Forall_cons _ sample_round_trips (Forall_nil _)))|].
  split; [apply (appends_by_run true 90); vm_compute; reflexivity|].
  constructor; [|constructor; [|constructor]].
  - apply (@RoundTrip.round_trip true (TInt U8) (VInt 1) [x01]); [apply ValueProofs.appends_wire; [|apply (appends_by_run true 9)] | |]; vm_compute; try reflexivity; intuition discriminate.
  - apply (@RoundTrip.round_trip true (TInt U8) (VInt 255) [xff]); [apply ValueProofs.appends_wire; [|apply (appends_by_run true 9)] | |]; vm_compute; try reflexivity; intuition discriminate.
Qed.

(* C57: any interleaving, from any state; [deque] is the double-ended queue. *)
Theorem C57_deque : forall n A (i : siter A), IterReachable n i ->
  exists rest, it_as_slice i = Done rest /\
    forall es, exists i', it_run es i = Done (fst (deque es rest), i') /\ it_as_slice i' = Done (snd (deque es rest)).
Proof. exact @C57_lemma. Qed.
Print Assumptions C57_deque.

(* each item comes out once: those taken at the front, those left, and those taken at the back, are the items *)
Theorem C57_once : forall n A (s : sslice A) items es rs i, Reachable n s -> ss_as_slice s = Done items ->
  it_run es (ss_into_iter s) = Done (rs, i) ->
  exists left, it_as_slice i = Done left /\ taken true es rs ++ left ++ rev (taken false es rs) = items.
Proof. exact @C57_once_lemma. Qed.
Print Assumptions C57_once.

Theorem C57_fused : forall n A (i : siter A) e r i', IterReachable n i -> it_step e i = Done (r, i') ->
  (r = None <-> it_as_slice i = Done []) /\ (r = None -> it_as_slice i' = Done []).
Proof. exact @C57_fused_lemma. Qed.
Print Assumptions C57_fused.

Example C57_case : IterReachable 4 (ss_into_iter (ss_from_array [1; 2; 3; 4])) /\
  it_run [Front; Back; Back; Front; Back; Front] (ss_into_iter (ss_from_array [1; 2; 3; 4])) =
    Done ([Some 1; Some 4; Some 3; Some 2; None; None], SIter [Some 1; Some 2; Some 3; Some 4] 2 0).
Proof. split; [constructor; constructor; reflexivity | reflexivity]. Qed.

(* C58: before the first call of next, nth returns the right item for 0 < k < len; and size_hint is right as long as only next_back is called. *)
Theorem C58_size_hint_partial : forall n A (s : sslice A) es rs i left, Reachable n s -> Forall (fun e => e = Back) es ->
  it_run es (ss_into_iter s) = Done (rs, i) -> it_as_slice i = Done left -> it_size_hint i = Done (length left).
Proof. exact @C58_size_hint_lemma. Qed.
Print Assumptions C58_size_hint_partial.

Theorem C58_nth_partial : forall n A (s : sslice A) items checks k, Reachable n s -> ss_as_slice s = Done items -> 1 <= k < length items ->
  exists x dropped i', nth_error items k = Some x /\ it_nth checks (ss_into_iter s) k = Done (Some x, dropped, i').
Proof. exact @C58_nth_lemma. Qed.
Print Assumptions C58_nth_partial.

(* What they do in general, after any calls of next and next_back of which [f] took an item from the front: size_hint is short by [f]. nth beyond the
   end takes nothing; nth(0) is a panic or undefined; any other returns item [k] of the items that there were at first (not of what is left, so it is
   the right one just if [f] is 0), releases the first k - 1 of what is left, and leaves what comes after the first k. *)
Theorem C58_exact_partial : forall n A (s : sslice A) items es rs i left checks k, Reachable n s -> ss_as_slice s = Done items ->
  it_run es (ss_into_iter s) = Done (rs, i) -> it_as_slice i = Done left ->
  let f := length (taken true es rs) in
  it_size_hint i = (if f <=? length left then Done (length left - f) else Undefined UUnderflow) /\
  (length left < k -> it_nth checks i k = Done (None, [], i)) /\
  (k = 0 -> f = 0 -> it_nth checks i k = if checks then Panics PArith else Undefined UOutOfBounds) /\
  (k = 0 -> 0 < f -> it_nth checks i k = Undefined URange) /\
  (forall x, 1 <= k <= length left -> nth_error items k = Some x ->
     exists i', it_nth checks i k = Done (Some x, firstn (k - 1) left, i') /\ it_as_slice i' = Done (skipn k left)).
Proof. exact @C58_exact_lemma. Qed.
Print Assumptions C58_exact_partial.

Theorem C58_nth_refuted :
  (* nth returns an item that next then returns again *)
  (exists (s : sslice nat) checks i' i'', Reachable 3 s /\ ss_as_slice s = Done [10; 11; 12] /\
     it_nth checks (ss_into_iter s) 1 = Done (Some 11, [], i') /\ it_next i' = Done (Some 11, i'')) /\
  (* after a call of next it returns the wrong item *)
  (exists (s : sslice nat) checks i dropped i', Reachable 3 s /\ ss_as_slice s = Done [10; 11; 12] /\
     it_next (ss_into_iter s) = Done (Some 10, i) /\ it_nth checks i 1 = Done (Some 11, dropped, i') /\ it_as_slice i = Done [11; 12]) /\
  (* beyond the end it consumes nothing *)
  (exists (s : sslice nat) checks, Reachable 3 s /\ ss_as_slice s = Done [10; 11; 12] /\
     it_nth checks (ss_into_iter s) 4 = Done (None, [], ss_into_iter s)) /\
  (* nth(0) is a panic or undefined, and so is nth(len) *)
  (forall n A (s : sslice A), Reachable n s ->
     it_nth true (ss_into_iter s) 0 = Panics PArith /\ it_nth false (ss_into_iter s) 0 = Undefined UOutOfBounds) /\
  (exists (s : sslice nat) checks, Reachable 4 s /\ ss_as_slice s = Done [10; 11; 12] /\
     it_nth checks (ss_into_iter s) 3 = Undefined UUninit) /\
  (* size_hint is wrong after a call of next, and undefined after more than half *)
  (exists (s : sslice nat) i, Reachable 3 s /\ ss_as_slice s = Done [10; 11; 12] /\
     it_next (ss_into_iter s) = Done (Some 10, i) /\ it_as_slice i = Done [11; 12] /\ it_size_hint i = Done 1) /\
  (exists (s : sslice nat) es rs i, Reachable 3 s /\ ss_as_slice s = Done [10; 11; 12] /\
     it_run es (ss_into_iter s) = Done (rs, i) /\ it_as_slice i = Done [12] /\ it_size_hint i = Undefined UUnderflow).
Proof. exact @C58_refutation. Qed.
Print Assumptions C58_nth_refuted.

Example C58_case : it_nth true (ss_into_iter (ss_from_array [10; 11; 12; 13])) 2 = Done (Some 12, [10], SIter [Some 10; Some 11; Some 12; Some 13] 2 2) /\
  it_run [Back; Back] (ss_into_iter (ss_from_array [10; 11; 12])) = Done ([Some 12; Some 11], SIter [Some 10; Some 11; Some 12] 0 1).
Proof. split; reflexivity. Qed.

(* C59: a clone is an iterator over the copies of what remains, from then on on its own: it has its own buffer. *)
Theorem C59_clone : forall n A (i : siter A) cl rest copies, IterReachable n i -> it_as_slice i = Done rest -> Clones cl rest copies ->
  exists j, it_clone cl i = Done j /\ it_as_slice j = Done copies /\
    forall es, exists j', it_run es j = Done (fst (deque es copies), j') /\ it_as_slice j' = Done (snd (deque es copies)).
Proof. exact @C59_lemma. Qed.
Print Assumptions C59_clone.

Example C59_case : exists i rs, it_run [Front; Back] (ss_into_iter (ss_from_array [1; 2; 3; 4])) = Done (rs, i) /\ IterReachable 4 i /\
  it_as_slice i = Done [2; 3] /\ it_clone Some i = Done (SIter [None; Some 2; Some 3; None] 1 2).
Proof.
  eexists. eexists. split; [reflexivity|]. split; [|split; reflexivity].
  eapply (@I_step 4 nat _ Back); [eapply (@I_step 4 nat (ss_into_iter (ss_from_array [1; 2; 3; 4])) Front); [apply I_into_iter, R_from_array; reflexivity | reflexivity] | reflexivity].
Qed.

(* C96 *)
Theorem C96_slice_lengths : forall n A (s : sslice A) items, Reachable n s -> ss_as_slice s = Done items ->
  ss_length s = length items /\ ss_capacity s = n /\ (ss_is_empty s = true <-> items = []) /\ (ss_is_full s = true <-> length items = n).
Proof. exact @C96_slice_lemma. Qed.
Print Assumptions C96_slice_lengths.

Example C96_slice_case : Reachable 2 (ss_from_array [7; 8]) /\ ss_is_full (ss_from_array [7; 8]) = true /\ ss_is_empty (ss_from_array [7; 8]) = false /\
  Reachable 2 (ss_default nat 2) /\ ss_is_full (ss_default nat 2) = false /\ ss_is_empty (ss_default nat 2) = true.
Proof. split; [apply (@R_from_array 2 nat [7; 8]); reflexivity|]. split; [reflexivity|]. split; [reflexivity|]. split; [constructor|]. split; reflexivity. Qed.

(* C97: an assignment through an index replaces that item and no other, and panics exactly behind the last item *)
Theorem C97_assign : forall n A (s : sslice A) items k x, Reachable n s -> ss_as_slice s = Done items ->
  match nth_error items k with
  | Some _ => exists s', ss_index_set s k x = Done s' /\ ss_as_slice s' = Done (firstn k items ++ x :: skipn (S k) items) /\ ss_capacity s' = n
  | None => ss_index_set s k x = Panics PIndex
  end.
Proof. exact @C97_set_lemma. Qed.
Print Assumptions C97_assign.

(* copy_from_slice replaces everything; too much data is C54 *)
Theorem C97_copy_partial : forall n A (s : sslice A) data, Reachable n s -> length data <= n ->
  exists s', ss_copy_from_slice s data = Done s' /\ ss_as_slice s' = Done data /\ ss_capacity s' = n.
Proof. exact @C97_copy_lemma. Qed.
Print Assumptions C97_copy_partial.

Theorem C97_copy_refuted : exists s data, @Reachable 1 nat s /\ ss_copy_from_slice s data = Undefined UOutOfBounds.
Proof. exact C97_refutation. Qed.
Print Assumptions C97_copy_refuted.

(* an array keeps its items, and the default has none *)
Theorem C97_make : forall A n,
  (forall items : list A, ss_as_slice (ss_from_array items) = Done items /\ ss_capacity (ss_from_array items) = length items) /\
  ss_as_slice (ss_default A n) = Done [] /\ ss_capacity (ss_default A n) = n.
Proof. exact @C97_make_lemma. Qed.
Print Assumptions C97_make.

Example C97_case : exists s s', Reachable 3 s /\ ss_as_slice s = Done [7; 8] /\ ss_index_set s 0 9 = Done s' /\ ss_as_slice s' = Done [9; 8] /\
  ss_index_set s 2 9 = Panics PIndex.
Proof.
  exists (SSlice [Some 7; Some 8; None] 2). eexists. split; [apply (@R_from_iter 3 _ _ list_next [7; 8] _ []); reflexivity|]. repeat split.
Qed.
