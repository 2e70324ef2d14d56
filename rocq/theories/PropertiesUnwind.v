(* C107: panics of the user's code. *)
From Coq Require Import Permutation.
From Verif Require Import Base Streams Types Decode Mem SizedSlice SizedIter Owned Unwind SpecUnwind UnwindProofs.

(* C107: without `nth`, in any program and whatever panics at whichever call, every item that was made has been released or handed out, or is in one
   variable, or is lost: one of them, once. *)
Theorem C107_once_partial : forall A checks size (cs : list (ucall A)) es vars, Forall (fun c => uses_nth c = false) cs ->
  ucall_run checks size cs [] = Done (es, vars) ->
  exists itemss lost, Forall2 Holds vars itemss /\ Permutation (gone es ++ concat itemss ++ lost) (made es).
Proof. exact C107_once_lemma. Qed.
Print Assumptions C107_once_partial.

(* only a call that panics, a `decode`, and the end of a variable lose any *)
Theorem C107_kept_partial : forall A checks size (cs : list (ucall A)) es vars c st, Forall (fun c => uses_nth c = false) (cs ++ [c]) ->
  ucall_run checks size cs [] = Done (es, vars) -> ucall_step checks size c vars = Done st -> us_panicked st = false -> loses c = false ->
  exists itemss itemss', Forall2 Holds vars itemss /\ Forall2 Holds (us_vars st) itemss' /\
    Permutation (gone (us_events st) ++ concat itemss') (made (us_events st) ++ concat itemss).
Proof. exact C107_kept_lemma. Qed.
Print Assumptions C107_kept_partial.

(* and nothing is undefined (but for `into_vec` of an empty slice, C51) *)
Theorem C107_defined_partial : forall A checks size (cs : list (ucall A)), Forall (fun c => uses_nth c = false /\ uses_into_vec c = false) cs ->
  exists es vars, ucall_run checks size cs [] = Done (es, vars).
Proof. exact C107_defined_lemma. Qed.
Print Assumptions C107_defined_partial.

(* a call that panics leaves all variables as they were: an iterator too whose `nth` panics *)
Theorem C107_unchanged : forall A checks size (cs : list (ucall A)) es vars c st, Forall (fun c => uses_nth c = false) cs ->
  ucall_run checks size cs [] = Done (es, vars) ->
  ucall_step checks size c vars = Done st -> us_panicked st = true -> us_vars st = vars.
Proof. exact C107_unchanged_lemma. Qed.
Print Assumptions C107_unchanged.

(* where nothing panics, the operations are those of the other properties *)
Theorem C107_same : forall A,
  (forall (cl : A -> option A) k buf data, snd (clone_into_log (fun _ => cl) k buf data) = clone_into cl buf data) /\
  (forall (cl : A -> option A) c src dst i n, snd (clone_loop_log (fun _ => cl) c src dst i n) = clone_loop cl src dst i n) /\
  (forall (next : nat -> answer A) n k, (forall k, next k <> Unwinds) ->
     snd (fill_log next k n) = Done (fst (fill (fun k => (match next k with Gives x => Some x | _ => None end, S k)) n k))) /\
  (forall (f : D A) n inp, snd (ss_decode_log f n inp) = ss_decode f n inp) /\
  (forall checks (i : siter A) k, it_nth_log checks (fun _ _ => false) i k =
     match it_nth checks i k with Done (r, d, i') => Done (d, Some r, i') | Panics _ => Done ([], None, i) | Undefined u => Undefined u end).
Proof. exact C107_same_lemma. Qed.
Print Assumptions C107_same.

(* the user's code is called in order, once for each item, up to the first call that panics; what these calls made is what the new variable holds *)
Theorem C107_order : forall A checks size (cs : list (ucall A)) es vars, Forall (fun c => uses_nth c = false) cs ->
  ucall_run checks size cs [] = Done (es, vars) ->
  (forall cl n data, length data <= n -> exists copies ok, Cloned cl 0 data copies ok /\ MakesThese checks size (KNew cl n data) vars copies ok) /\
  (forall next n, exists items ok, Collected next 0 n items ok /\ MakesThese checks size (KFromIter next n) vars items ok) /\
  (forall j cl h items, nth_error vars j = Some h -> match h with HSlice _ | HIter _ => True | _ => False end -> Holds h items ->
     exists copies ok, Cloned cl 0 items copies ok /\ MakesThese checks size (KClone j cl) vars copies ok).
Proof. exact C107_order_lemma. Qed.
Print Assumptions C107_order.

(* `decode` makes N items, or those before the first that fails *)
Theorem C107_decode_order : forall A checks size (vars : list (holder A)) f n inp, exists items st, ucall_step checks size (KDecode f n inp) vars = Done st /\
  us_events st = map Made items /\
  match dec_usize inp with
  | (inp', Ok len) => if (Z.of_nat n <? len)%Z then items = [] else Read f n inp' items
  | _ => items = []
  end.
Proof. exact C107_decode_lemma. Qed.
Print Assumptions C107_decode_order.

(* `nth` calls the destructors of the items [d] that it skips (C58) in order, up to the first that panics *)
Theorem C107_nth_order : forall A checks size (vars : list (holder A)) j i k bad r d i', nth_error vars j = Some (HIter i) -> it_nth checks i k = Done (r, d, i') ->
  exists ended ok, Released bad 0 d ended ok /\
    ucall_step checks size (KNth j k bad) vars = Done (
      if ok then UStep (map Ended ended ++ match r with Some x => [Moved x] | None => [] end) (set_at vars j (HIter i')) false
      else UStep (map Ended ended) vars true).
Proof. exact C107_nth_lemma. Qed.
Print Assumptions C107_nth_order.

(* but an item of which the destructor panics in `nth` is handed out again; and what was made before a panic is not released *)
Theorem C107_refuted :
  (exists (cs : list (ucall nat)) es vars a b c, ucall_run true 8 cs [] = Done (es, vars) /\ made es = [1; 2; 3] /\ es = a ++ Ended 1 :: b ++ Moved 1 :: c) /\
  (exists (c : ucall nat) st, ucall_step true 8 c [] = Done st /\ us_panicked st = true /\ us_events st = [Made 5; Made 6] /\ us_vars st = []).
Proof. exact C107_refutation. Qed.
Print Assumptions C107_refuted.

(* a slice is collected, a clone of it panics at the third item, and then it is iterated over *)
Example C107_case : ucall_run true 8 [KFromIter (fun k => nth k [Gives 1; Gives 2; Gives 3] Stops) 4; KClone 0 (fun k x => if k <? 2 then Some (x + 10) else None);
    KIntoIter 0; KNext 0 Back; KNext 0 Front] [] =
  Done ([Made 1; Made 2; Made 3; Made 11; Made 12; Moved 3; Moved 1], [HIter (SIter [Some 1; Some 2; Some 3; None] 1 1)]).
Proof. reflexivity. Qed.

(* `clone` panics at the second call; `next` at the third; and `nth(4)` on six items, where the second destructor panics *)
Example C107_order_case :
  Cloned (fun k x => if k =? 1 then None else Some (x + 10)) 0 [5; 6; 7] [15] false /\
  Collected (fun k => nth k [Gives 1; Gives 2] Unwinds) 0 4 [1; 2] false /\ Released (fun k _ => k =? 1) 0 [1; 2; 3] [1; 2] false /\
  it_nth true (SIter (map Some [1; 2; 3; 4; 5; 6]) 0 6) 4 = Done (Some 5, [1; 2; 3], SIter (map Some [1; 2; 3; 4; 5; 6]) 4 2).
Proof. repeat split; repeat (constructor || reflexivity). Qed.
