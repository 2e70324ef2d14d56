(* C126: RefCells, Mutexes and RwLocks after their values have been encoded. *)
From Coq Require Import Lia.
From Verif Require Import Base Streams Types Encode Guards SpecLazy SpecGuards GuardProofs.

(* C126, in full: a call that returns or panics leaves every RefCell, Mutex and RwLock as it was.
   Missing: a Mutex gets poisoned if the call panics while it encodes the contents, as it does if the output is too small for them.
   Proved: when a call ends, whether it returns or panics, the contents of each cell, its borrows and its readers are as before, and it is locked if it was
   before; a RefCell or RwLock is as before in all; and a Mutex gets poisoned only if the call panics and the Mutex is part of the value. The outcome is that
   of encoding the value with the contents of its cells, poisoned or not. *)
Theorem C126_left_as_found_partial : forall checks t v g o g' o' r, guard_encode checks t v g o = (g', o', Ends r) ->
  encode checks t (shown g t v) o = (o', r) /\ (forall a, Unpoisoned (g' a) = Unpoisoned (g a)) /\
  forall a, g_poison (g' a) = g_poison (g a) \/ ((exists p, r = Panic p) /\ LockIn false g a t v /\ g_poison (g' a) = true).
Proof. exact @C126_lemma. Qed.
Print Assumptions C126_left_as_found_partial.

(* A Mutex is poisoned after the call exactly if it was before or the call panicked. *)
Theorem C126_mutex_exact : forall checks t p a g o g' o' r, guard_encode checks (TLock Mutex t) (VLock p (VInt a)) g o = (g', o', Ends r) ->
  g_poison (g' a) = true <-> g_poison (g a) = true \/ exists p, r = Panic p.
Proof. exact @C126_mutex_lemma. Qed.
Print Assumptions C126_mutex_exact.

(* A call waits only for a lock that is a part of the value and was held before the call, if no cell leads to itself. *)
Theorem C126_waits : forall checks t v g o g' o', (forall a u, ~ LockIn true g a u (g_val (g a))) -> guard_encode checks t v g o = (g', o', Waits) ->
  exists a, LockIn true g a t v /\ g_locked (g a) = true.
Proof. exact @C126_waits_lemma. Qed.
Print Assumptions C126_waits.

(* a RefCell and an RwLock with one reader each, and a Mutex<u16>; all contents are 5 *)
Definition C126_ty := TTuple [TRefCell (TInt U8); TLock RwLock (TInt U8); TLock Mutex (TInt U16)].
Definition C126_val := VTuple [VRefCell false (VInt 0); VLock false (VInt 1); VLock false (VInt 2)].
Definition C126_cells : cells := fun a => Guarded (VInt 5) false 1 false false.

(* The output has room for three octets: the Mutex gets poisoned, which it was not. *)
Theorem C126_left_as_found_refuted : forall checks, exists g' o' p,
  guard_encode checks C126_ty C126_val C126_cells (output_new (repeat x00 3)) = (g', o', Ends (Panic p)) /\
  output_as_slice o' = [x05; x05] /\ g_poison (C126_cells 2%Z) = false /\ g_poison (g' 2%Z) = true.
Proof. intros checks. eexists _, _, _. split; [reflexivity|]. split; [reflexivity|]. split; reflexivity. Qed.
Print Assumptions C126_left_as_found_refuted.

(* With four octets all is as before; and nothing leads to itself. A RefCell that is mutably borrowed, and a Mutex that is locked: *)
Example C126_case :
  (exists g', guard_encode true C126_ty C126_val C126_cells (output_new (repeat x00 4)) = (g', Output [x05; x05; x05; x00] 4, Ends (Ok tt)) /\
    map g' [0; 1; 2]%Z = map C126_cells [0; 1; 2]%Z) /\
  (forall a u, ~ LockIn true C126_cells a u (g_val (C126_cells a))) /\
  snd (guard_encode true C126_ty C126_val (fun _ => Guarded (VInt 5) true 0 false false) (output_new (repeat x00 4))) = Ends (Err EBadBorrow) /\
  snd (guard_encode true C126_ty C126_val (fun _ => Guarded (VInt 5) false 0 true false) (output_new (repeat x00 4))) = Waits.
Proof.
  split; [eexists; split; reflexivity|]. split.
  - intros a u. cbn. destruct u; try exact (fun h => h). all: try (destruct w; exact (fun h => h)). all: try (destruct l; exact (fun h => h)).
  - split; reflexivity.
Qed.
