(* C66: encoding while other threads run. *)
From Coq Require Import Lia.
From Verif Require Import Base Streams Types Encode Spec Shared SpecShared SharedProofs.

(* C66: for each execution in which the call returns, with any stores by other threads in between, there is a [w] such that all is as if [w] had been
   encoded, where [w] has in place of each atomic a value that it held during the call, and of each lock likewise. *)
Theorem C66_concurrent_updates : forall checks t v ok mem o mems mem' o' r,
  SharedOf ok t v -> (forall m a, In m mems -> ok a (m a)) -> output_position o <= output_capacity o ->
  Runs (mem, o, shared_encode checks t v) mems (mem', o', PDone r) ->
  exists w, Snapshot (Held mems) t v w /\ wt t w /\ encode checks t w o = (o', r) /\
    (r = Ok tt -> exists bs, output_as_slice o' = output_as_slice o ++ bs /\ Wire checks t w bs).
Proof. exact @C66_full_lemma. Qed.
Print Assumptions C66_concurrent_updates.

(* The call returns if the encoder keeps being scheduled: it never waits for a store. *)
Theorem C66_returns : forall checks t v mem o, exists mems mem' o' r,
  Runs (mem, o, shared_encode checks t v) mems (mem', o', PDone r).
Proof. exact @C66_progress_lemma. Qed.
Print Assumptions C66_returns.

(* a structure of two references to one atomic and a Mutex; 5 is stored to the atomic after it was encoded for the first time, 9 to the Mutex *)
Definition C66_ty := TTuple [TWrap WRef (TWrap WAtomic (TInt U8)); TWrap WRef (TWrap WAtomic (TInt U8)); TLock Mutex (TInt U8)].
Definition C66_val := VTuple [VWrap (VWrap (VInt 0)); VWrap (VWrap (VInt 0)); VLock false (VInt 1)].
Definition C66_ok (a : Z) (x : val) : Prop := exists z, (0 <= z <= 255)%Z /\ x = VInt z.
Definition C66_mem : memory := fun _ => VInt 3.

Example C66_case : SharedOf C66_ok C66_ty C66_val /\
  exists mems mem', (forall m a, In m mems -> C66_ok a (m a)) /\
    Runs (C66_mem, output_new (repeat x00 4), shared_encode true C66_ty C66_val) mems (mem', Output [x03; x05; x09; x00] 3, PDone (Ok tt)).
Proof.
  split.
  - intros w (ws & Hw & ->). destruct ws as [|a [|b [|c ws]]]; cbn in Hw; try tauto; try (destruct Hw as (_ & Hw); tauto).
    destruct Hw as ((a1 & (a2 & (za & Ha & ->) & ->) & ->) & (b1 & (b2 & (zb & Hb & ->) & ->) & ->) & (c1 & c2 & (zc & Hc & ->) & -> & ->) & ->).
    cbn. unfold in_ity. cbn. lia.
  - apply (play_runs C66_ok [None; None; Some (0%Z, VInt 5); None; None; Some (1%Z, VInt 9); None; None; None]).
    + intros a. exists 3%Z. split; [lia | reflexivity].
    + repeat constructor; eexists; (split; [|reflexivity]); lia.
    + vm_compute. reflexivity.
Qed.
