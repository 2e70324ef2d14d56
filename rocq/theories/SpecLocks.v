(* Vocabulary of C127. Definitions only. *)
From Verif Require Import Base Streams Types Encode Guards SpecLazy SpecGuards Locks.
Set Implicit Arguments.

(* one call: the type, the value and the output *)
Definition call := (ty * val * output)%type.
(* the threads as they begin, with no Mutex locked *)
Definition begin (checks : bool) (cs : list call) : threads :=
  Threads (fun _ => false) (map (fun c => (snd c, lock_encode checks (fst (fst c)) (snd (fst c)))) cs).

(* [n] steps *)
Inductive KRuns (g : cells) : nat -> threads -> threads -> Prop :=
| KRuns_end s : KRuns g 0 s s
| KRuns_step n s s1 s2 : kstep g s s1 -> KRuns g n s1 s2 -> KRuns g (Datatypes.S n) s s2.

(* No Mutex leads to itself: they can be numbered so that those in the contents of another have lower numbers. *)
Definition Acyclic (g : cells) : Prop := exists rank : Z -> nat, forall a c t, LockIn false g c t (g_val (g a)) -> rank c < rank a.

(* the call has ended as it would have if it had been the only one: as encoding the value with the contents of its cells *)
Definition Ended (checks : bool) (g : cells) (c : call) (x : output * task) : Prop :=
  let '(t, v, o) := c in exists o' r, x = (o', KDone r) /\ encode checks t (shown g t v) o = (o', r).
