(* C92: definitions that mention none are what they say. *)
From Verif Require Import Base Types TypesFacts Recursive SpecPlain.
Set Implicit Arguments.

Lemma inst_plain env t : inst env (plain_type t) = t.
Proof.
  induction t using ty_ind_strong; cbn [plain_type inst]; try congruence.
  f_equal. rewrite map_map. induction H as [|t ts Ht H IH]; [reflexivity|]. cbn [map]. rewrite Ht, IH. reflexivity.
Qed.
Lemma map_plain env ts : map (inst env) (map plain_type ts) = ts.
Proof. rewrite map_map. induction ts as [|t ts IH]; [reflexivity|]. cbn [map]. rewrite inst_plain, IH. reflexivity. Qed.

Lemma C92_plain_lemma defs n k :
  (forall ts, defs k = RStruct (map plain_type ts) -> unroll defs (S n) k = TStruct ts) /\
  (forall r vs, defs k = REnum r (map (fun x => (fst x, map plain_type (snd x))) vs) -> unroll defs (S n) k = TEnum r vs).
Proof.
  split; cbn [unroll].
  - intros ts ->. cbn [inst_def]. now rewrite map_plain.
  - intros r vs ->. cbn [inst_def]. f_equal. rewrite map_map. induction vs as [|[d ts] vs IH]; [reflexivity|]. cbn [map fst snd] in *. rewrite map_plain. f_equal. exact IH.
Qed.
