(* Vocabulary of C108: when data of one form can be read in another. Definitions only. *)
From Verif Require Import Base Types SpecForm.
Set Implicit Arguments.

(* what a number selects *)
Fixpoint select {A : Type} (d : Z) (l : list (Z * A)) : option A :=
  match l with
  | [] => None
  | (d', x) :: l' => if (d =? d')%Z then Some x else select d l'
  end.

(* [Known f g]: all that can be said in the form [f] can be said in [g]. The second may have more choices, and list them in another order, its texts may be
   longer, and its numbers may also be zero. *)
Fixpoint Known (f g : form) {struct f} : Prop :=
  match f, g with
  | FLeaf t, FLeaf t' =>
    t' = t \/ (exists i, t = TNonZero i /\ t' = TInt i) \/ (exists m n, t = TSizedStr m /\ t' = TSizedStr n /\ m <= n)
  | FSign a b, FSign a' b' => all2 (map Known a) a' /\ all2 (map Known b) b'
  | FMany a, FMany a' => all2 (map Known a) a'
  | FText, FText | FNullFree, FNullFree => True
  | FChoice r vs, FChoice r' vs' =>
    r' = r /\
    fold_right and True (map (fun x => select (fst x) vs = Some (snd x) ->
      match select (fst x) vs' with Some gs => all2 (map Known (snd x)) gs | None => False end) vs)
  | _, _ => False
  end.

(* [Understands t' t]: a program with [t'] in place of [t] can read what was meant for [t] (if [reading]), or write what it wrote. *)
Definition Understands (reading : bool) (t' t : ty) : Prop := all2 (map Known (forms reading t)) (forms reading t').

(* Only the first [n] pieces of it. *)
Definition UnderstandsHead (n : nat) (t' t : ty) : Prop := all2 (map Known (firstn n (forms true t))) (forms true t').
