(* Vocabulary of the properties about formatting. Definitions only. *)
From Verif Require Import Base.
Set Implicit Arguments.

(* The texts one after another, with [sep] between them. *)
Fixpoint joined (sep : list byte) (l : list (list byte)) : list byte :=
  match l with
  | [] => []
  | [x] => x
  | x :: r => x ++ sep ++ joined sep r
  end.

(* The text is the number in decimal, without zeros in front. *)
Definition Decimal (n : Z) (s : list byte) : Prop :=
  Forall (fun c => (48 <= b2z c <= 57)%Z) s /\ fold_left (fun v c => (10 * v + (b2z c - 48))%Z) s 0%Z = n /\
  (s = [x30] \/ exists c r, s = c :: r /\ c <> x30).

(* [t] is [s] with [pre] before each of its lines. *)
Definition Indented (pre s t : list byte) : Prop :=
  exists lines, lines <> [] /\ Forall (fun l => ~ In x0a l) lines /\ s = joined [x0a] lines /\ t = joined [x0a] (map (app pre) lines).

(* The digit that a char stands for, in `x` and in `X`. *)
Definition digit_value (upper : bool) (c : byte) : option Z :=
  let z := b2z c in
  if ((48 <=? z) && (z <=? 57))%Z then Some (z - 48)%Z
  else if upper then (if ((65 <=? z) && (z <=? 70))%Z then Some (z - 55)%Z else None)
  else if ((97 <=? z) && (z <=? 102))%Z then Some (z - 87)%Z else None.
(* The text is the number, with digits below [base] and without zeros in front. *)
Definition Numeral (base : Z) (upper : bool) (n : Z) (s : list byte) : Prop :=
  (exists ds, map (digit_value upper) s = map Some ds /\ Forall (fun d => (0 <= d < base)%Z) ds /\ fold_left (fun v d => (base * v + d)%Z) ds 0%Z = n) /\
  (s = [x30] \/ exists c r, s = c :: r /\ c <> x30).
