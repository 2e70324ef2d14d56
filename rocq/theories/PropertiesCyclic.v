(* C128: encoding a value that contains itself. *)
From Coq Require Import Lia.
From Verif Require Import Base Streams Types Encode Guards Recursive Cyclic SpecCyclic CyclicProofs.

(* C128, in full: every call of encode comes to an end, also for a value that contains itself.
   Missing: a value that contains itself where nothing is written before it, as a HashMap with keys of no octets does, which writes no length.
   Proved: if every cycle of the definitions writes an octet, the calls are nested no deeper than the room in the output allows, whatever is in the cells. (What
   becomes of a value that contains itself, C128_case shows: it fills the output, and the call panics.) *)
Theorem C128_ends_partial : forall checks defs rank top k v g o, Writing defs rank top -> output_position o <= output_capacity o ->
  Enough checks defs (output_remaining o * (top + 1) + rank k + 1) k v g o.
Proof. exact C128_lemma. Qed.
Print Assumptions C128_ends_partial.

(* The encoders of the definitions do what encode does for the types cut off at the depth. *)
Theorem C128_model : forall checks defs n k v g o, output_position o <= output_capacity o ->
  nested checks defs (fun _ => guard_encode checks TInfallible) n k v g o = guard_encode checks (unroll defs n k) v g o.
Proof. exact C128_model_lemma. Qed.
Print Assumptions C128_model.

(* A map that has been inserted into itself: no depth is enough, whatever the output. *)
Theorem C128_ends_refuted : forall checks o n, ~ Enough checks map_defs n 0 self_map self_cells o.
Proof. exact C128_refuted_lemma. Qed.
Print Assumptions C128_ends_refuted.

(* A node that is followed by itself fills an output of five octets, then the call panics. One that is followed by nothing takes two octets. *)
Definition C128_node := VTuple [VInt 7; VTuple [VRefCell false (VInt 0)]].
Definition C128_cells (x : val) : cells := fun _ => Guarded x false 0 false false.
Example C128_case :
  Writing node_defs (fun k => match k with 0 | 1 => 0 | _ => 1 end) 1 /\
  (let '(_, o, x) := nested true node_defs (fun _ _ => gdo eok) 12 2 (VTuple [C128_node]) (C128_cells (VSome (VWrap C128_node))) (output_new (repeat x00 5)) in
   (output_as_slice o, x)) = ([x07; x01; x07; x01; x07], Ends (Panic (POutput (StreamError 5 5 1)))) /\
  (let '(_, o, x) := nested true node_defs (fun _ _ => gdo eok) 12 2 (VTuple [C128_node]) (C128_cells VNone) (output_new (repeat x00 5)) in
   (output_as_slice o, x)) = ([x07; x00], Ends (Ok tt)).
Proof.
  split; [|split; reflexivity]. intros [|[|k]]; (split; [lia|]); cbn; try tauto. intros j [<-|[]]. lia.
Qed.
