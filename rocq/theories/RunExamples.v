(* Programs to run the text of the containers in: definitions only. *)
From Coq Require Import List.
From Verif Require Import Base Streams Utf8 Types Encode Decode Mem SizedSlice SizedStr SourceNames SourceSyntax SourceMeaning SourceMemory SpecMemory.
Import ListNotations.

(* octets as items, N = [n], and an iterator over chars that counts down *)
(* (none of the program: an instantiation) *)
Definition sample_context (n : nat) (checks : bool) : mctx byte nat :=
  MCtx byte nat id_Slot n checks 100 Some byte_eqb byte_cmp (fun a b => Some (byte_cmp a b)) (fun b => [HWrite [b]])
    (fun st => match st with O => (None, O) | Datatypes.S st' => (Some (MChar (64 + Z.of_nat st)), st') end)
    (fun k => z2b (Z.of_nat k)) from_utf8 encode_utf8 str_hash is_char_boundary 1 true 4
    (fun v bs pos => let (o, r) := encode checks (TInt U16) v (Output bs pos) in (o_buf o, o_pos o, r))
    (fun bs pos => let (i, r) := decode (TInt U16) (Input bs pos) in (i_pos i, r))
    (fun _ _ _ m => lost m).
