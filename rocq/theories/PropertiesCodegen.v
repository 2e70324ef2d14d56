(* C90, C91: the code that the derive macros generate. *)
From Coq Require Import String.
From Verif Require Import Base Streams Types Encode Decode Sized Macro ErrorText RustSyntax Codegen SpecCodegen CodegenProofs CodegenExamples.
Local Open Scope list_scope.

(* C90: whatever the names of the fields and variants, and whatever constants are in scope: if the generated code compiles, it does what the
   other theorems take it to do, on every value, output and input; [encode], [decode] and [max_size] of the derived type are those of the
   rest of the model. *)
Theorem C90_encode : forall consts attrs def i t ch v o r, names_distinct def -> derive_code TrEncode attrs def = Some i ->
  derive TrEncode (Item attrs (strip def)) = Some t -> wt t v -> run_encode consts def (encode ch) i v o = Some r -> r = encode ch t v o.
Proof. exact encode_if_compiles. Qed.
Print Assumptions C90_encode.

Theorem C90_decode : forall consts attrs def i t s r, names_distinct def -> derive_code TrDecode attrs def = Some i ->
  derive TrDecode (Item attrs (strip def)) = Some t -> run_decode consts def decode i s = Some r -> r = decode t s.
Proof. exact decode_if_compiles. Qed.
Print Assumptions C90_decode.

Theorem C90_size : forall consts attrs def i t size_of n, derive_code TrSizedEncode attrs def = Some i ->
  derive TrSizedEncode (Item attrs (strip def)) = Some t -> run_const consts size_of i = Some n -> max_size size_of t = Some n.
Proof. exact size_if_compiles. Qed.
Print Assumptions C90_size.

(* The macro makes code for a definition exactly if it makes a type of it. *)
Theorem C90_same_definitions : forall tr attrs def, derive_code tr attrs def = None <-> derive tr (Item attrs (strip def)) = None.
Proof. exact same_panics_lemma. Qed.
Print Assumptions C90_same_definitions.

(* fields called `stream`, `value1`, `this` and `value`, and three kinds of variants *)
Example C90_case :
  names_distinct sample_enum /\ names_distinct sample_struct /\
  (exists i, derive_code TrEncode sample_attrs sample_enum = Some i /\
     (exists o', run_encode [] sample_enum (encode true) i (VEnum 1 [VInt 513; VSeq [VBool true]]) (output_new (repeat x00 8)) = Some (o', Ok tt) /\
        output_as_slice o' = [x45; x01; x02; x01; x00; x01])) /\
  (exists i, derive_code TrDecode sample_attrs sample_enum = Some i /\
     (exists s', run_decode [txt "MAX"]%string sample_enum decode i (input_new [x46; x09; x00]) = Some (s', Ok (VEnum 2 [VInt 9]))) /\
     (exists s', run_decode [txt "MAX"]%string sample_enum decode i (input_new [x47; x09; x00]) = Some (s', Err (DUnassigned U8 71)))) /\
  (exists i, derive_code TrDecode [] sample_struct = Some i /\
     (exists s', run_decode [] sample_struct decode i (input_new [x01; x02; x01; x07]) = Some (s', Ok (VTuple [VInt 513; VBool true; VInt 7])))) /\
  (exists i, derive_code TrSizedEncode [] sample_struct = Some i /\ run_const [] (fun _ => 0%N) i = Some 4%N).
Proof. exact C90_case_lemma. Qed.

(* C91: the generated code compiles, unless a constant in scope has a name that the code gives to one of its variables or, for `Encode` and
   `Decode`, a variant is called `Error`. *)
Theorem C91_encode_partial : forall consts attrs def i t ch v o, names_distinct def -> no_clash consts def -> derive_code TrEncode attrs def = Some i ->
  derive TrEncode (Item attrs (strip def)) = Some t -> wt t v -> run_encode consts def (encode ch) i v o = Some (encode ch t v o).
Proof. exact encode_ok. Qed.
Print Assumptions C91_encode_partial.

Theorem C91_decode_partial : forall consts attrs def i t s, names_distinct def -> no_clash consts def -> derive_code TrDecode attrs def = Some i ->
  derive TrDecode (Item attrs (strip def)) = Some t -> run_decode consts def decode i s = Some (decode t s).
Proof. exact decode_ok. Qed.
Print Assumptions C91_decode_partial.

Theorem C91_size_partial : forall consts attrs def i t size_of, (forall x, In x consts -> ~ own_name x) -> derive_code TrSizedEncode attrs def = Some i ->
  derive TrSizedEncode (Item attrs (strip def)) = Some t -> run_const consts size_of i = max_size size_of t.
Proof. exact size_ok. Qed.
Print Assumptions C91_size_partial.

(* enum { Ok, Error }; struct S<const value0: usize>(u8), struct S<const stream: usize>(u8) *)
Theorem C91_names_refuted :
  (names_distinct error_enum /\
   (exists t, derive TrEncode (Item sample_attrs (strip error_enum)) = Some t /\ wt t (VEnum 0 [])) /\
   (forall i ch v o, derive_code TrEncode sample_attrs error_enum = Some i -> run_encode [] error_enum (encode ch) i v o = None) /\
   (forall i s, derive_code TrDecode sample_attrs error_enum = Some i -> run_decode [] error_enum decode i s = None)) /\
  (names_distinct tuple_struct /\ wt (TStruct [TInt U8]) (VTuple [VInt 7]) /\
   (forall i ch o, derive_code TrEncode [] tuple_struct = Some i -> run_encode [txt "value0"]%string tuple_struct (encode ch) i (VTuple [VInt 7]) o = None) /\
   (forall i s, derive_code TrDecode [] tuple_struct = Some i -> run_decode [txt "stream"]%string tuple_struct decode i s = None)).
Proof. exact C91_refutation. Qed.
Print Assumptions C91_names_refuted.

Example C91_case : names_distinct sample_enum /\ no_clash [txt "MAX"; txt "N"]%string sample_enum.
Proof. split; [exact sample_enum_names | exact sample_enum_clear]. Qed.
