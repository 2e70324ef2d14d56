(* Definitions for the examples beside C90 and C91, and the witnesses against C91. *)
From Coq Require Import Lia String.
From Verif Require Import Base Streams Types Traits Encode Decode Sized Macro ErrorText RustSyntax Codegen SpecCodegen CodegenProofs.
Local Open Scope list_scope.
Local Open Scope Z_scope.

(* struct { stream: u16, value1: bool, this: u8 } *)
Definition sample_struct : ndata :=
  NStruct (FNamed [(txt "stream", TInt U16); (txt "value1", TBool); (txt "this", TInt U8)]%string).
(* enum { A, B(u16, Vec<bool>) = 0x45, C { value: u8 } } *)
Definition sample_enum : ndata :=
  NEnum [NVariant (txt "A") None FUnit; NVariant (txt "B") (Some (XInt 69)) (FUnnamed [TInt U16; TVec TBool]);
         NVariant (txt "C") None (FNamed [(txt "value", TInt U8)])]%string.
Definition sample_attrs : list attr := [ARepr [HInt U8]].

(* enum { Ok, Error } *)
Definition error_enum : ndata := NEnum [NVariant (txt "Ok") None FUnit; NVariant (txt "Error") None FUnit]%string.
(* struct S<const value0: usize>(u8); the constant is in scope in the implementation *)
Definition tuple_struct : ndata := NStruct (FUnnamed [TInt U8]).

Lemma sample_struct_names : names_distinct sample_struct.
Proof. cbn. repeat constructor; cbn; intuition discriminate. Qed.
Lemma sample_enum_names : names_distinct sample_enum.
Proof. cbn. split; repeat constructor; cbn; intuition discriminate. Qed.
Lemma sample_enum_clear : no_clash [txt "MAX"; txt "N"]%string sample_enum.
Proof.
  split; [|cbn; intuition discriminate]. intros x [<-|[<-|[]]] [H|[k H]]; try discriminate; cbn in H; intuition discriminate.
Qed.

Lemma C91_refutation :
  (names_distinct error_enum /\
   (exists t, derive TrEncode (Item sample_attrs (strip error_enum)) = Some t /\ wt t (VEnum 0 [])) /\
   (forall i ch v o, derive_code TrEncode sample_attrs error_enum = Some i -> run_encode [] error_enum (encode ch) i v o = None) /\
   (forall i s, derive_code TrDecode sample_attrs error_enum = Some i -> run_decode [] error_enum decode i s = None)) /\
  (names_distinct tuple_struct /\ wt (TStruct [TInt U8]) (VTuple [VInt 7]) /\
   (forall i ch o, derive_code TrEncode [] tuple_struct = Some i -> run_encode [txt "value0"]%string tuple_struct (encode ch) i (VTuple [VInt 7]) o = None) /\
   (forall i s, derive_code TrDecode [] tuple_struct = Some i -> run_decode [txt "stream"]%string tuple_struct decode i s = None)).
Proof.
  split; [split; [|split; [|split]] | split; [|split; [|split]]].
  - cbn. split; repeat constructor; cbn; intuition discriminate.
  - exists (TEnum U8 [(Some 0, []); (Some 1, [])]). split; [reflexivity|]. cbn. split; [|exact I].
    split; [repeat constructor; cbn; lia | repeat constructor; cbn; intuition lia].
  - intros i ch v o H. injection H as <-. reflexivity.
  - intros i s H. injection H as <-. reflexivity.
  - constructor.
  - cbn. split; [split; [lia | lia] | exact I].
  - intros i ch o H. injection H as <-. reflexivity.
  - intros i s H. injection H as <-. reflexivity.
Qed.

Lemma C90_case_lemma :
  names_distinct sample_enum /\ names_distinct sample_struct /\
  (exists i, derive_code TrEncode sample_attrs sample_enum = Some i /\
     (exists o', run_encode [] sample_enum (encode true) i (VEnum 1 [VInt 513; VSeq [VBool true]]) (output_new (repeat x00 8)) = Some (o', Ok tt) /\
        output_as_slice o' = [x45; x01; x02; x01; x00; x01])) /\
  (exists i, derive_code TrDecode sample_attrs sample_enum = Some i /\
     (exists s', run_decode [txt "MAX"]%string sample_enum decode i (input_new [x46; x09; x00]) = Some (s', Ok (VEnum 2 [VInt 9]))) /\
     (exists s', run_decode [txt "MAX"]%string sample_enum decode i (input_new [x47; x09; x00]) = Some (s', Err (DUnassigned U8 71)))) /\
  (exists i, derive_code TrDecode [] sample_struct = Some i /\
     (exists s', run_decode [] sample_struct decode i (input_new [x01; x02; x01; x07]) = Some (s', Ok (VTuple [VInt 513; VBool true; VInt 7])))) /\
  (exists i, derive_code TrSizedEncode [] sample_struct = Some i /\ run_const [] (fun _ => 0%N) i = Some 4%N).
Proof.
  split; [exact sample_enum_names|]. split; [exact sample_struct_names|].
  split; [|split; [|split]]; eexists; (split; [reflexivity|]).
  - eexists. split; vm_compute; reflexivity.
  - split; eexists; vm_compute; reflexivity.
  - eexists; vm_compute; reflexivity.
  - vm_compute. reflexivity.
Qed.
