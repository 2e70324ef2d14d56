(* C121 The containers may cross threads if their items may; streams, slots and errors always may. *)
From Verif Require Import Base Types Traits SourceNames SourceSyntax SourceHeaders SpecSource SpecDecode SpecHeaders HeaderTypes AutoTraits AutoProofs.

(* SizedSlice<T, N> and SizedIter<T, N> are Send, Sync, Unpin, UnwindSafe and RefUnwindSafe exactly if T is; SizedStr<N> is *)
Theorem C121_containers : forall given k T N,
  (Auto given k (applied id_SizedSlice [T; N]) <-> Auto given k T) /\
  (Auto given k (applied id_SizedIter [T; N]) <-> Auto given k T) /\
  Auto given k (applied id_SizedStr [N]).
Proof. exact (fun g k t n => conj (sized_slice_auto g k t n) (conj (sized_iter_auto g k t n) (sized_str_auto g k n))). Qed.
Print Assumptions C121_containers.

(* Slot<T> is, whatever T is; Input is; Output is all but UnwindSafe *)
Theorem C121_streams : forall given k T,
  Auto given k (applied id_Slot [T]) /\ Auto given k (plain id_Input) /\ (Auto given k (plain id_Output) <-> k <> UnwindSafe).
Proof. exact (fun g k t => conj (slot_auto g k t) (conj (input_auto g k) (output_auto g k))). Qed.
Print Assumptions C121_streams.

(* the error of encoding or decoding any type is *)
Theorem C121_errors : forall given k t e, of_rust t ->
  (Decided (fun n => error_of n id_Encode t) (Some e) -> Auto given k e) /\
  (Decided (fun n => error_of n id_Decode t) (Some e) -> Auto given k e).
Proof. exact C121_all_errors. Qed.
Print Assumptions C121_errors.

(* and those of the methods of streams, slices and strings *)
Theorem C121_method_errors : forall given k x, In x [id_InputError; id_OutputError; id_LengthError; id_StringError; id_Utf8Error; id_Utf16Error] ->
  Auto given k (plain x).
Proof. exact C121_methods. Qed.
Print Assumptions C121_method_errors.

(* for error types with parameters of the user's own: exactly if their parts are *)
Theorem C121_parts : forall given k A B,
  (Auto given k (applied id_CollectionEncodeError [A; B]) <-> Auto given k A /\ Auto given k B) /\
  (Auto given k (applied id_CollectionDecodeError [A; B]) <-> Auto given k A /\ Auto given k B) /\
  (Auto given k (applied id_ItemEncodeError [A; B]) <-> Auto given k A /\ Auto given k B) /\
  (Auto given k (applied id_ItemDecodeError [A; B]) <-> Auto given k A /\ Auto given k B) /\
  (Auto given k (applied id_RefCellEncodeError [A]) <-> Auto given k A) /\
  (Auto given k (applied id_EnumEncodeError [A; B]) <-> Auto given k (YQual A [(id_Encode, [])] [(id_Error, [])]) /\ Auto given k B) /\
  (Auto given k (applied id_EnumDecodeError [A; B]) <-> Auto given k (YQual A [(id_Decode, [])] [(id_Error, [])]) /\ Auto given k A /\ Auto given k B).
Proof. exact C121_all_parts. Qed.
Print Assumptions C121_parts.

(* a T that is Sync but not Send, as MutexGuard is *)
Example C121_case :
  let given := fun k t => k = Sync in
  (forall k, Auto given k (plain id_T) <-> k = Sync) /\
  Auto given Sync (applied id_SizedSlice [plain id_T; YLit 4]) /\ ~ Auto given Send (applied id_SizedSlice [plain id_T; YLit 4]) /\
  Auto given Send (YRef false (applied id_SizedIter [plain id_T; YLit 4])) /\ Auto given Send (applied id_Slot [plain id_T]) /\
  ~ Auto given UnwindSafe (plain id_Output) /\
  (let t := TVec (TEnum Usize [(None, [TInt Isize])]) in
   of_rust t /\ Decided (fun n => error_of n id_Encode t) (option_map rust_ety (enc_ety t)) /\
   option_map rust_ety (enc_ety t) =
     Some (applied id_CollectionEncodeError [plain id_UsizeEncodeError; applied id_ItemEncodeError [plain id_usize;
            applied id_EnumEncodeError [plain id_usize; plain id_GenericEncodeError]]])).
Proof.
  intro given. assert (G : forall k, Auto given k (plain id_T) <-> k = Sync) by (intro k; apply given_iff; reflexivity).
  split; [exact G|].
  split; [apply C121_containers, G; reflexivity|].
  split; [rewrite (proj1 (C121_containers given Send (plain id_T) (YLit 4))), G; discriminate|].
  split; [constructor; apply C121_containers, G; reflexivity|].
  split; [apply C121_streams|].
  split; [rewrite (proj2 (proj2 (C121_streams given UnwindSafe (plain id_T)))); congruence|].
  cbv zeta. split; [reflexivity|]. split; [apply encode_headers; reflexivity|reflexivity].
Qed.
