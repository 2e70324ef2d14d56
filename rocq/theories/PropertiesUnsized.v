(* C129: Cows of text and slices; and what the headers of C116 and C117 ask besides. *)
From Verif Require Import Base Types Traits SourceNames SourceSyntax SourceMeaning SourceEncode SourceDecode SourceSizes SourceErrors SourceDiscriminant SourceRun SourceText
  SourceUnsized SourceHeaders SpecSource SpecDecode SpecHeaders SpecUnsized HeaderTypes UnsizedProofs.

(* C129, in full: if the owned form of a type can be decoded, so can a Cow of the type.
   Missing: the types of unknown size, that is str, CStr and slices, as the implementation does not say `?Sized` of its parameter.
   Proved: it holds of all others, which are their own owned forms. *)
Theorem C129_cow_partial : forall t, of_rust t -> unsized t = false -> Decodable src_decode_impls src_decode_unsized t ->
  Decodable src_decode_impls src_decode_unsized (TCow t).
Proof. exact C129_lemma. Qed.
Print Assumptions C129_cow_partial.

(* Of those it never holds, *)
Theorem C129_cow_refuted : forall t, unsized t = true -> ~ Decodable src_decode_impls src_decode_unsized (TCow t).
Proof. exact C129_refuted_lemma. Qed.
Print Assumptions C129_cow_refuted.

(* though the owned forms can be decoded, and the other bounds of the implementation for Cow are met. *)
Example C129_case :
  let dec := Decodable src_decode_impls src_decode_unsized in
  (dec (TInt U16) /\ dec (TCow (TInt U16))) /\
  (dec TString /\ exists e, Decided (fun n => error_of n id_Decode (TCow TStr)) (Some e)) /\
  (dec (TVec (TInt U8)) /\ exists e, Decided (fun n => error_of n id_Decode (TCow (TSlice (TInt U8)))) (Some e)).
Proof.
  cbv zeta. unfold Decodable.
  repeat split; try reflexivity;
    match goal with |- exists e, Decided (fun n => error_of n id_Decode ?t) (Some e) => eexists; exact (dec_headers t eq_refl) end.
Qed.

(* Nothing else is lost by it: a type whose other bounds are met can be decoded exactly if it has no such Cow in it. *)
Theorem C129_exact : forall t, of_rust t ->
  (Decodable src_decode_impls src_decode_unsized t <->
   (exists e, Decided (fun n => error_of n id_Decode t) (Some e)) /\ contains (fun u => match u with TCow b => unsized b | _ => false end) t = false).
Proof. exact C129_exact_lemma. Qed.
Print Assumptions C129_exact.
Example C129_exact_case :
  let found t := exists e, Decided (fun n => error_of n id_Decode t) (Some e) in
  let t := TOption (TTuple [TVec (TInt U8); TVec (TCow (TInt I32))]) in let u := TOption (TTuple [TString; TCow TStr]) in
  (of_rust t /\ found t /\ Decodable src_decode_impls src_decode_unsized t) /\
  (of_rust u /\ found u /\ ~ Decodable src_decode_impls src_decode_unsized u).
Proof.
  cbv zeta. unfold Decodable. repeat split; try reflexivity;
    try match goal with |- exists e, Decided (fun n => error_of n id_Decode ?t) (Some e) => eexists; exact (dec_headers t eq_refl) end.
  intros [_ H]. discriminate H.
Qed.

(* With `B: ?Sized` there, nothing would be missing. *)
Theorem C129_repair : forall t, size_known src_decode_impls ((applied id_Cow [plain id_B], [id_B]) :: src_decode_unsized) (TCow t) = true.
Proof. intros []; reflexivity. Qed.
Print Assumptions C129_repair.

(* References, Box, Rc, Arc, Cow, RefCell and the locks can be encoded whatever they hold. *)
Theorem C129_encode : forall t,
  forallb (size_known src_encode_impls src_encode_unsized)
    [TWrap WRef t; TWrap WRefMut t; TWrap WBox t; TWrap WRc t; TWrap WArc t; TCow t; TRefCell t; TLock Mutex t; TLock RwLock t] = true.
Proof. intros []; reflexivity. Qed.
Print Assumptions C129_encode.

(* In general, the implementations of Encode refuse a part of unknown size exactly where Rust has no such types. *)
Theorem C129_encode_exact : forall t, of_rust t -> size_known src_encode_impls src_encode_unsized t = negb (existsb unsized (by_value t)).
Proof. exact C129_encode_lemma. Qed.
Print Assumptions C129_encode_exact.
Example C129_encode_case :
  size_known src_encode_impls src_encode_unsized (TOption (TWrap WBox TStr)) = true /\ size_known src_encode_impls src_encode_unsized (TOption TStr) = false /\
  size_known src_encode_impls src_encode_unsized (TTuple [TInt U8; TSlice (TInt U8)]) = false.
Proof. repeat split. Qed.

(* ---- C116 and C117: the traits that are taken to be implemented are asked for only here. *)
Theorem C116_asked :
  asked src_encode_impls =
    [(applied id_Cell [plain id_T], [asks id_T id_Copy]);
     (applied id_Cow [plain id_T], [asks id_T id_ToOwned]);
     (applied id_HashMap [plain id_K; plain id_V; plain id_S], [asks id_S id_BuildHasher]);
     (applied id_HashSet [plain id_K; plain id_S], [asks id_S id_BuildHasher])] /\
  asked src_decode_impls =
    [(applied id_Cow [plain id_B], [(plain id_B, [(id_ToOwned, [YAssoc id_Owned (plain id_T)])])]);
     (applied id_HashMap [plain id_K; plain id_V; plain id_S], [asks id_K id_Eq; asks id_K id_Hash; asks id_S id_BuildHasher; asks id_S id_Default]);
     (applied id_HashSet [plain id_K; plain id_S], [asks id_K id_Eq; asks id_K id_Hash; asks id_S id_BuildHasher; asks id_S id_Default])] /\
  asked (src_errors_impls ++ src_discriminant_impls) =
    [(applied id_EnumDecodeError [plain id_D; plain id_F], [asks id_D id_Debug]);
     (applied id_EnumEncodeError [plain id_D; plain id_F], [asks id_D id_Debug]);
     (applied id_ItemDecodeError [plain id_I; plain id_E], [asks id_Self id_Debug]);
     (applied id_ItemEncodeError [plain id_I; plain id_E], [asks id_Self id_Debug])].
Proof. repeat split. Qed.
Print Assumptions C116_asked.
Theorem C117_asked : asked src_sizes_impls =
  [(applied id_Cell [plain id_T], [asks id_T id_Copy]); (applied id_Cow [plain id_T], [asks id_T id_ToOwned])].
Proof. reflexivity. Qed.
Print Assumptions C117_asked.
