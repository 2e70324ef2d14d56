(* Definitions for the examples beside C119, and what C119 and C90 say together. *)
From Coq Require Import String Lia.
From Verif Require Import Base Streams Types Encode Decode Sized Macro SpecMacro ErrorText RustSyntax Codegen SpecCodegen CodegenProofs CodegenExamples.
From Verif Require Import SourceNames MacroSyntax MacroRun SpecMacroText MacroTextBodies.
Local Open Scope string_scope.
Local Open Scope list_scope.

Section Together.
  Variable spell : ty -> list token.
  Hypothesis spell_int : forall i, spell (TInt i) = [TId (int_word i)].
  Variables (self : ident) (attrs : list attr) (params : list gparam) (wh : list byte) (def : ndata) (v : hv).
  Hypothesis input : IsInput spell self attrs params wh def v.
  Hypothesis literals : exprs_ok (discs def).
  Lemma writes tr i turns d : derive_code tr attrs def = Some i -> (List.length (discs def) < turns)%nat -> (7 <= d)%nat ->
    call turns d None (macro_of tr) [v] = Some (Done (HToks (show_impl spell tr self (derive_header params wh) (repr_used attrs def) i)) [v]).
  Proof. intros H H1 H2. rewrite (derive_ok turns spell spell_int d tr self attrs params wh def v input literals H1 H2), H. reflexivity. Qed.
  Lemma some_code tr t : derive tr (Item attrs (strip def)) = Some t -> exists i, derive_code tr attrs def = Some i.
  Proof.
    intros H. destruct (derive_code tr attrs def) as [i|] eqn:E; [now exists i|]. apply same_panics_lemma in E. congruence.
  Qed.
  Lemma encode_together t : names_distinct def -> derive TrEncode (Item attrs (strip def)) = Some t ->
    exists i,
      (forall turns d, (List.length (discs def) < turns)%nat -> (7 <= d)%nat ->
         call turns d None (macro_of TrEncode) [v] = Some (Done (HToks (show_impl spell TrEncode self (derive_header params wh) (repr_used attrs def) i)) [v])) /\
      forall consts ch w o r, wt t w -> run_encode consts def (encode ch) i w o = Some r -> r = encode ch t w o.
  Proof.
    intros HN HT. destruct (some_code TrEncode t HT) as [i Hi]. exists i. split; [intros; now apply writes|].
    intros. eapply encode_if_compiles; eauto.
  Qed.
  Lemma decode_together t : names_distinct def -> derive TrDecode (Item attrs (strip def)) = Some t ->
    exists i,
      (forall turns d, (List.length (discs def) < turns)%nat -> (7 <= d)%nat ->
         call turns d None (macro_of TrDecode) [v] = Some (Done (HToks (show_impl spell TrDecode self (derive_header params wh) (repr_used attrs def) i)) [v])) /\
      forall consts s r, run_decode consts def decode i s = Some r -> r = decode t s.
  Proof.
    intros HN HT. destruct (some_code TrDecode t HT) as [i Hi]. exists i. split; [intros; now apply writes|].
    intros. eapply decode_if_compiles; eauto.
  Qed.
  Lemma size_together t : derive TrSizedEncode (Item attrs (strip def)) = Some t ->
    exists i,
      (forall turns d, (List.length (discs def) < turns)%nat -> (7 <= d)%nat ->
         call turns d None (macro_of TrSizedEncode) [v] = Some (Done (HToks (show_impl spell TrSizedEncode self (derive_header params wh) (repr_used attrs def) i)) [v])) /\
      forall consts size_of n, run_const consts size_of i = Some n -> max_size size_of t = Some n.
  Proof.
    intros HT. destruct (some_code TrSizedEncode t HT) as [i Hi]. exists i. split; [intros; now apply writes|].
    intros. eapply size_if_compiles; eauto.
  Qed.
  Lemma panics tr turns d : (List.length (discs def) < turns)%nat -> (7 <= d)%nat ->
    call turns d None (macro_of tr) [v] = Some Dies <-> derive tr (Item attrs (strip def)) = None.
  Proof.
    intros H1 H2. rewrite <- same_panics_lemma, (derive_ok turns spell spell_int d tr self attrs params wh def v input literals H1 H2).
    destruct (derive_code tr attrs def); split; congruence.
  Qed.
End Together.

(* ---- examples *)

(* tokens as text, with a space behind each *)
Fixpoint render (t : token) : list byte :=
  match t with
  | TId s | TPunct s | TLit s | TType s | TWhere s => s ++ txt " "
  | TLife s => txt "'" ++ s ++ txt " "
  | TParam p => (match g_kind p with GLifetime => txt "'" | GType => [] | GConst => txt "const " end) ++ g_name p ++
                (match g_bounds p with [] => [] | b => txt ": " ++ b end) ++ (match g_default p with None => [] | Some b => txt " = " ++ b end) ++ txt " "
  | TGroup d ts =>
    (match d with DParen => txt "( " | DBracket => txt "[ " | DBrace => txt "{ " end) ++
    (fix all (ts : list token) : list byte := match ts with [] => [] | t :: ts' => render t ++ all ts' end) ts ++
    (match d with DParen => txt ") " | DBracket => txt "] " | DBrace => txt "} " end)
  end.
Definition rendered (o : option fin) : option (list byte) :=
  match o with Some (Done (HToks ts) _) => Some (flat_map render ts) | _ => None end.

Fixpoint sample_spell (t : ty) : list token :=
  match t with
  | TInt i => [TId (int_word i)]
  | TBool => [word "bool"]
  | TVec t => word "Vec" :: mark "<" :: sample_spell t ++ [mark ">"]
  | _ => [TType (txt "Other")]
  end.
Lemma sample_spell_int i : sample_spell (TInt i) = [TId (int_word i)].
Proof. reflexivity. Qed.

(* #[repr(u8)] enum E { A, B(u16, Vec<bool>) = 69, C { value: u8 } }, with a comment, whose attribute is `doc` *)
Definition sample_variants : list hv :=
  [HRec id_Variant [(id_ident, HText (txt "A")); (id_fields, fields_input sample_spell FUnit); (id_discriminant, none)];
   HRec id_Variant [(id_ident, HText (txt "B")); (id_fields, fields_input sample_spell (FUnnamed [TInt U16; TVec TBool]));
                    (id_discriminant, some (HTup [HUnit; HCon id_Expr id_Lit [HRec id_Expr [(id_lit, HCon id_Lit id_Int [HInteger 69])]]]))];
   HRec id_Variant [(id_ident, HText (txt "C")); (id_fields, fields_input sample_spell (FNamed [(txt "value", TInt U8)])); (id_discriminant, none)]].
Definition macro_input (self : ident) (aws : list hv) (params : list gparam) (wh : list byte) (dw : hv) : hv :=
  HRec id_DeriveInput [(id_attrs, HList aws); (id_ident, HText self);
    (id_generics, HRec id_Generics [(id_params, HPunct (map param_input params)); (id_where_clause, HToks (where_tokens wh))]); (id_data, dw)].
Definition sample_input : hv :=
  macro_input (txt "E")
    [HRec id_Attribute [(id_path, word_path (txt "doc")); (id_meta, HUnit)];
     HRec id_Attribute [(id_path, word_path (txt "repr")); (id_meta, HList (map (fun h => HRec id_meta [(id_path, word_path (hint_word h))]) [HInt U8]))]]
    [] [] (HCon id_Data id_Enum [HRec id_DataEnum [(id_variants, HPunct sample_variants)]]).
Lemma sample_is_input : IsInput sample_spell (txt "E") (AOther :: sample_attrs) [] [] sample_enum sample_input.
Proof.
  constructor; [|constructor].
  - repeat constructor. discriminate.
  - repeat constructor.
Qed.
(* struct P<'a, T: Copy = u8, const N: usize>(u16, bool) where T: Clone *)
Definition pair_params : list gparam :=
  [GParam GLifetime (txt "a") [] None; GParam GType (txt "T") (txt "Copy") (Some (txt "u8")); GParam GConst (txt "N") (txt "usize") None].
Definition pair_struct : ndata := NStruct (FUnnamed [TInt U16; TBool]).
Definition pair_input : hv :=
  macro_input (txt "P") [] pair_params (txt "where T: Clone")
    (HCon id_Data id_Struct [HRec id_DataStruct [(id_fields, fields_input sample_spell (FUnnamed [TInt U16; TBool]))]]).
Lemma pair_is_input : IsInput sample_spell (txt "P") [] pair_params (txt "where T: Clone") pair_struct pair_input.
Proof. repeat constructor. Qed.
(* enum { A = -1 }, #[repr(C)] enum { A }, union *)
Definition negative_input : hv :=
  macro_input (txt "E") [] [] [] (HCon id_Data id_Enum [HRec id_DataEnum [(id_variants, HPunct
    [HRec id_Variant [(id_ident, HText (txt "A")); (id_fields, fields_input sample_spell FUnit); (id_discriminant, some (HTup [HUnit; HCon id_Expr id_Type [HUnit]]))]])]]).
Definition negative_enum : ndata := NEnum [NVariant (txt "A") (Some (XNeg (XInt 1))) FUnit].
Lemma negative_is_input : IsInput sample_spell (txt "E") [] [] [] negative_enum negative_input.
Proof. repeat constructor. Qed.

Lemma C119_sample_lemma :
  rendered (call 4 7 None (macro_of TrEncode) [sample_input]) = Some (txt
"impl < > :: oct :: encode :: Encode for E < > { type Error = :: oct :: error :: EnumEncodeError < u8 , :: oct :: error :: GenericEncodeError > ; # [ allow ( unreachable_patterns ) ] # [ inline ] fn encode ( & self , stream : & mut :: oct :: encode :: Output ) -> :: core :: result :: Result < ( ) , Self :: Error > { match * self { Self :: A => { < u8 as :: oct :: encode :: Encode > :: encode ( & 0 , stream ) . map_err ( :: oct :: error :: EnumEncodeError :: BadDiscriminant ) ? ; } Self :: B ( ref value0 , ref value1 , ) => { < u8 as :: oct :: encode :: Encode > :: encode ( & 69 , stream ) . map_err ( :: oct :: error :: EnumEncodeError :: BadDiscriminant ) ? ; :: oct :: encode :: Encode :: encode ( value0 , stream ) . map_err ( :: core :: convert :: Into :: < :: oct :: error :: GenericEncodeError > :: into ) . map_err ( :: oct :: error :: EnumEncodeError :: BadField ) ? ; :: oct :: encode :: Encode :: encode ( value1 , stream ) . map_err ( :: core :: convert :: Into :: < :: oct :: error :: GenericEncodeError > :: into ) . map_err ( :: oct :: error :: EnumEncodeError :: BadField ) ? ; } Self :: C { value : ref value0 , } => { < u8 as :: oct :: encode :: Encode > :: encode ( & 70 , stream ) . map_err ( :: oct :: error :: EnumEncodeError :: BadDiscriminant ) ? ; :: oct :: encode :: Encode :: encode ( value0 , stream ) . map_err ( :: core :: convert :: Into :: < :: oct :: error :: GenericEncodeError > :: into ) . map_err ( :: oct :: error :: EnumEncodeError :: BadField ) ? ; } _ => :: core :: unreachable ! ( ""no variants defined for this enumeration"" ) , } :: core :: result :: Result :: Ok ( ( ) ) } } ") /\
  rendered (call 4 7 None (macro_of TrSizedEncode) [sample_input]) = Some (txt
"impl < > :: oct :: encode :: SizedEncode for E < > { const MAX_ENCODED_SIZE : usize = { let mut total_size = 0x0usize ; let mut current_size = 0x0usize ; current_size = 0x0 + < u8 as :: oct :: encode :: SizedEncode > :: MAX_ENCODED_SIZE ; if current_size > total_size { total_size = current_size } ; current_size = 0x0 + < u16 as :: oct :: encode :: SizedEncode > :: MAX_ENCODED_SIZE + < Vec < bool > as :: oct :: encode :: SizedEncode > :: MAX_ENCODED_SIZE + < u8 as :: oct :: encode :: SizedEncode > :: MAX_ENCODED_SIZE ; if current_size > total_size { total_size = current_size } ; current_size = 0x0 + < u8 as :: oct :: encode :: SizedEncode > :: MAX_ENCODED_SIZE + < u8 as :: oct :: encode :: SizedEncode > :: MAX_ENCODED_SIZE ; if current_size > total_size { total_size = current_size } ; total_size } ; } ") /\
  rendered (call 1 7 None (macro_of TrDecode) [pair_input]) = Some (txt
"impl < 'a , T: Copy = u8 , const N: usize > :: oct :: decode :: Decode for P < 'a , T , N > where T: Clone { type Error = :: oct :: error :: GenericDecodeError ; # [ inline ] fn decode ( stream : & mut :: oct :: decode :: Input ) -> :: core :: result :: Result < Self , Self :: Error > { let this = Self ( :: oct :: decode :: Decode :: decode ( stream ) . map_err ( :: core :: convert :: Into :: < :: oct :: error :: GenericDecodeError > :: into ) ? , :: oct :: decode :: Decode :: decode ( stream ) . map_err ( :: core :: convert :: Into :: < :: oct :: error :: GenericDecodeError > :: into ) ? , ) ; :: core :: result :: Result :: Ok ( this ) } } ") /\
  call 2 7 None (macro_of TrEncode) [negative_input] = Some Dies /\
  (exists ts, call 2 7 None (macro_of TrSizedEncode) [negative_input] = Some (Done (HToks ts) [negative_input])).
Proof. repeat split; try (vm_compute; reflexivity). eexists. vm_compute. reflexivity. Qed.
