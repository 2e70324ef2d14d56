(* C119: the text of the derive macros. *)
From Coq Require Import String.
From Verif Require Import Base Streams Types Encode Decode Sized Macro SpecMacro ErrorText RustSyntax Codegen SpecCodegen CodegenExamples.
From Verif Require Import SourceNames MacroSyntax MacroRun SpecMacroText MacroTextBodies MacroTextExamples.
Local Open Scope string_scope.
Local Open Scope list_scope.

(* Running the text of oct-macros/src ([call], on the trees of SourceMacros.v) on what syn makes of a definition, the macro for each of the three traits
   writes the implementation of Codegen.v, token by token, and panics where Codegen.v has none. [turns] bounds what is asked of an
   iterator, [d] the depth of calls; [spell] is how the types of the fields are written. *)
Theorem C119_derive : forall turns spell, (forall i, spell (TInt i) = [TId (int_word i)]) ->
  forall d tr self attrs params where_clause def v,
  IsInput spell self attrs params where_clause def v -> exprs_ok (discs def) -> (List.length (discs def) < turns)%nat -> (7 <= d)%nat ->
  call turns d None (macro_of tr) [v] =
  Some match derive_code tr attrs def with
       | Some i => Done (HToks (show_impl spell tr self (derive_header params where_clause) (repr_used attrs def) i)) [v]
       | None => Dies
       end.
Proof. exact derive_ok. Qed.
Print Assumptions C119_derive.

(* With C90: what is written, if it compiles, encodes as the other properties say. *)
Theorem C119_encode : forall spell, (forall i, spell (TInt i) = [TId (int_word i)]) ->
  forall self attrs params where_clause def v, IsInput spell self attrs params where_clause def v -> exprs_ok (discs def) ->
  forall t, names_distinct def -> derive TrEncode (Item attrs (strip def)) = Some t ->
  exists i,
    (forall turns d, (List.length (discs def) < turns)%nat -> (7 <= d)%nat ->
       call turns d None (macro_of TrEncode) [v] =
       Some (Done (HToks (show_impl spell TrEncode self (derive_header params where_clause) (repr_used attrs def) i)) [v])) /\
    forall consts ch w o r, wt t w -> run_encode consts def (encode ch) i w o = Some r -> r = encode ch t w o.
Proof. exact encode_together. Qed.
Print Assumptions C119_encode.

Theorem C119_decode : forall spell, (forall i, spell (TInt i) = [TId (int_word i)]) ->
  forall self attrs params where_clause def v, IsInput spell self attrs params where_clause def v -> exprs_ok (discs def) ->
  forall t, names_distinct def -> derive TrDecode (Item attrs (strip def)) = Some t ->
  exists i,
    (forall turns d, (List.length (discs def) < turns)%nat -> (7 <= d)%nat ->
       call turns d None (macro_of TrDecode) [v] =
       Some (Done (HToks (show_impl spell TrDecode self (derive_header params where_clause) (repr_used attrs def) i)) [v])) /\
    forall consts s r, run_decode consts def decode i s = Some r -> r = decode t s.
Proof. exact decode_together. Qed.
Print Assumptions C119_decode.

Theorem C119_size : forall spell, (forall i, spell (TInt i) = [TId (int_word i)]) ->
  forall self attrs params where_clause def v, IsInput spell self attrs params where_clause def v -> exprs_ok (discs def) ->
  forall t, derive TrSizedEncode (Item attrs (strip def)) = Some t ->
  exists i,
    (forall turns d, (List.length (discs def) < turns)%nat -> (7 <= d)%nat ->
       call turns d None (macro_of TrSizedEncode) [v] =
       Some (Done (HToks (show_impl spell TrSizedEncode self (derive_header params where_clause) (repr_used attrs def) i)) [v])) /\
    forall consts size_of n, run_const consts size_of i = Some n -> max_size size_of t = Some n.
Proof. exact size_together. Qed.
Print Assumptions C119_size.

(* The macro panics exactly on the definitions that the other properties say it refuses. *)
Theorem C119_panics : forall spell, (forall i, spell (TInt i) = [TId (int_word i)]) ->
  forall self attrs params where_clause def v, IsInput spell self attrs params where_clause def v -> exprs_ok (discs def) ->
  forall tr turns d, (List.length (discs def) < turns)%nat -> (7 <= d)%nat ->
  call turns d None (macro_of tr) [v] = Some Dies <-> derive tr (Item attrs (strip def)) = None.
Proof. exact panics. Qed.
Print Assumptions C119_panics.

(* inputs that meet the hypotheses; and what is written, as text *)
Example C119_case :
  (forall i, sample_spell (TInt i) = [TId (int_word i)]) /\
  IsInput sample_spell (txt "E") (AOther :: sample_attrs) [] [] sample_enum sample_input /\ exprs_ok (discs sample_enum) /\
  IsInput sample_spell (txt "P") [] pair_params (txt "where T: Clone") pair_struct pair_input /\
  IsInput sample_spell (txt "E") [] [] [] negative_enum negative_input /\ exprs_ok (discs negative_enum).
Proof.
  split; [exact sample_spell_int|split; [exact sample_is_input|split; [|split; [exact pair_is_input|split; [exact negative_is_input|]]]]];
    repeat constructor; discriminate.
Qed.
Example C119_text :
  rendered (call 4 7 None (macro_of TrEncode) [sample_input]) = Some (txt
"impl < > :: oct :: encode :: Encode for E < > { type Error = :: oct :: error :: EnumEncodeError < u8 , :: oct :: error :: GenericEncodeError > ; # [ allow ( unreachable_patterns ) ] # [ inline ] fn encode ( & self , stream : & mut :: oct :: encode :: Output ) -> :: core :: result :: Result < ( ) , Self :: Error > { match * self { Self :: A => { < u8 as :: oct :: encode :: Encode > :: encode ( & 0 , stream ) . map_err ( :: oct :: error :: EnumEncodeError :: BadDiscriminant ) ? ; } Self :: B ( ref value0 , ref value1 , ) => { < u8 as :: oct :: encode :: Encode > :: encode ( & 69 , stream ) . map_err ( :: oct :: error :: EnumEncodeError :: BadDiscriminant ) ? ; :: oct :: encode :: Encode :: encode ( value0 , stream ) . map_err ( :: core :: convert :: Into :: < :: oct :: error :: GenericEncodeError > :: into ) . map_err ( :: oct :: error :: EnumEncodeError :: BadField ) ? ; :: oct :: encode :: Encode :: encode ( value1 , stream ) . map_err ( :: core :: convert :: Into :: < :: oct :: error :: GenericEncodeError > :: into ) . map_err ( :: oct :: error :: EnumEncodeError :: BadField ) ? ; } Self :: C { value : ref value0 , } => { < u8 as :: oct :: encode :: Encode > :: encode ( & 70 , stream ) . map_err ( :: oct :: error :: EnumEncodeError :: BadDiscriminant ) ? ; :: oct :: encode :: Encode :: encode ( value0 , stream ) . map_err ( :: core :: convert :: Into :: < :: oct :: error :: GenericEncodeError > :: into ) . map_err ( :: oct :: error :: EnumEncodeError :: BadField ) ? ; } _ => :: core :: unreachable ! ( ""no variants defined for this enumeration"" ) , } :: core :: result :: Result :: Ok ( ( ) ) } } ") /\
  rendered (call 4 7 None (macro_of TrSizedEncode) [sample_input]) = Some (txt
"impl < > :: oct :: encode :: SizedEncode for E < > { const MAX_ENCODED_SIZE : usize = { let mut total_size = 0x0usize ; let mut current_size = 0x0usize ; current_size = 0x0 + < u8 as :: oct :: encode :: SizedEncode > :: MAX_ENCODED_SIZE ; if current_size > total_size { total_size = current_size } ; current_size = 0x0 + < u16 as :: oct :: encode :: SizedEncode > :: MAX_ENCODED_SIZE + < Vec < bool > as :: oct :: encode :: SizedEncode > :: MAX_ENCODED_SIZE + < u8 as :: oct :: encode :: SizedEncode > :: MAX_ENCODED_SIZE ; if current_size > total_size { total_size = current_size } ; current_size = 0x0 + < u8 as :: oct :: encode :: SizedEncode > :: MAX_ENCODED_SIZE + < u8 as :: oct :: encode :: SizedEncode > :: MAX_ENCODED_SIZE ; if current_size > total_size { total_size = current_size } ; total_size } ; } ") /\
  rendered (call 1 7 None (macro_of TrDecode) [pair_input]) = Some (txt
"impl < 'a , T: Copy = u8 , const N: usize > :: oct :: decode :: Decode for P < 'a , T , N > where T: Clone { type Error = :: oct :: error :: GenericDecodeError ; # [ inline ] fn decode ( stream : & mut :: oct :: decode :: Input ) -> :: core :: result :: Result < Self , Self :: Error > { let this = Self ( :: oct :: decode :: Decode :: decode ( stream ) . map_err ( :: core :: convert :: Into :: < :: oct :: error :: GenericDecodeError > :: into ) ? , :: oct :: decode :: Decode :: decode ( stream ) . map_err ( :: core :: convert :: Into :: < :: oct :: error :: GenericDecodeError > :: into ) ? , ) ; :: core :: result :: Result :: Ok ( this ) } } ") /\
  call 2 7 None (macro_of TrEncode) [negative_input] = Some Dies /\
  (exists ts, call 2 7 None (macro_of TrSizedEncode) [negative_input] = Some (Done (HToks ts) [negative_input])).
Proof. exact C119_sample_lemma. Qed.
