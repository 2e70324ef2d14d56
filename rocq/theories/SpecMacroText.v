(* The input that the compiler gives to the derive macros for a definition, and the text of the implementations of Codegen.v. Definitions only. *)
From Coq Require Import String.
From Verif Require Import Base Types Macro SpecMacro ErrorText Sized RustSyntax Codegen SourceNames MacroSyntax MacroRun.
Local Open Scope string_scope.
Local Open Scope list_scope.

(* ---- the definition, as syn presents it *)

Definition int_word (i : ity) : list byte :=
  match i with
  | U8 => txt "u8" | U16 => txt "u16" | U32 => txt "u32" | U64 => txt "u64" | U128 => txt "u128" | Usize => txt "usize"
  | I8 => txt "i8" | I16 => txt "i16" | I32 => txt "i32" | I64 => txt "i64" | I128 => txt "i128" | Isize => txt "isize"
  end.

(* a path that is one identifier *)
Definition word_path (s : list byte) : hv := make_path none [HRec id_PathSegment [(id_ident, HText s); (id_arguments, HDefault)]].
(* what stands in `#[repr(..)]` begins with this word *)
Definition hint_word (h : hint) : list byte :=
  match h with
  | HInt i => int_word i
  | HC => txt "C" | HTransparent => txt "transparent" | HPacked => txt "packed" | HAlign _ => txt "align"
  end.
(* an attribute: `#[repr(..)]`, or any whose path is not `repr` *)
Inductive IsAttr : attr -> hv -> Prop :=
| IA_repr hs : IsAttr (ARepr hs)
    (HRec id_Attribute [(id_path, word_path (txt "repr")); (id_meta, HList (map (fun h => HRec id_meta [(id_path, word_path (hint_word h))]) hs))])
| IA_word s m : s <> txt "repr" -> IsAttr AOther (HRec id_Attribute [(id_path, word_path s); (id_meta, m)])
| IA_path p m : path_ident p = None -> IsAttr AOther (HRec id_Attribute [(id_path, p); (id_meta, m)]).

(* an expression: `Expr::Lit` with `Lit::Int`, with any other literal, or any other expression *)
Inductive IsExpr : expr -> hv -> Prop :=
| IE_int t z : IsExpr (XInt z) (HCon id_Expr id_Lit [HRec t [(id_lit, HCon id_Lit id_Int [HInteger z])]])
| IE_lit t z c vs : name_eqb c id_Int = false -> IsExpr (XByte z) (HCon id_Expr id_Lit [HRec t [(id_lit, HCon id_Lit c vs)]])
| IE_other e c vs : (match e with XInt _ | XByte _ => False | _ => True end) -> name_eqb c id_Lit = false -> IsExpr e (HCon id_Expr c vs).

Section Spelling.
  (* the types of the fields as their authors wrote them *)
  Variable spell : ty -> list token.

  Definition field_input (x : option ident) (t : ty) : hv :=
    HRec id_field [(id_ident, match x with Some x => some (HText x) | None => none end); (id_ty, HToks (spell t))].
  Definition fields_input (f : fields) : hv :=
    match f with
    | FUnit => HCon id_Fields id_Unit []
    | FUnnamed ts => HCon id_Fields id_Unnamed [HPunct (map (field_input None) ts)]
    | FNamed fs => HCon id_Fields id_Named [HRec id_Fields [(id_named, HPunct (map (fun p => field_input (Some (fst p)) (snd p)) fs))]]
    end.
  Inductive IsVariant : nvariant -> hv -> Prop :=
  | IV_plain x f : IsVariant (NVariant x None f)
      (HRec id_Variant [(id_ident, HText x); (id_fields, fields_input f); (id_discriminant, none)])
  | IV_disc x e w f : IsExpr e w -> IsVariant (NVariant x (Some e) f)
      (HRec id_Variant [(id_ident, HText x); (id_fields, fields_input f); (id_discriminant, some (HTup [HUnit; w]))]).
  Inductive IsData : ndata -> hv -> Prop :=
  | ID_struct f : IsData (NStruct f) (HCon id_Data id_Struct [HRec id_DataStruct [(id_fields, fields_input f)]])
  | ID_enum vs ws : Forall2 IsVariant vs ws -> IsData (NEnum vs) (HCon id_Data id_Enum [HRec id_DataEnum [(id_variants, HPunct ws)]])
  | ID_union f w : IsData (NUnion f) (HCon id_Data id_Union [w]).
  Definition param_input (p : gparam) : hv :=
    match g_kind p with
    | GLifetime => HCon id_GenericParam id_Lifetime [HRec id_GenericParam [(id_lifetime, HLife (g_name p)); (id_tokens, HToks [TParam p])]]
    | GType => HCon id_GenericParam id_Type [HRec id_GenericParam [(id_ident, HText (g_name p)); (id_tokens, HToks [TParam p])]]
    | GConst => HCon id_GenericParam id_Const [HRec id_GenericParam [(id_ident, HText (g_name p)); (id_tokens, HToks [TParam p])]]
    end.
  (* the definition of [self]: its attributes, its parameters, its `where` clause (nothing, if it is empty) and its data *)
  Definition where_tokens (w : list byte) : list token := match w with [] => [] | _ => [TWhere w] end.
  Inductive IsInput (self : ident) (attrs : list attr) (params : list gparam) (where_clause : list byte) (def : ndata) : hv -> Prop :=
  | IsInput_ aws dw : Forall2 IsAttr attrs aws -> IsData def dw ->
      IsInput self attrs params where_clause def
        (HRec id_DeriveInput [(id_attrs, HList aws); (id_ident, HText self);
           (id_generics, HRec id_Generics [(id_params, HPunct (map param_input params)); (id_where_clause, HToks (where_tokens where_clause))]);
           (id_data, dw)]).

  (* ---- the text of an implementation *)

  Definition word (s : string) : token := TId (txt s).
  Definition mark (s : string) : token := TPunct (txt s).
  Definition global (l : list string) : list token := flat_map (fun s => [mark "::"; word s]) l.     (* `::a::b` *)

  Definition show_path (p : path) : list token := match p with PSelf => [word "Self"] | PVariant v => [word "Self"; mark "::"; TId v] end.
  Definition show_pat (p : pat) : list token :=
    match p with
    | PUnit q => show_path q
    | PTuple q xs => show_path q ++ [TGroup DParen (flat_map (fun x => [word "ref"; TId x; mark ","]) xs)]
    | PStruct q fs => show_path q ++ [TGroup DBrace (flat_map (fun f => [TId (fst f); mark ":"; word "ref"; TId (snd f); mark ","]) fs)]
    | PLit z => [TLit (fmt_signed z)]
    | PBind x => [TId x]
    | PAny => [word "_"]
    end.
  Definition show_into (t : list token) : list token := global ["core"; "convert"; "Into"] ++ [mark "::"; mark "<"] ++ t ++ [mark ">"; mark "::"; word "into"].
  Definition show_conv (c : conv) : list token :=
    match c with
    | CGenericEnc => show_into (global ["oct"; "error"; "GenericEncodeError"])
    | CEncDisc => global ["oct"; "error"; "EnumEncodeError"; "BadDiscriminant"]
    | CEncField => global ["oct"; "error"; "EnumEncodeError"; "BadField"]
    | CGenericDec => show_into (global ["oct"; "error"; "GenericDecodeError"])
    | CInfallible => show_into (global ["core"; "convert"; "Infallible"])
    | CDecDisc => global ["oct"; "error"; "EnumDecodeError"; "InvalidDiscriminant"]
    | CDecField => global ["oct"; "error"; "EnumDecodeError"; "BadField"]
    end.
  (* `<t as trait>::x` *)
  Definition qualified (t trait : list token) (x : string) : list token := mark "<" :: t ++ word "as" :: trait ++ [mark ">"; mark "::"; word x].
  Fixpoint show (c : code) : list token :=
    match c with
    | KVar x => [TId x]
    | KLit z => [TLit (fmt_signed z)]
    | KUnit => []                                                       (* a block without a value *)
    | KMake p => show_path p
    | KMakeTuple p es => show_path p ++ [TGroup DParen (flat_map (fun e => show e ++ [mark ","]) es)]
    | KMakeStruct p es => show_path p ++ [TGroup DBrace (flat_map (fun e => TId (fst e) :: mark ":" :: show (snd e) ++ [mark ","]) es)]
    | KEncode None e s => global ["oct"; "encode"; "Encode"; "encode"] ++ [TGroup DParen (show e ++ [mark ","; TId s])]
    | KEncode (Some r) e s =>                                           (* of a literal *)
      qualified [TId (int_word r)] (global ["oct"; "encode"; "Encode"]) "encode" ++ [TGroup DParen (mark "&" :: show e ++ [mark ","; TId s])]
    | KDecode None s => global ["oct"; "decode"; "Decode"; "decode"] ++ [TGroup DParen [TId s]]
    | KDecode (Some r) s => qualified [TId (int_word r)] (global ["oct"; "decode"; "Decode"]) "decode" ++ [TGroup DParen [TId s]]
    | KMapErr e c => show e ++ [mark "."; word "map_err"; TGroup DParen (show_conv c)]
    | KTry e => show e ++ [mark "?"]
    | KOk e => global ["core"; "result"; "Result"; "Ok"] ++ [TGroup DParen (match e with KUnit => [TGroup DParen []] | _ => show e end)]
    | KUnassigned x =>
      global ["core"; "result"; "Result"; "Err"] ++
      [TGroup DParen (global ["oct"; "error"; "EnumDecodeError"; "UnassignedDiscriminant"] ++ [TGroup DBrace [TId x]])]
    | KReturn e => word "return" :: show e
    | KMatch e arms =>
      word "match" :: (match e with KVar x => if ident_eqb x n_self then [mark "*"] else [] | _ => [] end) ++ show e ++
      [TGroup DBrace (flat_map (fun a =>
         show_pat (fst a) ++ mark "=>" :: match snd a with KSeq _ _ => [TGroup DBrace (show (snd a))] | _ => show (snd a) ++ [mark ","] end) arms)]
    | KLet p e k => word "let" :: show_pat p ++ mark "=" :: show e ++ mark ";" :: show k
    | KSeq e k => show e ++ (match e with KMatch _ _ => [] | _ => [mark ";"] end) ++ show k
    | KUnreachable => global ["core"; "unreachable"] ++ [mark "!"; TGroup DParen [TLit (txt """no variants defined for this enumeration""")]]
    end.

  (* constants *)
  Definition hexadecimal (n : N) : list byte := txt "0x" ++ radix 16 n.
  Fixpoint show_size (e : nexpr) : list token :=
    match e with
    | NLit n => [TLit (hexadecimal n)]
    | NVar x => [TId x]
    | NMaxSize t => qualified (spell t) (global ["oct"; "encode"; "SizedEncode"]) "MAX_ENCODED_SIZE"
    | NAdd a b => show_size a ++ mark "+" :: show_size b
    end.
  Definition show_stmt (s : stmt) : list token :=
    match s with
    | SLet x e =>
      [word "let"; word "mut"; TId x; mark "="] ++ (match e with NLit n => [TLit (hexadecimal n ++ txt "usize")] | _ => show_size e end) ++ [mark ";"]
    | SAssign x e => [TId x; mark "="] ++ show_size e ++ [mark ";"]
    | SIfGreater a b x y => [word "if"; TId a; mark ">"; TId b; TGroup DBrace [TId x; mark "="; TId y]; mark ";"]
    end.
  Definition show_const (b : const_body) : list token :=
    match b with
    | CBody [] e => show_size e
    | CBody l e => [TGroup DBrace (flat_map show_stmt l ++ show_size e)]
    end.

  (* the body of the implementation; [r] is the representation of an enumeration *)
  Definition show_attr (l : list token) : list token := [mark "#"; TGroup DBracket l].
  Definition error_type (generic enum : string) (r : option ity) : list token :=
    match r with
    | None => global ["oct"; "error"; generic]
    | Some r => global ["oct"; "error"; enum] ++ mark "<" :: TId (int_word r) :: mark "," :: global ["oct"; "error"; generic] ++ [mark ">"]
    end.
  Definition show_body (r : option ity) (i : impl) : list token :=
    match i with
    | IFn true c =>
      [word "type"; word "Error"; mark "="] ++ error_type "GenericEncodeError" "EnumEncodeError" r ++ [mark ";"] ++
      (match r with Some _ => show_attr [word "allow"; TGroup DParen [word "unreachable_patterns"]] | None => [] end) ++ show_attr [word "inline"] ++
      [word "fn"; word "encode";
       TGroup DParen ([mark "&"; word "self"; mark ","; word "stream"; mark ":"; mark "&"; word "mut"] ++ global ["oct"; "encode"; "Output"]);
       mark "->"] ++ global ["core"; "result"; "Result"] ++
      [mark "<"; TGroup DParen []; mark ","; word "Self"; mark "::"; word "Error"; mark ">"; TGroup DBrace (show c)]
    | IFn false c =>
      [word "type"; word "Error"; mark "="] ++ error_type "GenericDecodeError" "EnumDecodeError" r ++ [mark ";"] ++ show_attr [word "inline"] ++
      [word "fn"; word "decode";
       TGroup DParen ([word "stream"; mark ":"; mark "&"; word "mut"] ++ global ["oct"; "decode"; "Input"]);
       mark "->"] ++ global ["core"; "result"; "Result"] ++
      [mark "<"; word "Self"; mark ","; word "Self"; mark "::"; word "Error"; mark ">"; TGroup DBrace (show c)]
    | IConst b => [word "const"; word "MAX_ENCODED_SIZE"; mark ":"; word "usize"; mark "="] ++ show_const b ++ [mark ";"]
    end.

  (* the whole *)
  Fixpoint separated (l : list (list token)) : list token :=
    match l with
    | [] => []
    | [x] => x
    | x :: l' => x ++ mark "," :: separated l'
    end.
  Definition show_name (a : gkind * list byte) : list token := match fst a with GLifetime => [TLife (snd a)] | _ => [TId (snd a)] end.
  Definition show_trait (tr : trait) : list token :=
    match tr with
    | TrEncode => global ["oct"; "encode"; "Encode"]
    | TrDecode => global ["oct"; "decode"; "Decode"]
    | TrSizedEncode => global ["oct"; "encode"; "SizedEncode"]
    end.
  Definition show_impl (tr : trait) (self : ident) (h : header) (r : option ity) (i : impl) : list token :=
    [word "impl"; mark "<"] ++ separated (map (fun p => [TParam p]) (h_params h)) ++ [mark ">"] ++ show_trait tr ++
    [word "for"; TId self; mark "<"] ++ separated (map show_name (h_args h)) ++ [mark ">"] ++ where_tokens (h_where h) ++
    [TGroup DBrace (show_body r i)].
End Spelling.

(* the macro of each trait *)
Definition macro_of (tr : trait) : name :=
  match tr with TrEncode => id_derive_encode | TrDecode => id_derive_decode | TrSizedEncode => id_derive_sized_encode end.
(* the discriminants that a definition writes; the representation that its implementations mention *)
Definition discs (def : ndata) : list (option expr) := match def with NEnum vs => map nv_disc vs | _ => [] end.
Definition repr_used (attrs : list attr) (def : ndata) : option ity := match def with NEnum _ => repr_of attrs | _ => None end.
