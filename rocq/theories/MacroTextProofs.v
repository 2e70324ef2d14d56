(* The text of the derive macros writes the implementations of Codegen.v. *)
From Coq Require Import String Lia.
From Verif Require Import Base Streams StreamFacts Types Macro SpecMacro ErrorText Sized RustSyntax Codegen SourceNames SourceSyntax MacroSyntax SourceMacros MacroRun SpecMacroText.
Local Open Scope string_scope.
Local Open Scope list_scope.

Definition repr_con (r : ity) : name :=
  match r with
  | U8 => id_U8 | U16 => id_U16 | U32 => id_U32 | U64 => id_U64 | U128 => id_U128 | Usize => id_Usize
  | I8 => id_I8 | I16 => id_I16 | I32 => id_I32 | I64 => id_I64 | I128 => id_I128 | Isize => id_Isize
  end.
Definition repr_hv (r : ity) : hv := HCon id_Repr (repr_con r) [].
Definition this_hv (o : option ity) : hv := match o with Some r => some (repr_hv r) | None => none end.
Definition path_hv (s : list byte) : hv := HRec id_Path [(id_leading_colon, none); (id_segments, HList [HRec id_PathSegment [(id_ident, HText s); (id_arguments, HDefault)]])].
Definition type_hv (r : ity) : hv := HCon id_Type id_Path [HRec id_TypePath [(id_qself, none); (id_path, path_hv (int_word r))]].

Section Proofs.
  Variable turns : nat.

  (* ---- loops *)
  Lemma each_ok run g vs ρ : (forall v, In v vs -> run v ρ = Go (g v) ρ) -> each run vs ρ = Go (HList (map g vs)) ρ.
  Proof.
    induction vs as [|v vs IH]; intros H; [reflexivity|]. cbn [each map]. rewrite H by now left. cbn [next].
    rewrite IH by (intros; apply H; now right). reflexivity.
  Qed.
  Lemma each_row_ok f g rs : (forall r, In r rs -> f r = Some (g r)) -> each_row f rs = Some (flat_map g rs).
  Proof.
    induction rs as [|r rs IH]; intros H; [reflexivity|]. cbn [each_row flat_map]. rewrite H by now left.
    rewrite IH by (intros; apply H; now right). reflexivity.
  Qed.

  (* ---- Repr *)
  Lemma repr_tokens d r : call turns (S (S (S d))) (Some id_Repr) id_to_tokens [repr_hv r; HToks []] = Some (Done HUnit [repr_hv r; HToks [TId (int_word r)]]).
  Proof. destruct r; vm_compute; reflexivity. Qed.
  Lemma repr_type d r : call turns (S (S (S (S d)))) (Some id_Repr) id_to_type [repr_hv r; HUnit] = Some (Done (type_hv r) [repr_hv r; HUnit]).
  Proof. destruct r; vm_compute; reflexivity. Qed.
  Lemma repr_default d : call turns (S d) (Some id_Repr) id_default [] = Some (Done (repr_hv Isize) []).
  Proof. vm_compute; reflexivity. Qed.

  Lemma call_text d q f vs g ρ : find q f = Some g -> bind_params (fn_params g) vs = Some ρ ->
    call turns (S d) q f vs =
    Some match eval turns (match q with Some q => q | None => id_Self end) (call turns d) (fn_body g) ρ with
         | Go v ρ' | Ret v ρ' => Done v (final ρ' (fn_params g))
         | Die => Dies
         | Lost => Leaves
         end.
  Proof. intros H1 H2. cbn [call]. rewrite H1, H2. now destruct (eval _ _ _ _ _). Qed.

  Lemma call_none d q f vs : find q f = None -> call turns d q f vs = None.
  Proof. intros H. destruct d; cbn [call]; now rewrite H. Qed.

  Section Get.
    Variable c : option name -> name -> list hv -> option fin.
    Variable aws : list hv.
    Definition genv (o : option ity) : env := [(id_this, this_hv o); (id_attrs, HList aws)].
    Definition get_body : expr :=
      match src_impl_Repr_get_loop0 with EIf _ (ESeq (EMethod (EMethod _ _ _ [EClosure _ b]) _ _ _) _) _ => b | _ => EUnit end.
    Lemma get_loop : src_impl_Repr_get_loop0 =
      EIf (EMethod (EMethod (EPath [(id_attr, [])]) id_path [] []) id_is_ident [] [EStr (txt "repr")])
        (ESeq (EMethod (EMethod (EPath [(id_attr, [])]) id_parse_nested_meta [] [EClosure [PVar id_meta] get_body]) id_unwrap [] []) EUnit) EUnit.
    Proof. reflexivity. Qed.
    Definition meta_hv (h : hint) : hv := HRec id_meta [(id_path, word_path (hint_word h))].
    Lemma meta_ok o h av :
      leave ((id_attr, av) :: genv o) (returned (eval turns id_Repr c get_body ((id_meta, meta_hv h) :: (id_attr, av) :: genv o))) =
      match h with HInt i => Go (ok HUnit) ((id_attr, av) :: genv (Some i)) | _ => Die end.
    Proof. destruct h as [[]| | | |]; vm_compute; reflexivity. Qed.
    Lemma metas_ok av hs : forall o,
      metas (fun w ρ => leave ρ (returned (eval turns id_Repr c get_body ((id_meta, w) :: ρ)))) (map meta_hv hs) ((id_attr, av) :: genv o) =
      match repr_hints o hs with Some o' => Go (ok HUnit) ((id_attr, av) :: genv o') | None => Die end.
    Proof.
      induction hs as [|h hs IH]; intros o; [reflexivity|]. cbn [map metas]. rewrite meta_ok. destruct h; try reflexivity.
      cbn [next repr_hints]. apply IH.
    Qed.
    Lemma attr_ok a av : IsAttr a av -> forall o,
      leave (genv o) (eval turns id_Repr c src_impl_Repr_get_loop0 ((id_attr, av) :: genv o)) =
      match repr_attrs o [a] with Some o' => Go HUnit (genv o') | None => Die end.
    Proof.
      rewrite get_loop. intros [hs|s m Hs|p m Hp] o.
      - change (map _ hs) with (map meta_hv hs). cbn -[get_body metas repr_hints meta_hv genv leave]. rewrite metas_ok.
        destruct (repr_hints o hs) as [o'|]; reflexivity.
      - cbn -[get_body metas genv leave Streams.bytes_eqb]. unfold call_method. cbn -[get_body metas genv leave Streams.bytes_eqb].
        replace (Streams.bytes_eqb _ _) with false; [reflexivity|]. symmetry. apply not_true_iff_false. rewrite StreamFacts.bytes_eqb_spec.
        exact Hs.
      - cbn -[get_body metas genv leave path_ident]. unfold call_method. cbn -[get_body metas genv leave path_ident]. rewrite Hp. reflexivity.
    Qed.
  End Get.

  Lemma get_ok d attrs aws : Forall2 IsAttr attrs aws ->
    call turns (S d) (Some id_Repr) id_get [HList aws] =
    Some match repr_get attrs with Some o => Done (this_hv o) [HList aws] | None => Dies end.
  Proof.
    intros H. rewrite (call_text d (Some id_Repr) id_get [HList aws] src_impl_Repr_get [(id_attrs, HList aws)] eq_refl eq_refl).
    set (c := call turns d). clearbody c. cbn -[src_impl_Repr_get_loop0 for_each leave].
    assert (L : forall l ws, Forall2 IsAttr l ws -> forall o,
      for_each (fun w ρ => leave ρ (eval turns id_Repr c src_impl_Repr_get_loop0 ((id_attr, w) :: ρ))) ws (genv aws o) =
      match repr_attrs o l with Some o' => Go HUnit (genv aws o') | None => Die end).
    { induction 1 as [|a av l ws' Ha _ IH]; intros o; [reflexivity|]. cbn [for_each]. rewrite (attr_ok c aws a av Ha o).
      destruct a as [hs|]; cbn [repr_attrs].
      - destruct (repr_hints o hs) as [o'|]; [apply IH|reflexivity].
      - apply IH. }
    unfold repr_get.
    change [(id_this, none); (id_attrs, HList aws)] with (genv aws None). rewrite (L attrs aws H None).
    destruct (repr_attrs None attrs) as [o|]; reflexivity.
  Qed.

  (* ---- Discriminants *)
  Inductive Prev : option Z -> hv -> Prop :=
  | Prev_none : Prev None none
  | Prev_some z v : number v = Some z -> Prev (Some z) (some v).
  Definition dstate (ws : list hv) (p : hv) : hv := HRec id_Discriminants [(id_variants, HList ws); (id_prev, p)].
  Lemma new_ok d ws : call turns (S d) (Some id_Discriminants) id_new [HPunct ws] = Some (Done (dstate ws none) [HPunct ws]).
  Proof. vm_compute; reflexivity. Qed.
  Lemma next_end d p : call turns (S d) (Some id_Discriminants) id_next [dstate [] p] = Some (Done none [dstate [] p]).
  Proof. vm_compute; reflexivity. Qed.
  Definition read_one (prev : option Z) (e : option Macro.expr) : option Z :=
    match (match e with Some e => option_map Some (read_expr e) | None => Some None end) with
    | None => None
    | Some x => next_discriminant prev x
    end.
  Lemma checked_add_ok c u z ρ : number u = Some z ->
    call_method turns c u id_checked_add [] [HNum 1] ρ = Go (if (z + 1 <? 2 ^ 128)%Z then some (HNum (z + 1)) else none) ρ.
  Proof. intros H. unfold call_method. cbn -[number Z.add Z.ltb Z.pow]. now rewrite H. Qed.
  Lemma next_ok d spell v w ws prev p : IsVariant spell v w -> Prev prev p -> exprs_ok [nv_disc v] ->
    match read_one prev (nv_disc v) with
    | Some z => exists q, Prev (Some z) q /\
        call turns (S d) (Some id_Discriminants) id_next [dstate (w :: ws) p] = Some (Done (some (HLitInt (fmt_signed z))) [dstate ws q])
    | None => call turns (S d) (Some id_Discriminants) id_next [dstate (w :: ws) p] = Some Dies
    end.
  Proof.
    intros Hv Hp He. 
    assert (C : forall w, call turns (S d) (Some id_Discriminants) id_next [dstate (w :: ws) p] = Some
      match eval turns id_Discriminants (call turns d) (fn_body src_Iterator_Discriminants_I_next) [(id_self, dstate (w :: ws) p)] with
         | Go v ρ' | Ret v ρ' => Done v (final ρ' (fn_params src_Iterator_Discriminants_I_next))
         | Die => Dies
         | Lost => Leaves
         end).
    { intros w'. now apply call_text. }
    rewrite C. clear C. generalize (call turns d). intros c. destruct Hv as [x f|x e w' f E]; cbn [nv_disc].
    - destruct Hp as [|z u Hu].
      + exists (some HDefault). split; [now constructor|]. reflexivity.
      + cbn -[Z.pow Z.add Z.ltb fmt_signed]. rewrite (checked_add_ok _ _ _ _ Hu). destruct (z + 1 <? 2 ^ 128)%Z; [|reflexivity].
        exists (some (HNum (z + 1))). split; [now constructor|]. reflexivity.
    - apply Forall_inv in He. cbn in He. destruct E as [t z|t z k vs Hk|e k vs Hk1 Hk2].
      + cbn in He. unfold read_one. cbn -[Z.pow Z.add Z.ltb Z.leb parse fmt_signed]. unfold parse. rewrite (proj2 (Z.leb_le _ _) He).
        destruct (z <? 2 ^ 128)%Z eqn:L; cbn [option_map next_discriminant].
        * exists (some (HNum z)). split; [now constructor|]. reflexivity.
        * cbn -[Z.pow Z.ltb Z.leb]. unfold parse. replace (z <? 2 ^ 127)%Z with false; [now rewrite andb_false_r|]. symmetry. apply Z.ltb_ge. apply Z.ltb_ge in L. lia.
      + cbn. rewrite Hk. reflexivity.
      + replace (read_one prev (Some e)) with (@None Z) by now destruct e.
        cbn. rewrite Hk2. reflexivity.
  Qed.

  Lemma drain_ok d spell vs ws : Forall2 (IsVariant spell) vs ws -> forall n prev p, Prev prev p -> exprs_ok (map nv_disc vs) -> (List.length vs < n)%nat ->
    drain (call turns (S d)) n id_Discriminants (dstate ws p) =
    match read_from prev (map nv_disc vs) with Some ds => Done (HList (map (fun z => HLitInt (fmt_signed z)) ds)) [] | None => Dies end.
  Proof.
    induction 1 as [|v w vs ws Hv _ IH]; intros [|n] prev p Hp He Hn; try (cbn in Hn; lia).
    - cbn [drain]. rewrite next_end. reflexivity.
    - cbn [map] in He. pose proof (next_ok d spell v w ws prev p Hv Hp) as N.
      assert (He1 : exprs_ok [nv_disc v]) by (constructor; [exact (Forall_inv He)|constructor]). specialize (N He1).
      cbn [drain map read_from]. unfold read_one in N.
      destruct (match nv_disc v with Some e => option_map Some (read_expr e) | None => Some None end) as [x|]; [|now rewrite N].
      destruct (next_discriminant prev x) as [z|]; [|now rewrite N].
      destruct N as [q [Hq N]]. rewrite N. cbn [some]. rewrite (IH n (Some z) q Hq (Forall_inv_tail He)) by (cbn in Hn; lia).
      destruct (read_from (Some z) (map nv_disc vs)); reflexivity.
  Qed.

  (* ---- GenericName *)
  Definition gname_hv (p : gparam) : hv :=
    match g_kind p with
    | GLifetime => HCon id_GenericName id_Lifetime [HLife (g_name p)]
    | GType => HCon id_GenericName id_Ty [HText (g_name p)]
    | GConst => HCon id_GenericName id_Const [HText (g_name p)]
    end.
  Lemma gname_tokens d p : call turns (S d) (Some id_GenericName) id_to_tokens [gname_hv p; HToks []] = Some (Done HUnit [gname_hv p; HToks (show_name (g_kind p, g_name p))]).
  Proof. destruct p as [[] x b e]; vm_compute; reflexivity. Qed.
  Lemma extract_ok d params w : let g := HRec id_Generics [(id_params, HPunct (map param_input params)); (id_where_clause, w)] in
    call turns (S d) (Some id_GenericName) id_extract_from [g] = Some (Done (HPunct (map gname_hv params)) [g]).
  Proof.
    intros g. rewrite (call_text d (Some id_GenericName) id_extract_from [g] src_impl_GenericName_extract_from [(id_generics, g)] eq_refl eq_refl).
    assert (Hc : forall x vs, find (Some id_GenericName) x = None -> call turns d (Some id_GenericName) x vs = None) by (intros; now apply call_none).
    revert Hc. generalize (call turns d). intros c Hc.
    assert (L : forall ps l, for_each (fun w ρ => leave ρ (eval turns id_GenericName c src_impl_GenericName_extract_from_loop0 ((id_generic, w) :: ρ)))
      (map param_input ps) [(id_names, HPunct l); (id_generics, g)] = Go HUnit [(id_names, HPunct (l ++ map gname_hv ps)); (id_generics, g)]).
    { induction ps as [|p ps IH]; intros l; cbn [map for_each]; [now rewrite app_nil_r|].
      assert (S : leave [(id_names, HPunct l); (id_generics, g)] (eval turns id_GenericName c src_impl_GenericName_extract_from_loop0 [(id_generic, param_input p); (id_names, HPunct l); (id_generics, g)]) =
                  Go HUnit [(id_names, HPunct (l ++ [gname_hv p])); (id_generics, g)]).
      { clear IH. clearbody g. destruct p as [[] x b e]; cbn; unfold call_path; cbn; rewrite Hc by reflexivity; reflexivity. }
      rewrite S. cbn [next]. rewrite IH. now rewrite <- app_assoc. }
    cbn -[src_impl_GenericName_extract_from_loop0 for_each leave map param_input]. rewrite L. reflexivity.
  Qed.
End Proofs.
