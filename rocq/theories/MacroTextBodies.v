(* The bodies that the text of oct-macros/src/impls writes. *)
From Coq Require Import String Lia.
From Verif Require Import Base Streams StreamFacts Types Macro SpecMacro ErrorText Sized RustSyntax Codegen SourceNames SourceSyntax MacroSyntax SourceMacros MacroRun SpecMacroText MacroTextProofs.
Local Open Scope string_scope.
Local Open Scope list_scope.

Lemma signed_of_nat n : fmt_signed (Z.of_nat n) = fmt_nat n.
Proof. unfold fmt_signed, fmt_nat. replace (Z.of_nat n <? 0)%Z with false by (symmetry; apply Z.ltb_ge; lia). f_equal. lia. Qed.
Lemma each_row_map {A} f (h : A -> env) (g : A -> list token) l : (forall a, In a l -> f (h a) = Some (g a)) -> each_row f (map h l) = Some (flat_map g l).
Proof.
  induction l as [|a l IH]; intros H; [reflexivity|]. cbn [map each_row flat_map]. rewrite H by now left. rewrite IH by (intros; apply H; now right). reflexivity.
Qed.
Lemma each_map {A} run (h : A -> hv) (g : A -> hv) l ρ : (forall a, In a l -> run (h a) ρ = Go (g a) ρ) -> each run (map h l) ρ = Go (HList (map g l)) ρ.
Proof.
  induction l as [|a l IH]; intros H; [reflexivity|]. cbn [map each]. rewrite H by now left. cbn [next]. rewrite IH by (intros; apply H; now right). reflexivity.
Qed.

Lemma combine_map {A B C D} (f : A -> C) (g : B -> D) l : forall l', combine (map f l) (map g l') = map (fun p => (f (fst p), g (snd p))) (combine l l').
Proof. induction l as [|a l IH]; intros [|b l']; cbn; try reflexivity. now rewrite IH. Qed.
Lemma rows1 {A} x (f : A -> hv) l : rows [(x, map f l)] = map (fun a => [(x, f a)]) l.
Proof. cbn. now rewrite map_map. Qed.
Lemma rows2 {A B} x y (f : A -> hv) (g : B -> hv) l l' : rows [(x, map f l); (y, map g l')] = map (fun p => [(x, f (fst p)); (y, g (snd p))]) (combine l l').
Proof. cbn. rewrite map_map, combine_map, map_map. reflexivity. Qed.
Lemma rows3 {A B C} x y z (f : A -> hv) (g : B -> hv) (h : C -> hv) l l' l'' : rows [(x, map f l); (y, map g l'); (z, map h l'')] =
  map (fun p => [(x, f (fst p)); (y, g (fst (snd p))); (z, h (snd (snd p)))]) (combine l (combine l' l'')).
Proof.
  transitivity (map (fun p => (x, fst p) :: snd p) (combine (map f l) (rows [(y, map g l'); (z, map h l'')]))); [reflexivity|].
  rewrite rows2, combine_map, map_map. reflexivity.
Qed.

Section Bodies.
  Variable turns : nat.
  Variable spell : ty -> list token.
  Hypothesis spell_int : forall i, spell (TInt i) = [TId (int_word i)].

  Definition field_list (f : fields) : list hv :=
    match f with
    | FUnit => []
    | FUnnamed ts => map (field_input spell None) ts
    | FNamed fs => map (fun p => field_input spell (Some (fst p)) (snd p)) fs
    end.
  Lemma elements_fields f : elements (fields_input spell f) = Some (field_list f).
  Proof. now destruct f. Qed.
  Lemma field_count f : List.length (field_list f) = List.length (field_types f).
  Proof. destruct f; cbn; now rewrite ?map_length. Qed.

  Definition caps (f : fields) : hv := HList (map HText (captures f)).
  Lemma numbered_map l : forall k, numbered (Z.of_nat k) l = map (fun p => HTup [HNum (Z.of_nat (fst p)); snd p]) (combine (seq k (List.length l)) l).
  Proof.
    induction l as [|v l IH]; intros k; [reflexivity|]. cbn [numbered List.length seq combine map fst snd]. f_equal.
    rewrite <- IH. f_equal. lia.
  Qed.
  Lemma captures_ok run f ρ : (forall k v, run (HTup [HNum (Z.of_nat k); v]) ρ = Go (HText (capture k)) ρ) ->
    each run (numbered 0 (field_list f)) ρ = Go (caps f) ρ.
  Proof.
    intros H. change 0%Z with (Z.of_nat 0). rewrite numbered_map.
    rewrite (each_map run _ (fun p => HText (capture (fst p)))) by (intros [k v] _; apply H).
    unfold caps, captures. rewrite <- field_count, map_map. f_equal. f_equal. generalize 0%nat. induction (field_list f) as [|v l IH]; intros k; [reflexivity|].
    cbn. f_equal. apply IH.
  Qed.


  (* ---- rules for what changes no variable *)
  Section Rules.
    Variable self_ty : name.
    Variable c : option name -> name -> list hv -> option fin.
    Definition Pure (e : expr) (ρ : env) (v : hv) : Prop := eval turns self_ty c e ρ = Go v ρ.
    Lemma restore_app b ρ : restore ρ (b ++ ρ) = ρ.
    Proof.
      unfold restore. rewrite app_length. replace (List.length b + List.length ρ - List.length ρ)%nat with (List.length b) by lia.
      rewrite skipn_app, skipn_all, Nat.sub_diag. reflexivity.
    Qed.
    Lemma leave_go v b ρ : leave ρ (Go v (b ++ ρ)) = Go v ρ.
    Proof. unfold leave. now rewrite restore_app. Qed.
    Lemma pure_var x ts v ρ : SourceMeaning.lookup x ρ = Some v -> Pure (EPath [(x, ts)]) ρ v.
    Proof. intros H. unfold Pure. cbn [eval]. now rewrite H. Qed.
    Lemma pure_ref e ρ v : Pure e ρ v -> Pure (ERef e) ρ v.
    Proof. trivial. Qed.
    Lemma pure_field e x ρ v w : Pure e ρ v -> field v x = Some w -> Pure (SourceSyntax.EField e x) ρ w.
    Proof. unfold Pure. intros H1 H2. cbn [eval]. now rewrite H1; cbn [next]; rewrite H2. Qed.
    Lemma pure_method e m ts ρ v w : Pure e ρ v -> name_eqb m id_next = false -> method v m ts [] = Some (Some w) -> Pure (EMethod e m ts []) ρ w.
    Proof. unfold Pure. intros H1 H2 H3. cbn [eval]. rewrite H1. cbn [next]. rewrite H2. unfold call_method. now rewrite H3. Qed.
    Lemma pure_iter e m ts ρ v l : Pure e ρ v -> m = id_iter \/ m = id_into_iter -> elements v = Some l -> Pure (EMethod e m ts []) ρ (HList l).
    Proof. intros H1 [->| ->] H2; (eapply pure_method; [exact H1|reflexivity|unfold method; cbn -[elements]; now rewrite H2]). Qed.
    Lemma pure_enumerate e ts ρ l : Pure e ρ (HList l) -> Pure (EMethod e id_enumerate ts []) ρ (HList (numbered 0 l)).
    Proof. intros H. eapply pure_method; [exact H|reflexivity|reflexivity]. Qed.
    Lemma pure_len e ts ρ v l : Pure e ρ v -> elements v = Some l -> Pure (EMethod e id_len ts []) ρ (HNum (Z.of_nat (List.length l))).
    Proof. intros H1 H2. eapply pure_method; [exact H1|reflexivity|]. unfold method; cbn -[elements]; now rewrite H2. Qed.
    Lemma pure_collect e ts ρ l : Pure e ρ (HList l) -> Pure (EMethod e id_collect ts []) ρ (HList l).
    Proof. intros H. eapply pure_method; [exact H|reflexivity|reflexivity]. Qed.
    Lemma pure_method1 e a m ts ρ v u w : Pure e ρ v -> Pure a ρ u -> (match a with EClosure _ _ => False | _ => True end) ->
      name_eqb m id_push = false -> name_eqb m id_to_tokens = false ->
      method v m ts [u] = Some (Some w) -> Pure (EMethod e m ts [a]) ρ w.
    Proof.
      unfold Pure. intros H1 H2 H3 H4 H5 H6.
      transitivity (next (eval turns self_ty c e ρ) (fun v ρ => next (eval turns self_ty c a ρ) (fun w ρ =>
          if name_eqb m id_push then push_to e v w ρ else if name_eqb m id_to_tokens then append_to c a v w ρ else call_method turns c v m ts [w] ρ)));
        [destruct a; (contradiction || reflexivity)|].
      rewrite H1. cbn [next]. rewrite H2. cbn [next]. rewrite H4, H5. unfold call_method. now rewrite H6.
    Qed.
    Lemma pure_map e p b ts ρ vs w : Pure e ρ (HList vs) ->
      each (fun w ρ => match matches p w with Some bs => leave ρ (returned (eval turns self_ty c b (bs ++ ρ))) | None => Lost end) vs ρ = Go w ρ ->
      Pure (EMethod e id_map ts [EClosure [p] b]) ρ w.
    Proof. unfold Pure. intros H1 H2. cbn [eval]. rewrite H1. exact H2. Qed.
    Lemma pure_closure p b bs v w ρ : matches p v = Some bs -> Pure b (bs ++ ρ) w ->
      match matches p v with Some bs => leave ρ (returned (eval turns self_ty c b (bs ++ ρ))) | None => Lost end = Go w ρ.
    Proof. unfold Pure. intros -> H. rewrite H. cbn [returned]. apply leave_go. Qed.
    Lemma pure_let p t e els rest ρ v b w : Pure e ρ v -> matches p v = Some b -> Pure rest (b ++ ρ) w -> Pure (ELet p t (Some e) els rest) ρ w.
    Proof. unfold Pure. intros H1 H2 H3. cbn [eval]. rewrite H1. cbn [next]. rewrite H2, H3. apply leave_go. Qed.
    Fixpoint select (l : list (SourceSyntax.pat * expr)) (v : hv) : option (env * expr) :=
      match l with [] => None | (p, e) :: l' => match matches p v with Some b => Some (b, e) | None => select l' v end end.
    Lemma pure_match e l ρ v b e' w : Pure e ρ v -> select l v = Some (b, e') -> Pure e' (b ++ ρ) w -> Pure (EMatch e l) ρ w.
    Proof.
      unfold Pure. intros H1 H2 H3. cbn [eval]. rewrite H1. cbn [next]. clear H1. revert H2. induction l as [|[p k] l IH]; [discriminate|].
      cbn [select]. destruct (matches p v) as [bs|]; [|exact IH]. intros [= -> ->]. rewrite H3. apply leave_go.
    Qed.
    Lemma pure_quote k s ρ qs ts : nth_error src_quotes (Z.to_nat k) = Some qs -> inst_all c qs ρ = Some ts -> Pure (EMacro id_quote [EInt k s]) ρ (HToks ts).
    Proof. unfold Pure. intros H1 H2. cbn -[nth_error src_quotes inst_all Z.to_nat]. now rewrite H1, H2. Qed.
  End Rules.

  Ltac var := apply pure_var; reflexivity.
  Ltac fld := eapply pure_field; [var|reflexivity].

  Lemma captures_pure self_ty c ρ x f b : 
    b = EMethod (EMethod (EMethod (EMethod x id_iter [] []) id_enumerate [] []) id_map []
          [EClosure [PTup [PVar id_index; SourceSyntax.PAny]]
             (ECall (EPath [(id_Ident, []); (id_new, [])]) [ERef (EMacro id_format [EStr (txt "value{index}")]); ECall (EPath [(id_Span, []); (id_call_site, [])]) []])]) id_collect [] [] ->
    Pure self_ty c x ρ (fields_input spell f) -> Pure self_ty c b ρ (caps f).
  Proof.
    intros -> H. apply pure_collect. eapply pure_map; [eapply pure_enumerate, pure_iter; [exact H|now left|apply elements_fields]|].
    apply captures_ok. intros k v.
    apply pure_closure with (bs := [(id_index, HNum (Z.of_nat k))]); [reflexivity|]. unfold Pure. cbn -[fmt_signed]. unfold capture.
    rewrite signed_of_nat, app_nil_r. reflexivity.
  Qed.

  Lemma names_pure self_ty c ρ x fs b :
    b = EMethod (EMethod (SourceSyntax.EField x id_named) id_into_iter [] []) id_map [] [EClosure [PVar id_field] (EMethod (SourceSyntax.EField (EPath [(id_field, [])]) id_ident) id_unwrap [] [])] ->
    Pure self_ty c x ρ (HRec id_Fields [(id_named, HPunct (map (fun p => field_input spell (Some (fst p)) (snd p)) fs))]) ->
    Pure self_ty c b ρ (HList (map HText (map fst fs))).
  Proof.
    intros -> H. eapply pure_map; [eapply pure_iter; [eapply pure_field; [exact H|reflexivity]|now right|reflexivity]|].
    rewrite map_map. apply each_map. intros [y t] _. eapply pure_closure; reflexivity.
  Qed.

  (* ---- structures *)
  Lemma show_encode_all convs k xs : show (encode_all convs xs k) =
    flat_map (fun x => show (KTry (fold_left KMapErr convs (KEncode None (KVar x) n_stream))) ++ [mark ";"]) xs ++ show k.
  Proof. induction xs as [|x xs IH]; [reflexivity|]. cbn [encode_all flat_map]. rewrite <- app_assoc, <- IH, <- app_assoc. reflexivity. Qed.

  Lemma done d q f vs g ρ w : find q f = Some g -> bind_params (fn_params g) vs = Some ρ -> final ρ (fn_params g) = vs ->
    Pure (match q with Some q => q | None => id_Self end) (call turns d) (fn_body g) ρ w -> call turns (S d) q f vs = Some (Done w vs).
  Proof. intros H1 H2 H3 H4. rewrite (call_text turns d q f vs g ρ H1 H2). unfold Pure in H4. now rewrite H4, H3. Qed.

  Definition struct_data (f : fields) : hv := HRec id_DataStruct [(id_fields, fields_input spell f)].
  Lemma encode_struct_ok d f : 
    call turns (S d) None id_encode_struct [struct_data f] = Some (Done (HToks (show_body spell None (IFn true (encode_struct f)))) [struct_data f]).
  Proof.
    eapply done; [reflexivity..|]. generalize (call turns d). intros c.
    eapply pure_let; [eapply captures_pure; [reflexivity|fld]|reflexivity|]. 
    eapply pure_let with (v := HToks (show_pat (fields_pattern PSelf f))); [|reflexivity|].
    - destruct f as [|ts|fs]; (eapply pure_match; [fld|reflexivity|]).
      + eapply pure_quote; reflexivity.
      + eapply pure_quote; [reflexivity|]. cbn -[each_row rows map captures].
        rewrite rows1. erewrite each_row_map by (intros; reflexivity). rewrite app_nil_r. reflexivity.
      + eapply pure_let; [eapply names_pure; [reflexivity|var]|reflexivity|]. 
        eapply pure_quote; [reflexivity|]. cbn -[each_row rows map captures].
        rewrite rows2. erewrite each_row_map by (intros; reflexivity). rewrite app_nil_r. reflexivity.
    - eapply pure_quote; [reflexivity|]. cbn -[each_row rows map captures show_pat]. rewrite rows1. erewrite each_row_map by (intros; reflexivity).
      unfold encode_struct. cbn [show_body show]. rewrite show_encode_all. reflexivity.
  Qed.

  Lemma map_repeat_ {A B} (h : A -> B) a n : map h (repeat a n) = repeat (h a) n.
  Proof. induction n as [|n IH]; [reflexivity|]. cbn. now rewrite IH. Qed.
  Lemma repeat_n_pure self_ty c ρ n e x k ts : Pure self_ty c e ρ (HToks ts) -> Pure self_ty c x ρ (HNum (Z.of_nat k)) -> n = k ->
    Pure self_ty c (ECall (EPath [(id_iter, []); (id_repeat_n, [])]) [e; x]) ρ (HList (map HToks (repeat ts n))).
  Proof.
    intros H1 H2 ->. unfold Pure in *. cbn -[eval known]. cbn [eval]. rewrite H1. cbn [next]. rewrite H2. cbn -[Z.to_nat Z.of_nat repeat].
    rewrite Nat2Z.id, map_repeat_. reflexivity.
  Qed.

  Lemma show_value p f k : show (fields_value p f k) =
    match f with
    | FUnit => show_path p
    | FUnnamed _ => show_path p ++ [TGroup DParen (flat_map (fun ts => ts ++ [mark ","]) (repeat (show k) (List.length (field_types f))))]
    | FNamed fs => show_path p ++ [TGroup DBrace (flat_map (fun q => TId (fst q) :: mark ":" :: snd q ++ [mark ","]) (combine (map fst fs) (repeat (show k) (List.length (field_types f)))))]
    end.
  Proof.
    unfold fields_value. destruct f as [|ts|fs]; [reflexivity| |]; cbn [show]; do 3 f_equal.
    - induction (List.length (field_types (FUnnamed ts))) as [|n IH]; [reflexivity|]. cbn. now rewrite IH.
    - generalize (List.length (field_types (FNamed fs))). induction (map fst fs) as [|x l IH]; intros [|n]; try reflexivity. cbn. now rewrite IH.
  Qed.

  Lemma decode_struct_ok d f : 
    call turns (S d) None id_decode_struct [struct_data f] = Some (Done (HToks (show_body spell None (IFn false (decode_struct f)))) [struct_data f]).
  Proof.
    eapply done; [reflexivity..|]. generalize (call turns d). intros c.
    eapply pure_let; [eapply repeat_n_pure with (n := List.length (field_types f));
      [eapply pure_quote; reflexivity|eapply pure_len; [fld|apply elements_fields]|symmetry; apply field_count]|reflexivity|].
    eapply pure_let with (v := HToks (show (fields_value PSelf f (KTry (KMapErr (KDecode None n_stream) CGenericDec))))); [|reflexivity|].
    - rewrite show_value. destruct f as [|ts|fs]; (eapply pure_match; [fld|reflexivity|]).
      + eapply pure_quote; reflexivity.
      + eapply pure_quote; [reflexivity|]. cbn -[each_row rows map repeat field_types].
        rewrite rows1. erewrite each_row_map by (intros; reflexivity). rewrite app_nil_r. reflexivity.
      + eapply pure_let; [eapply names_pure; [reflexivity|var]|reflexivity|]. 
        eapply pure_quote; [reflexivity|]. cbn -[each_row rows map repeat field_types].
        rewrite rows2. erewrite each_row_map by (intros; reflexivity). rewrite app_nil_r. reflexivity.
    - eapply pure_quote; [reflexivity|]. reflexivity.
  Qed.

  Lemma show_sum l : forall e, show_size spell (fold_left NAdd (map NMaxSize l) e) =
    show_size spell e ++ flat_map (fun t => mark "+" :: qualified (spell t) (global ["oct"; "encode"; "SizedEncode"]) "MAX_ENCODED_SIZE") l.
  Proof. induction l as [|t l IH]; intros e; cbn [map fold_left flat_map]; [now rewrite app_nil_r|]. rewrite IH. cbn [show_size]. now rewrite <- app_assoc. Qed.
  Lemma each_types run f ρ : (forall x t, run (field_input spell x t) ρ = Go (HToks (spell t)) ρ) -> each run (field_list f) ρ = Go (HList (map HToks (map spell (field_types f)))) ρ.
  Proof.
    intros H. rewrite map_map. destruct f as [|ts|fs]; cbn [field_list field_types]; [reflexivity| |].
    - apply each_map. intros; apply H.
    - rewrite map_map. apply each_map. intros; apply H.
  Qed.

  Lemma sized_encode_struct_ok d f : 
    call turns (S d) None id_sized_encode_struct [struct_data f] = Some (Done (HToks (show_body spell None (IConst (sized_encode_struct f)))) [struct_data f]).
  Proof.
    eapply done; [reflexivity..|]. generalize (call turns d). intros c.
    eapply pure_let; [eapply pure_collect, pure_map; [eapply pure_iter; [fld|now right|apply elements_fields]|]|reflexivity|].
    { apply each_types. intros x t. eapply pure_closure; reflexivity. }
    eapply pure_quote; [reflexivity|]. cbn -[each_row rows map repeat field_types].
    rewrite rows1. erewrite each_row_map by (intros; reflexivity). 
    cbn [show_body sized_encode_struct show_const]. unfold sum_of. rewrite show_sum. rewrite flat_map_concat_map, map_map, <- flat_map_concat_map. 
    cbn [show_size app]. do 8 f_equal.
  Qed.

  (* ---- enumerations *)
  Definition enum_data (ws : list hv) : hv := HRec id_DataEnum [(id_variants, HPunct ws)].
  Definition lits (ds : list Z) : hv := HList (map (fun z => HLitInt (fmt_signed z)) ds).
  Lemma each_forall2 {A} (R : A -> hv -> Prop) run (g : A -> hv) ρ vs ws : Forall2 R vs ws -> (forall v w, R v w -> run w ρ = Go (g v) ρ) ->
    each run ws ρ = Go (HList (map g vs)) ρ.
  Proof. induction 1 as [|v w vs ws Hv _ IH]; intros H; [reflexivity|]. cbn [each map]. rewrite (H _ _ Hv). cbn [next]. rewrite IH by exact H. reflexivity. Qed.
  Lemma variant_fields v w : IsVariant spell v w -> field w id_fields = Some (fields_input spell (nv_fields v)).
  Proof. now destruct 1. Qed.
  Lemma variant_name v w : IsVariant spell v w -> field w id_ident = Some (HText (nv_name v)).
  Proof. now destruct 1. Qed.
  Lemma zipped_ok {A} (R : A -> hv -> Prop) (g : A -> hv) vs ws : Forall2 R vs ws -> Forall2 (fun v w => exists u, R v u /\ w = HTup [u; g v]) vs (zipped ws (map g vs)).
  Proof. induction 1 as [|v w vs ws Hv _ IH]; constructor; [now exists w|exact IH]. Qed.

  Lemma discriminants_ok self_ty d vs ws ρ : Forall2 (IsVariant spell) vs ws -> exprs_ok (map nv_disc vs) -> (List.length vs < turns)%nat ->
    SourceMeaning.lookup id_data ρ = Some (enum_data ws) ->
    eval turns self_ty (call turns (S d)) (EMethod (ECall (EPath [(id_Discriminants, []); (id_new, [])]) [ERef (SourceSyntax.EField (EPath [(id_data, [])]) id_variants)]) id_collect [] []) ρ =
    match read_discriminants (map nv_disc vs) with Some ds => Go (lits ds) ρ | None => Die end.
  Proof.
    intros H1 H2 H3 H4.
    assert (N : eval turns self_ty (call turns (S d)) (ECall (EPath [(id_Discriminants, []); (id_new, [])]) [ERef (SourceSyntax.EField (EPath [(id_data, [])]) id_variants)]) ρ = Go (dstate ws none) ρ).
    { cbn [eval]. rewrite H4. cbn -[call]. rewrite new_ok. reflexivity. }
    set (e := ECall _ _) in *. clearbody e. cbn [eval]. rewrite N. cbn [next].
    transitivity (finish (Some (drain (call turns (S d)) turns id_Discriminants (dstate ws none))) ρ); [reflexivity|].
    rewrite (drain_ok turns d spell vs ws H1 turns None none); [|constructor|exact H2|exact H3].
    unfold read_discriminants. destruct (read_from _ _); reflexivity.
  Qed.

  Lemma die_let self_ty c p t e els rest ρ : eval turns self_ty c e ρ = Die -> eval turns self_ty c (ELet p t (Some e) els rest) ρ = Die.
  Proof. intros H. cbn [eval]. now rewrite H. Qed.
  Lemma combine_twice {A B C} (G : A * (B * A) -> list C) vs : forall ds, flat_map G (combine vs (combine ds vs)) = flat_map (fun p => G (snd p, p)) (combine ds vs).
  Proof. induction vs as [|v vs IH]; intros [|z ds]; try reflexivity. cbn. now rewrite IH. Qed.
  Lemma flat_map_map {A B C} (h : A -> B) (g : B -> list C) l : flat_map g (map h l) = flat_map (fun a => g (h a)) l.
  Proof. induction l as [|a l IH]; [reflexivity|]. cbn. now rewrite IH. Qed.
  Lemma flat_map_flat_map {A B C} (h : A -> list B) (g : B -> list C) l : flat_map g (flat_map h l) = flat_map (fun a => flat_map g (h a)) l.
  Proof. induction l as [|a l IH]; [reflexivity|]. cbn. now rewrite flat_map_app, IH. Qed.
  Lemma flat_map_same {A B} (f g : A -> list B) l : (forall a, f a = g a) -> flat_map f l = flat_map g l.
  Proof. intros H. induction l as [|a l IH]; [reflexivity|]. cbn. now rewrite H, IH. Qed.

  Definition pattern (v : nvariant) : hv := HToks (show_pat (fields_pattern (PVariant (nv_name v)) (nv_fields v))).
  Lemma encode_enum_ok d vs ws r : Forall2 (IsVariant spell) vs ws -> exprs_ok (map nv_disc vs) -> (List.length vs < turns)%nat ->
    call turns (S (S (S (S d)))) None id_encode_enum [enum_data ws; repr_hv r] =
    Some match read_discriminants (map nv_disc vs) with
         | Some ds => Done (HToks (show_body spell (Some r) (IFn true (encode_enum r ds vs)))) [enum_data ws; repr_hv r]
         | None => Dies
         end.
  Proof.
    intros H1 H2 H3.
    pose proof (discriminants_ok id_Self (S (S d)) vs ws [(id_data, enum_data ws); (id_repr, repr_hv r)] H1 H2 H3 eq_refl) as HD.
    pose proof (repr_tokens turns d r) as HR. unfold repr_hv in HR.
    destruct (read_discriminants (map nv_disc vs)) as [ds|].
    2: { rewrite (call_text turns (S (S (S d))) None id_encode_enum [enum_data ws; repr_hv r] src_fn_encode_enum [(id_data, enum_data ws); (id_repr, repr_hv r)] eq_refl eq_refl).
         cbn [fn_body src_fn_encode_enum]. rewrite die_let by exact HD. reflexivity. }
    eapply done; [reflexivity..|]. revert HD HR. generalize (call turns (S (S (S d)))). intros c HD HR.
    eapply pure_let; [exact HD|reflexivity|].
    eapply pure_let with (v := HList (map (fun v => caps (nv_fields v)) vs)); [|reflexivity|].
    { apply pure_collect. eapply pure_map; [eapply pure_iter; [fld|now left|reflexivity]|].
      eapply each_forall2; [exact H1|]. intros v w Hv. eapply pure_closure; [reflexivity|].
      eapply captures_pure; [reflexivity|]. eapply pure_field; [var|]. apply variant_fields, Hv. }
    eapply pure_let with (v := HList (map pattern vs)); [|reflexivity|].
    { eapply pure_map; [eapply pure_method1; [eapply pure_iter; [fld|now right|reflexivity]|apply pure_ref; var|exact I|reflexivity|reflexivity|reflexivity]|].
      eapply each_forall2; [apply zipped_ok with (g := fun v => caps (nv_fields v)), H1|]. intros v w (u & Hu & ->).
      eapply pure_closure; [reflexivity|]. eapply pure_let; [eapply pure_field; [var|apply variant_name, Hu]|reflexivity|].
      unfold pattern. pose proof (variant_fields v u Hu) as Hf.
      destruct (nv_fields v) as [|ts|fs]; (eapply pure_match; [eapply pure_field; [var|exact Hf]|reflexivity|]).
      + eapply pure_quote; reflexivity.
      + eapply pure_quote; [reflexivity|]. cbn -[each_row rows map captures].
        rewrite rows1. erewrite each_row_map by (intros; reflexivity). rewrite app_nil_r. reflexivity.
      + eapply pure_let; [eapply names_pure; [reflexivity|var]|reflexivity|]. 
        eapply pure_quote; [reflexivity|]. cbn -[each_row rows map captures].
        rewrite rows2. erewrite each_row_map by (intros; reflexivity). rewrite app_nil_r. reflexivity. }
    eapply pure_quote; [reflexivity|]. unfold lits, repr_hv. cbn -[each_row rows map captures repr_con caps pattern show_body]. rewrite HR.
    cbn -[each_row rows map captures repr_con caps pattern show_body]. rewrite rows3. erewrite each_row_map.
    2: { intros p _. unfold caps, pattern. cbn -[each_row rows map captures repr_con show_pat fields_pattern]. rewrite HR. 
         cbn -[each_row rows map captures show_pat fields_pattern]. rewrite rows1. erewrite each_row_map by (intros; reflexivity). reflexivity. }
    rewrite combine_twice. cbn [show_body]. unfold encode_enum. cbn [show]. rewrite flat_map_app, flat_map_map.
    match goal with |- ?L = ?R => match L with context [flat_map ?G (combine ds vs)] => match R with context [flat_map ?H (combine ds vs)] =>
      replace (flat_map H (combine ds vs)) with (flat_map G (combine ds vs)) end end end; [reflexivity|].
    apply flat_map_same. intros [z v]. unfold encode_arm. cbn [fst snd]. change (show (KSeq ?a ?b)) with (show a ++ [mark ";"] ++ show b).
    rewrite show_encode_all. reflexivity.
  Qed.

  Definition command : code := KTry (KMapErr (KMapErr (KDecode None n_stream) CGenericDec) CDecField).
  Definition value (v : nvariant) : hv := HToks (show (fields_value (PVariant (nv_name v)) (nv_fields v) command)).
  Lemma decode_enum_ok d vs ws r : Forall2 (IsVariant spell) vs ws -> exprs_ok (map nv_disc vs) -> (List.length vs < turns)%nat ->
    call turns (S (S (S (S d)))) None id_decode_enum [enum_data ws; repr_hv r] =
    Some match read_discriminants (map nv_disc vs) with
         | Some ds => Done (HToks (show_body spell (Some r) (IFn false (decode_enum r ds vs)))) [enum_data ws; repr_hv r]
         | None => Dies
         end.
  Proof.
    intros H1 H2 H3.
    pose proof (discriminants_ok id_Self (S (S d)) vs ws [(id_data, enum_data ws); (id_repr, repr_hv r)] H1 H2 H3 eq_refl) as HD.
    pose proof (repr_tokens turns d r) as HR. unfold repr_hv in HR.
    destruct (read_discriminants (map nv_disc vs)) as [ds|].
    2: { rewrite (call_text turns (S (S (S d))) None id_decode_enum [enum_data ws; repr_hv r] src_fn_decode_enum [(id_data, enum_data ws); (id_repr, repr_hv r)] eq_refl eq_refl).
         cbn [fn_body src_fn_decode_enum]. rewrite die_let by exact HD. reflexivity. }
    eapply done; [reflexivity..|]. revert HD HR. generalize (call turns (S (S (S d)))). intros c HD HR.
    eapply pure_let; [exact HD|reflexivity|].
    eapply pure_let with (v := HList (map value vs)); [|reflexivity|].
    { eapply pure_map; [eapply pure_iter; [fld|now right|reflexivity]|].
      eapply each_forall2; [exact H1|]. intros v w Hv. eapply pure_closure; [reflexivity|].
      eapply pure_let; [eapply pure_field; [var|apply variant_name, Hv]|reflexivity|].
      pose proof (variant_fields v w Hv) as Hf.
      eapply pure_let; [eapply repeat_n_pure with (n := List.length (field_types (nv_fields v)));
        [eapply pure_quote; reflexivity|eapply pure_len; [eapply pure_field; [var|exact Hf]|apply elements_fields]|symmetry; apply field_count]|reflexivity|].
      unfold value. rewrite show_value. destruct (nv_fields v) as [|ts|fs]; (eapply pure_match; [eapply pure_field; [var|exact Hf]|reflexivity|]).
      + eapply pure_quote; reflexivity.
      + eapply pure_quote; [reflexivity|]. cbn -[each_row rows map repeat field_types].
        rewrite rows1. erewrite each_row_map by (intros; reflexivity). rewrite app_nil_r. reflexivity.
      + eapply pure_let; [eapply names_pure; [reflexivity|var]|reflexivity|]. 
        eapply pure_quote; [reflexivity|]. cbn -[each_row rows map repeat field_types].
        rewrite rows2. erewrite each_row_map by (intros; reflexivity). rewrite app_nil_r. reflexivity. }
    eapply pure_quote; [reflexivity|]. unfold lits, repr_hv. cbn -[each_row rows map repr_con value show_body]. rewrite !HR.
    cbn -[each_row rows map repr_con value show_body]. rewrite rows2. erewrite each_row_map by (intros; unfold value; reflexivity).
    cbn [show_body]. unfold decode_enum. cbn [show]. rewrite flat_map_app, flat_map_map.
    match goal with |- ?L = ?R => match L with context [flat_map ?G (combine ds vs)] => match R with context [flat_map ?H (combine ds vs)] =>
      replace (flat_map H (combine ds vs)) with (flat_map G (combine ds vs)) end end end; [reflexivity|].
    apply flat_map_same. intros [z v]. unfold decode_arm. cbn [fst snd]. unfold fields_value. destruct (nv_fields v); reflexivity.
  Qed.

  Definition size_hv (r : ity) (o : option ty) : hv := match o with Some t => HToks (spell t) | None => type_hv r end.
  Lemma sizes r l : HList (map HToks (map spell l) ++ [type_hv r]) = HList (map (size_hv r) (map Some l ++ [None])).
  Proof. rewrite map_app, !map_map. reflexivity. Qed.
  Lemma size_toks c r o : toks c (size_hv r o) = Some (spell (match o with Some t => t | None => TInt r end)).
  Proof. destruct o as [t|]; cbn [size_hv]; [reflexivity|]. rewrite spell_int. destruct r; reflexivity. Qed.
  Lemma size_list {A} r (G : option ty -> list A) (g : ty -> list A) : (forall o, G o = g (match o with Some t => t | None => TInt r end)) ->
    forall l, flat_map G (map Some l ++ [None]) = flat_map g (l ++ [TInt r]).
  Proof. intros H l. rewrite !flat_map_app, flat_map_map. f_equal; [|cbn; now rewrite H]. apply flat_map_same. intros; apply H. Qed.
  Lemma sized_encode_enum_ok d vs ws r : Forall2 (IsVariant spell) vs ws ->
    call turns (S (S (S (S (S d))))) None id_sized_encode_enum [enum_data ws; repr_hv r] =
    Some (Done (HToks (show_body spell (Some r) (IConst (sized_encode_enum r vs)))) [enum_data ws; repr_hv r]).
  Proof.
    intros H1. pose proof (repr_type turns d r) as HT. unfold repr_hv in HT.
    eapply done; [reflexivity..|]. revert HT. generalize (call turns (S (S (S (S d))))). intros c HT.
    eapply pure_let with (v := HList (map (fun v => HList (map (size_hv r) (map Some (field_types (nv_fields v)) ++ [None]))) vs)); [|reflexivity|].
    { apply pure_collect. eapply pure_map; [eapply pure_iter; [fld|now left|reflexivity]|].
      eapply each_forall2; [exact H1|]. intros v w Hv. eapply pure_closure; [reflexivity|]. pose proof (variant_fields v w Hv) as Hf.
      apply pure_collect. eapply pure_method1.
      - eapply pure_map; [eapply pure_iter; [eapply pure_field; [var|exact Hf]|now left|apply elements_fields]|].
        apply each_types. intros x t. eapply pure_closure; reflexivity.
      - unfold Pure, repr_hv. cbn -[repr_con type_hv]. unfold call_method. cbn -[repr_con type_hv]. rewrite HT. reflexivity.
      - exact I.
      - reflexivity.
      - reflexivity.
      - rewrite <- sizes. reflexivity. }
    eapply pure_quote; [reflexivity|]. cbn -[each_row rows map size_hv show_body toks]. rewrite rows1.
    erewrite each_row_map.
    2: { intros v _. cbn -[each_row rows map size_hv toks]. rewrite rows1. erewrite each_row_map by (intros; cbn -[size_hv toks]; rewrite size_toks; reflexivity). reflexivity. }
    cbn [show_body]. unfold sized_encode_enum. cbn [show_const].
    match goal with |- _ = Some (_ ++ ?M ++ _) => transitivity (Some ([word "const"; word "MAX_ENCODED_SIZE"; mark ":"; word "usize"; mark "="] ++ 
      [TGroup DBrace (flat_map (show_stmt spell) ([SLet n_total (NLit 0); SLet n_current (NLit 0)] ++
                flat_map (fun v : nvariant => [SAssign n_current (sum_of (field_types (nv_fields v) ++ [TInt r])); SIfGreater n_current n_total n_total n_current]) vs) ++
             show_size spell (NVar n_total))] ++ [mark ";"])); [|reflexivity] end.
    rewrite flat_map_app, flat_map_flat_map.
    match goal with |- ?L = ?R => match L with context [flat_map ?G vs] => match R with context [flat_map ?H vs] =>
      replace (flat_map H vs) with (flat_map G vs) end end end; [reflexivity|].
    apply flat_map_same. intros v. cbn [flat_map show_stmt]. unfold sum_of. rewrite show_sum.
    rewrite <- (size_list r _ _ (fun o => eq_refl)). cbn [show_size]. rewrite <- !app_assoc. reflexivity.
  Qed.

  (* ---- the whole *)
  Definition trait_words (tr : trait) : list (list byte) :=
    match tr with TrEncode => [txt "oct"; txt "encode"; txt "Encode"] | TrDecode => [txt "oct"; txt "decode"; txt "Decode"] | TrSizedEncode => [txt "oct"; txt "encode"; txt "SizedEncode"] end.
  Definition trait_hv (tr : trait) : hv :=
    make_path (some HUnit) (map (fun s => HRec id_PathSegment [(id_ident, HText s); (id_arguments, HDefault)]) (trait_words tr)).
  Definition struct_fn (tr : trait) : name := match tr with TrEncode => id_encode_struct | TrDecode => id_decode_struct | TrSizedEncode => id_sized_encode_struct end.
  Definition enum_fn (tr : trait) : name := match tr with TrEncode => id_encode_enum | TrDecode => id_decode_enum | TrSizedEncode => id_sized_encode_enum end.

  Lemma toks_punct {A} c (g : A -> hv) (h : A -> list token) l : (forall a, toks c (g a) = Some (h a)) -> toks c (HPunct (map g l)) = Some (separated (map h l)).
  Proof.
    intros H. cbn [toks]. induction l as [|a l IH]; [reflexivity|]. destruct l as [|b l]; [apply H|].
    cbn [map] in *. rewrite H, IH. reflexivity.
  Qed.
  Lemma toks_param c p : toks c (param_input p) = Some [TParam p].
  Proof. destruct p as [[] x b e]; reflexivity. Qed.
  Lemma toks_gname d p : toks (call turns (S d)) (gname_hv p) = Some (show_name (g_kind p, g_name p)).
  Proof.
    pose proof (gname_tokens turns d p) as H. destruct p as [[] x b e]; cbn -[call] in *; rewrite H; reflexivity.
  Qed.

  Lemma fn1 self_ty c f a ρ g v r : SourceMeaning.lookup f ρ = Some (HFn g) -> Pure self_ty c a ρ v -> known None g [v] = None -> c None g [v] = Some r ->
    eval turns self_ty c (ECall (EPath [(f, [])]) [a]) ρ = finish (Some r) ρ.
  Proof. unfold Pure. intros H1 H2 H3 H4. cbn [eval]. rewrite H2. cbn [next]. rewrite H1. unfold call_path. cbn [option_map]. now rewrite H3, H4. Qed.
  Lemma fn2 self_ty c f a b ρ g v w r : SourceMeaning.lookup f ρ = Some (HFn g) -> Pure self_ty c a ρ v -> Pure self_ty c b ρ w ->
    known None g [v; w] = None -> c None g [v; w] = Some r -> eval turns self_ty c (ECall (EPath [(f, [])]) [a; b]) ρ = finish (Some r) ρ.
  Proof. unfold Pure. intros H1 H2 H2' H3 H4. cbn [eval]. rewrite H2. cbn [next]. rewrite H2'. cbn [next]. rewrite H1. unfold call_path. cbn [option_map]. now rewrite H3, H4. Qed.
  Lemma fn5 self_ty c f a1 a2 a3 a4 a5 ρ v1 v2 v3 v4 v5 r : SourceMeaning.lookup f ρ = None ->
    Pure self_ty c a1 ρ v1 -> Pure self_ty c a2 ρ v2 -> Pure self_ty c a3 ρ v3 -> Pure self_ty c a4 ρ v4 -> Pure self_ty c a5 ρ v5 ->
    known None f [v1; v2; v3; v4; v5] = None -> c None f [v1; v2; v3; v4; v5] = Some r ->
    eval turns self_ty c (ECall (EPath [(f, [])]) [a1; a2; a3; a4; a5]) ρ = finish (Some r) ρ.
  Proof.
    unfold Pure. intros H0 H1 H2 H3 H4 H5 H6 H7. cbn [eval]. rewrite H1. cbn [next]. rewrite H2. cbn [next]. rewrite H3. cbn [next]. rewrite H4. cbn [next].
    rewrite H5. cbn [next]. rewrite H0. unfold call_path. cbn [option_map]. now rewrite H6, H7.
  Qed.
  Lemma match_go self_ty c e l ρ v b e' : Pure self_ty c e ρ v -> select l v = Some (b, e') -> eval turns self_ty c (EMatch e l) ρ = leave ρ (eval turns self_ty c e' (b ++ ρ)).
  Proof.
    unfold Pure. intros H1 H2. cbn [eval]. rewrite H1. cbn [next]. clear H1. revert H2. induction l as [|[p k] l IH]; [discriminate|].
    cbn [select]. destruct (matches p v) as [bs|]; [|exact IH]. now intros [= -> ->].
  Qed.
  Lemma let_go self_ty c p t e els rest ρ v b : Pure self_ty c e ρ v -> matches p v = Some b -> eval turns self_ty c (ELet p t (Some e) els rest) ρ = leave ρ (eval turns self_ty c rest (b ++ ρ)).
  Proof. unfold Pure. intros H1 H2. cbn [eval]. rewrite H1. cbn [next]. now rewrite H2. Qed.
  Definition code_tokens (attrs : list attr) (def : ndata) (tr : trait) : option (list token) :=
    option_map (show_body spell (repr_used attrs def)) (derive_code tr attrs def).
  Lemma body_ok d tr attrs aws def dw ρ :
    Forall2 IsAttr attrs aws -> IsData spell def dw -> exprs_ok (discs def) -> (List.length (discs def) < turns)%nat ->
    (exists fs, SourceMeaning.lookup id_input ρ = Some (HRec id_DeriveInput fs) /\ SourceMeaning.lookup id_data fs = Some dw /\ SourceMeaning.lookup id_attrs fs = Some (HList aws)) ->
    SourceMeaning.lookup id_struct_body ρ = Some (HFn (struct_fn tr)) -> SourceMeaning.lookup id_enum_body ρ = Some (HFn (enum_fn tr)) ->
    eval turns id_Self (call turns (S (S (S (S (S d))))))
      (EMatch (SourceSyntax.EField (EPath [(id_input, [])]) id_data) 
        [((PCon [(id_Data, []); (id_Struct, [])] [(PVar id_data)]), (ECall (EPath [(id_struct_body, [])]) [(EPath [(id_data, [])])])); 
         ((PCon [(id_Data, []); (id_Enum, [])] [(PVar id_data)]), 
            (ELet (PVar id_repr) None (Some (EMethod (ECall (EPath [(id_Repr, []); (id_get, [])]) [(ERef (SourceSyntax.EField (EPath [(id_input, [])]) id_attrs))]) id_unwrap_or_default [] [])) None
              (ECall (EPath [(id_enum_body, [])]) [(EPath [(id_data, [])]); (EPath [(id_repr, [])])])));
         ((PCon [(id_Data, []); (id_Union, [])] [PRest]), (EMacro id_panic [(EStr (txt "unions cannot derive `{trait_name:?}`"))]))]) ρ =
    match code_tokens attrs def tr with Some ts => Go (HToks ts) ρ | None => Die end.
  Proof.
    intros HA HD HE HL (fs & H1 & H2 & H3) H4 H5. 
    assert (HF : forall f, call turns (S (S (S (S (S d))))) None (struct_fn tr) [struct_data f] = 
      Some (Done (HToks (show_body spell None match tr with TrEncode => IFn true (encode_struct f) | TrDecode => IFn false (decode_struct f) | TrSizedEncode => IConst (sized_encode_struct f) end)) [struct_data f])).
    { intros f. destruct tr; [apply encode_struct_ok|apply decode_struct_ok|apply sized_encode_struct_ok]. }
    pose proof (get_ok turns (S (S (S (S d)))) attrs aws HA) as HG. pose proof (repr_default turns (S (S (S (S d))))) as HR.
    assert (HV : forall vs ws r, def = NEnum vs -> Forall2 (IsVariant spell) vs ws -> call turns (S (S (S (S (S d))))) None (enum_fn tr) [enum_data ws; repr_hv r] =
      Some match (match tr with
      | TrSizedEncode => Some (IConst (sized_encode_enum r vs))
      | TrEncode => option_map (fun ds => IFn true (encode_enum r ds vs)) (read_discriminants (map nv_disc vs))
      | TrDecode => option_map (fun ds => IFn false (decode_enum r ds vs)) (read_discriminants (map nv_disc vs))
      end) with Some i => Done (HToks (show_body spell (Some r) i)) [enum_data ws; repr_hv r] | None => Dies end).
    { intros vs ws r -> H. cbn [discs] in HE, HL. rewrite map_length in HL. destruct tr; cbn [enum_fn].
      - rewrite (encode_enum_ok (S d) vs ws r H HE HL). destruct (read_discriminants _); reflexivity.
      - rewrite (decode_enum_ok (S d) vs ws r H HE HL). destruct (read_discriminants _); reflexivity.
      - apply sized_encode_enum_ok, H. }
    revert HF HG HR HV. generalize (call turns (S (S (S (S (S d)))))). intros c HF HG HR HV.
    assert (HI : Pure id_Self c (SourceSyntax.EField (EPath [(id_input, [])]) id_data) ρ dw) by (eapply pure_field; [apply pure_var, H1|exact H2]).
    destruct HD as [f|vs ws Hvs|f w].
    - erewrite match_go; [|exact HI|reflexivity]. erewrite fn1; [|exact H4|var|destruct tr; reflexivity|apply HF].
      cbn [finish]. rewrite (leave_go id_Self c). reflexivity.
    - erewrite match_go; [|exact HI|reflexivity]. unfold code_tokens, repr_used, derive_code, repr_of.
      assert (HQ : eval turns id_Self c (EMethod (ECall (EPath [(id_Repr, []); (id_get, [])]) [(ERef (SourceSyntax.EField (EPath [(id_input, [])]) id_attrs))]) id_unwrap_or_default [] [])
        ([(id_data, enum_data ws)] ++ ρ) = match repr_get attrs with Some o => Go (repr_hv match o with Some i => i | None => Isize end) ([(id_data, enum_data ws)] ++ ρ) | None => Die end).
      { assert (HQ : eval turns id_Self c (ECall (EPath [(id_Repr, []); (id_get, [])]) [(ERef (SourceSyntax.EField (EPath [(id_input, [])]) id_attrs))]) ([(id_data, enum_data ws)] ++ ρ) = 
          match repr_get attrs with Some o => Go (this_hv o) ([(id_data, enum_data ws)] ++ ρ) | None => Die end).
        { cbn -[SourceMeaning.lookup]. change (SourceMeaning.lookup id_input ((id_data, enum_data ws) :: ρ)) with (SourceMeaning.lookup id_input ρ). rewrite H1. cbn -[SourceMeaning.lookup].
          rewrite H3. cbn. unfold call_path. cbn. rewrite HG. destruct (repr_get attrs); reflexivity. }
        set (e := ECall _ _) in *. clearbody e. cbn [eval]. rewrite HQ. destruct (repr_get attrs) as [[i|]|]; cbn [next]; [reflexivity| |reflexivity].
        cbn -[repr_hv]. unfold call_method. cbn -[repr_hv]. rewrite HR. reflexivity. }
      destruct (repr_get attrs) as [o|]; cbn [option_map]; [|erewrite die_let by exact HQ; reflexivity].
      set (r := match o with Some i => i | None => Isize end) in *. clearbody r.
      erewrite let_go; [|exact HQ|reflexivity]. 
      erewrite fn2; [|exact H5|var|var|destruct tr; reflexivity|eapply HV; [reflexivity|exact Hvs]].
      destruct (match tr with TrEncode => _ | TrDecode => _ | TrSizedEncode => _ end); cbn [finish option_map]; [|reflexivity]. 
      rewrite !(leave_go id_Self c). reflexivity.
    - erewrite match_go; [|exact HI|reflexivity]. reflexivity.
  Qed.

  Lemma impl_ok d tr self attrs params wh def v :
    IsInput spell self attrs params wh def v -> exprs_ok (discs def) -> (List.length (discs def) < turns)%nat ->
    let args := [v; trait_hv tr; none; HFn (struct_fn tr); HFn (enum_fn tr)] in
    call turns (S (S (S (S (S (S d)))))) None id_impl_derive_macro args =
    Some match derive_code tr attrs def with
         | Some i => Done (HToks (show_impl spell tr self (derive_header params wh) (repr_used attrs def) i)) args
         | None => Dies
         end.
  Proof.
    intros [aws dw HA HD] HE HL args. set (inp := HRec id_DeriveInput _) in *.
    set (gen := HRec id_Generics [(id_params, HPunct (map param_input params)); (id_where_clause, HToks (where_tokens wh))]) in *.
    set (ρ := [(id_input, inp); (id_trait_path, trait_hv tr); (id_unsafe_token, none); (id_struct_body, HFn (struct_fn tr)); (id_enum_body, HFn (enum_fn tr))]).
    set (name_hv := HText (last (trait_words tr) [])).
    set (ρ2 := (id_self_name, HText self) :: (id_trait_name, name_hv) :: ρ).
    pose proof (body_ok d tr attrs aws def dw ρ2 HA HD HE HL) as HB.
    specialize (HB ltac:(eexists; split; [reflexivity|split; reflexivity]) eq_refl eq_refl).
    pose proof (extract_ok turns (S (S (S (S d)))) params (HToks (where_tokens wh))) as HX. cbv zeta in HX. fold gen in HX.
    pose proof (fun p => toks_gname (S (S (S (S d)))) p) as HN.
    rewrite (call_text turns (S (S (S (S (S d))))) None id_impl_derive_macro args src_fn_impl_derive_macro ρ eq_refl eq_refl).
    revert HB HX HN. generalize (call turns (S (S (S (S (S d)))))). intros c HB HX HN.
    unfold code_tokens in HB. destruct (derive_code tr attrs def) as [i|]; cbn [option_map] in HB.
    - enough (HP : Pure id_Self c (fn_body src_fn_impl_derive_macro) ρ (HToks (show_impl spell tr self (derive_header params wh) (repr_used attrs def) i))).
      { unfold Pure in HP. rewrite HP. reflexivity. }
      eapply pure_let with (v := name_hv); [destruct tr; reflexivity|reflexivity|].
      eapply pure_let; [apply pure_ref; fld|reflexivity|].
      eapply pure_let; [exact HB|reflexivity|].
      eapply pure_let; [apply pure_ref; eapply pure_field; [fld|reflexivity]|reflexivity|].
      eapply pure_let; [apply pure_ref; eapply pure_field; [fld|reflexivity]|reflexivity|].
      eapply pure_let with (v := HPunct (map gname_hv params)); [|reflexivity|].
      { unfold Pure. cbn -[gen map]. unfold call_path. cbn -[gen map]. rewrite HX. reflexivity. }
      eapply pure_let; [|reflexivity|var].
      eapply pure_quote; [reflexivity|]. 
      cbn -[toks map param_input gname_hv show_impl trait_hv].
      rewrite (toks_punct c param_input (fun p => [TParam p])) by apply toks_param.
      rewrite (toks_punct c gname_hv (fun p => show_name (g_kind p, g_name p))) by apply HN.
      assert (HR : toks c (trait_hv tr) = Some (show_trait tr)) by (destruct tr; reflexivity). rewrite HR.
      unfold show_impl, derive_header. cbn [h_params h_args h_where]. rewrite map_map.
      cbn -[map separated show_trait show_body where_tokens]. rewrite <- ?app_assoc, ?app_nil_r. cbn [app]. reflexivity.
    - assert (HP : eval turns id_Self c (fn_body src_fn_impl_derive_macro) ρ = Die); [|now rewrite HP].
      cbn [fn_body src_fn_impl_derive_macro]. erewrite let_go with (v := name_hv); [|destruct tr; reflexivity|reflexivity]. erewrite let_go; [|apply pure_ref; fld|reflexivity].
      erewrite die_let; [reflexivity|exact HB].
  Qed.

  Theorem derive_ok d tr self attrs params wh def v :
    IsInput spell self attrs params wh def v -> exprs_ok (discs def) -> (List.length (discs def) < turns)%nat -> (7 <= d)%nat ->
    call turns d None (macro_of tr) [v] =
    Some match derive_code tr attrs def with
         | Some i => Done (HToks (show_impl spell tr self (derive_header params wh) (repr_used attrs def) i)) [v]
         | None => Dies
         end.
  Proof.
    intros HI HE HL Hd. do 7 (destruct d as [|d]; [lia|]). clear Hd.
    pose proof (impl_ok d tr self attrs params wh def v HI HE HL) as HM. cbv zeta in HM. revert HM.
    pose proof (call_text turns (S (S (S (S (S (S d)))))) None (macro_of tr) [v] match tr with TrEncode => src_fn_derive_encode | TrDecode => src_fn_derive_decode | TrSizedEncode => src_fn_derive_sized_encode end
      [(id_input, v)]) as HC. rewrite HC by (destruct tr; reflexivity). clear HC.
    generalize (call turns (S (S (S (S (S (S d))))))). intros c HM. destruct HI as [aws dw HA HD]. set (v := HRec id_DeriveInput _) in *.
    destruct tr; cbn [fn_body src_fn_derive_encode src_fn_derive_decode src_fn_derive_sized_encode fn_params];
      (erewrite let_go with (v := v); [|reflexivity|reflexivity]);
      match goal with |- context [derive_code ?T attrs def] => match goal with |- context [eval turns ?S ?C (ELet _ _ (Some ?e) _ _) ?R] =>
        assert (HE' : eval turns S C e R = match derive_code T attrs def with Some i => Go (HToks (show_impl spell T self (derive_header params wh) (repr_used attrs def) i)) R | None => Die end);
        [erewrite fn5 with (v1 := v) (v2 := trait_hv T) (v3 := none) (v4 := HFn (struct_fn T)) (v5 := HFn (enum_fn T)); [|reflexivity|reflexivity|reflexivity|reflexivity|reflexivity|reflexivity|reflexivity|exact HM]; destruct (derive_code _ _ _); reflexivity|] end end;
      (destruct (derive_code _ _ _); [erewrite let_go; [|exact HE'|reflexivity]; reflexivity|erewrite die_let; [reflexivity|exact HE']]).
  Qed.
End Bodies.
